(* A program with vector instructions, built and run:
   vpxor(ymm0, ymm0, ymm0); L("lp"); vpaddd(ymm0, ymm0, ptr [rsi]); add(rsi, 32); sub(ecx, 1); jnz("lp"); ret(); *)
From Coq Require Import ZArith List Bool String Lia.
From Verif Require Import Base Types Emit EmitFacts Encode Mnemonic SpecX86 SpecAddr SpecIsa SpecInsn SpecLeg SpecCond SpecExec SpecVec IsaRows VecIsa SpecVecRun SpecMach Wf ArgCheck ExecFacts ExecProofs ExecMore State Code Label Gen SpecLabel LabelThms Grow LabelThms6 SpecProg VexTables VecFacts ProgInsn ProgMach VecInsn ProgRef ProgHist ProgSim ProgSum ProgThms.
Import ListNotations.
Open Scope list_scope.
Open Scope Z_scope.

Definition rsi := OReg (Reg64 6).
Definition ymm0 := Ymm 0.
Definition at_rsi : Operand := OMem (address0 0 false (mkRegExp (Reg64 6) noReg 0 0)).
Definition x_ops := [OReg ymm0; OReg ymm0; OReg ymm0].
Definition a_ops := [OReg ymm0; OReg ymm0; at_rsi].
Definition vsum_prog : program :=
  [SIns (i_vpxor_xxo ymm0 ymm0 (OReg ymm0)) (means (MLane Xor 64) 256 0 x_ops);
   SLabel (LStr "lp");
   SIns (i_vpaddd_xxo ymm0 ymm0 at_rsi) (means (MLane Add 32) 256 0 a_ops);
   SIns (i_add_oi rsi 32) (e_alu 0 64 rsi 32);
   SIns (i_sub_oi ecx 1) (e_alu 5 32 ecx 1);
   SJcc 5 (LStr "lp") T_AUTO;
   SRet;
   SReady].
Definition e_vpxor := mkEntry "vpxor/xxo" [cX; cX; cO] (rro i_vpxor_xxo) r_vpxor_xxo VlRegs.
Definition e_vpaddd := mkEntry "vpaddd/xxo" [cX; cX; cO] (rro i_vpaddd_xxo) r_vpaddd_xxo VlRegs.
Lemma x_vinsn : vinsn (i_vpxor_xxo ymm0 ymm0 (OReg ymm0)) (means (MLane Xor 64) 256 0 x_ops).
Proof. exact (vinsn_by true e_vpxor r_vpxor_xxo (MLane Xor 64) x_ops 0 _ 220 eq_refl eq_refl eq_refl eq_refl). Qed.
Lemma a_vinsn : vinsn (i_vpaddd_xxo ymm0 ymm0 at_rsi) (means (MLane Add 32) 256 0 a_ops).
Proof. exact (vinsn_by true e_vpaddd r_vpaddd_xxo (MLane Add 32) a_ops 0 _ 202 eq_refl eq_refl eq_refl eq_refl). Qed.
Lemma vsum_wf : well_formed vsum_prog.
Proof.
  unfold vsum_prog, well_formed. repeat apply Forall_cons; try exact Logic.I; try lia; try apply Forall_nil.
  - right; left. exact x_vinsn.
  - right; left. exact a_vinsn.
  - left; refine (I_alu 0 i_add_oi i_add_oo rsi 32 _ _); [now left|]. split; [left; apply gprb_ok; reflexivity|repeat split].
  - left; refine (I_alu 5 i_sub_oi i_sub_oo ecx 1 _ _); [cbn; tauto|]. split; [left; apply gprb_ok; reflexivity|repeat split].
Qed.
(* the sum of the 32-bit numbers at a, a + 32, a + 64, ... *)
Fixpoint col (m : Z -> Z) (a : Z) (n : nat) : Z := match n with O => 0 | S n' => load m a 4 + col m (a + 32) n' end.
Lemma load_addr m n : forall y z, addr64 y = addr64 z -> load m y n = load m z n.
Proof.
  unfold addr64. induction n as [|n IH]; intros y z H; [reflexivity|]. cbn [load]. unfold addr64. rewrite H. f_equal. f_equal. apply IH.
  rewrite <- (Zplus_mod_idemp_l y), H, Zplus_mod_idemp_l. reflexivity.
Qed.
Lemma col_addr m n : forall y z, addr64 y = addr64 z -> col m y n = col m z n.
Proof.
  induction n as [|n IH]; intros y z H; [reflexivity|]. cbn [col]. rewrite (load_addr m 4 y z H). f_equal. apply IH.
  unfold addr64 in *. rewrite <- (Zplus_mod_idemp_l y), H, Zplus_mod_idemp_l. reflexivity.
Qed.
Definition vbody (x : st) : st := e_alu 5 32 ecx 1 (e_alu 0 64 rsi 32 (means (MLane Add 32) 256 0 a_ops x)).
Lemma vbody_ok x : let n := rg x 1 mod 2 ^ 32 in bytes_mem (mm x) ->
  mm (vbody x) = mm x /\ rg (vbody x) RSP = rg x RSP /\ rg (vbody x) 1 mod 2 ^ 32 = (n - 1) mod 2 ^ 32
  /\ addr64 (rg (vbody x) 6) = addr64 (rg x 6 + 32)
  /\ cc_holds 5 (fl (vbody x)) = negb ((n - 1) mod 2 ^ 32 =? 0)
  /\ forall i, 0 <= i < 8 -> lane 32 i (vx (vbody x) 0) = (lane 32 i (vx x 0) + load (mm x) (rg x 6 + 4 * i) 4) mod 2 ^ 32.
Proof.
  cbv zeta. intros Hb. assert (2 ^ 32 <> 0) by discriminate. assert (2 ^ 64 <> 0) by discriminate.
  split; [reflexivity|]. split; [reflexivity|].
  assert (B : rg (vbody x) 1 = ((rg x 1 mod 2 ^ 32 - 1 - 0) mod 2 ^ 32) mod 2 ^ 32) by reflexivity.
  assert (D : rg (vbody x) 6 = ((rg x 6 mod 2 ^ 64 + 32 + 0) mod 2 ^ 64) mod 2 ^ 64) by reflexivity.
  assert (C : cc_holds 5 (fl (vbody x)) = xorb true ((rg x 1 mod 2 ^ 32 - 1 - 0) mod 2 ^ 32 =? 0)) by reflexivity.
  rewrite B, C, D. split; [rewrite !Z.mod_mod, !Z.sub_0_r by assumption; reflexivity|].
  split; [unfold addr64; rewrite !Z.mod_mod, Z.add_0_r, Zplus_mod_idemp_l by assumption; reflexivity|].
  split; [rewrite !Z.sub_0_r; reflexivity|]. intros i Hi.
  assert (V : vx (vbody x) 0 = build 8 32 (fun i => lane 32 i (vx x 0) + lane 32 i (load (mm x) (written (rg x) (mkRegExp (Reg64 6) noReg 0 0) mod 2 ^ 64) 32))) by reflexivity.
  rewrite V, lane_build by lia. f_equal. f_equal. rewrite (lane_load (mm x) _ 32 4 i Hb) by lia. apply load_addr.
  change (written (rg x) (mkRegExp (Reg64 6) noReg 0 0)) with (rg x 6 + 0 + 0). unfold addr64. change (Z.of_nat 4) with 4. rewrite Zplus_mod_idemp_l. f_equal. ring.
Qed.
Lemma vlp_leads : leads_to vsum_prog 5 (LStr "lp") 1.
Proof. exists (TGlobal "lp"), (LStr "lp"). repeat split. Qed.

Section S.
  Variables (s0 s3 : St) (a3 : Spec).
  Hypothesis Hb : built s0 vsum_prog s3 a3.
  Lemma vloop_runs (k : nat) : forall x, loaded s3 x -> bytes_mem (mm x) -> rg x 1 mod 2 ^ 32 = Z.of_nat (S k) -> Z.of_nat (S k) < 2 ^ 32 ->
    exists x', pruns s0 s3 vsum_prog (At 1 x) (At 6 x') /\ mm x' = mm x /\ rg x' RSP = rg x RSP
      /\ forall i, 0 <= i < 8 -> lane 32 i (vx x' 0) = (lane 32 i (vx x 0) + col (mm x) (rg x 6 + 4 * i) (S k)) mod 2 ^ 32.
  Proof.
    induction k as [|k IH]; intros x Hl Hm Hn Hk.
    - destruct (vbody_ok x Hm) as (B1 & B2 & B4 & B6 & B5 & B7). rewrite Hn in *. exists (vbody x). repeat split; auto.
      + eapply PR_one; [exact Hl|eapply P_skip; reflexivity|]. eapply PR_one; [exact Hl|eapply P_ins; reflexivity|].
        eapply PR_one; [|eapply P_ins; reflexivity|]; [exact Hl|]. eapply PR_one; [|eapply P_ins; reflexivity|]; [exact Hl|]. fold (vbody x).
        eapply PR_one; [|eapply P_not_taken; [reflexivity|exact B5]|]; [|apply PR_none]. intros z Hz. rewrite B1. now apply Hl.
      + intros i Hi. rewrite B7 by assumption. cbn [col]. now rewrite Z.add_0_r.
    - destruct (vbody_ok x Hm) as (B1 & B2 & B4 & B6 & B5 & B7). rewrite Hn in *. set (N := Z.of_nat (S (S k))) in *.
      assert (EN : (N - 1) mod 2 ^ 32 = Z.of_nat (S k)) by (rewrite Z.mod_small; lia).
      assert (Lb : loaded s3 (vbody x)) by (intros z Hz; rewrite B1; now apply Hl).
      destruct (IH (vbody x) Lb) as (x' & R & M & S' & Q); [now rewrite B1|congruence|lia|]. exists x'. rewrite M, S'. split; [|split; [exact B1|split; [exact B2|]]].
      + eapply PR_one; [exact Hl|eapply P_skip; reflexivity|]. eapply PR_one; [exact Hl|eapply P_ins; reflexivity|].
        eapply PR_one; [|eapply P_ins; reflexivity|]; [exact Hl|]. eapply PR_one; [|eapply P_ins; reflexivity|]; [exact Hl|]. fold (vbody x).
        eapply PR_one; [exact Lb|eapply P_taken; [reflexivity|apply vlp_leads|]|exact R]. rewrite B5, EN. reflexivity.
      + intros i Hi. rewrite Q, B7, B1 by assumption. rewrite Zplus_mod_idemp_l. rewrite <- Z.add_assoc. f_equal. f_equal.
        change (col (mm x) (rg x 6 + 4 * i) (S (S k))) with (load (mm x) (rg x 6 + 4 * i) 4 + col (mm x) (rg x 6 + 4 * i + 32) (S k)). f_equal. apply col_addr.
        unfold addr64 in *. rewrite <- (Zplus_mod_idemp_l (rg (vbody x) 6)), B6, Zplus_mod_idemp_l. f_equal. ring.
  Qed.
  Theorem vsum_runs n x : loaded s3 x -> bytes_mem (mm x) -> rg x 1 mod 2 ^ 32 = n -> 1 <= n -> exists x',
    msteps (addr64 (c_top (g_code s3)), x) (addr64 (load (mm x) (rg x RSP) 8), x') /\ mm x' = mm x /\ rg x' RSP = addr64 (rg x RSP + 8)
    /\ forall i, 0 <= i < 8 -> lane 32 i (vx x' 0) = col (mm x) (rg x 6 + 4 * i) (Z.to_nat n) mod 2 ^ 32.
  Proof.
    intros Hl Hm Hn H1. assert (n < 2 ^ 32) by (subst n; apply Z.mod_pos_bound; reflexivity).
    set (x1 := means (MLane Xor 64) 256 0 x_ops x).
    destruct (vloop_runs (Z.to_nat (n - 1)) x1) as (x' & R & M & S' & Q); [exact Hl|exact Hm| |lia|].
    { change (rg x1 1) with (rg x 1). lia. }
    replace (S (Z.to_nat (n - 1))) with (Z.to_nat n) in Q by lia.
    assert (V0 : vx x1 0 = build 4 64 (fun i => Z.lxor (lane 64 i (vx x 0)) (lane 64 i (vx x 0)))) by reflexivity.
    assert (V1 : vx x1 0 = 0) by (rewrite V0; cbn [build]; rewrite !Z.lxor_nilpotent; reflexivity). rewrite V1 in Q.
    exists (set_reg x' RSP (addr64 (rg x' RSP + 8))). split; [|split; [exact M|split; [cbn; now rewrite S'|]]].
    - rewrite <- (entry _ _ _ _ Hb).
      apply (b_runs s0 vsum_prog s3 a3 (At 0 x) (Out (addr64 (load (mm x) (rg x RSP) 8)) (set_reg x' RSP (addr64 (rg x' RSP + 8)))) Hb).
      eapply PR_one; [exact Hl|eapply P_ins; reflexivity|]. fold x1.
      assert (forall a b c, pruns s0 s3 vsum_prog a b -> pruns s0 s3 vsum_prog b c -> pruns s0 s3 vsum_prog a c) as TR.
      { intros a b c H1' H2'. induction H1'; [exact H2'|]. eapply PR_one; eauto. }
      eapply TR; [exact R|]. eapply PR_one; [intros z Hz; rewrite M; now apply Hl| |apply PR_none].
      change (mm x) with (mm x1). change (rg x RSP) with (rg x1 RSP). rewrite <- M, <- S'. apply P_leave. reflexivity.
    - intros i Hi. change (vx (set_reg x' RSP (addr64 (rg x' RSP + 8))) 0) with (vx x' 0). rewrite Q by assumption.
      change (mm x1) with (mm x). change (rg x1 6) with (rg x 6). reflexivity.
  Qed.
End S.
