(* A program built and run: mov(eax, 0); L("lp"); add(eax, ecx); sub(ecx, 1); jnz("lp"); ret(); *)
From Coq Require Import ZArith List Bool String Lia.
From Verif Require Import Base Types Emit EmitFacts Encode Mnemonic SpecX86 SpecLeg SpecCond SpecExec SpecMach Wf ArgCheck ExecFacts ExecProofs ExecMore State Code Label Gen SpecLabel LabelThms Grow LabelThms6 SpecProg ProgInsn ProgMach VecInsn SseInsn ProgRef ProgHist ProgSim.
Import ListNotations.
Open Scope list_scope.
Open Scope Z_scope.

Definition eax := OReg (Reg32 0).
Definition ecx := OReg (Reg32 1).
Definition sum_prog : program :=
  [SIns (mov_oi eax 0) (e_mov 32 eax 0);
   SLabel (LStr "lp");
   SIns (i_add_oo eax ecx) (e_alu2 0 32 eax ecx);
   SIns (i_sub_oi ecx 1) (e_alu 5 32 ecx 1);
   SJcc 5 (LStr "lp") T_AUTO;
   SRet;
   SReady].
Definition well_formed (p : program) : Prop :=
  Forall (fun q => match q with
    | SIns m f => insn m f \/ vinsn m f \/ sinsn m f | SJcc k _ _ => 0 <= k < 16
    | SRef m l f => label_ref m l f | SJmpTo m t => jmp_to m t | SCallTo m t => call_to m t
    | _ => True end) p.
Lemma well_good p : well_formed p -> Forall good p.
Proof.
  apply Forall_impl. intros [] H; auto; [destruct H as [H|[H|H]]; [now apply insn_encoded|now apply vinsn_encoded|now apply sinsn_encoded]|now apply label_ref_encoded| |]; destruct H; [now apply jmp_goes|now apply call_goes].
Qed.
Lemma sum_wf : well_formed sum_prog.
Proof.
  unfold sum_prog, well_formed. repeat apply Forall_cons; try exact Logic.I; try lia; try apply Forall_nil.
  - left; refine (I_mov eax 0 _). split; [left; apply gprb_ok; reflexivity|repeat split].
  - left; refine (I_alu2 0 i_add_oi i_add_oo eax ecx _ _ _); [now left| |reflexivity].
    split; [left; apply gprb_ok; reflexivity|]. split; [apply gprb_ok; reflexivity|]. intros _. constructor; [discriminate|]. constructor; [discriminate|constructor].
  - left; refine (I_alu 5 i_sub_oi i_sub_oo ecx 1 _ _); [cbn; tauto|]. split; [left; apply gprb_ok; reflexivity|repeat split].
Qed.

Definition body (x : st) : st := e_alu 5 32 ecx 1 (e_alu2 0 32 eax ecx x).
Lemma body_ok x : let n := rg x 1 mod 2 ^ 32 in
  mm (body x) = mm x /\ rg (body x) RSP = rg x RSP
  /\ rg (body x) 0 mod 2 ^ 32 = (rg x 0 + n) mod 2 ^ 32 /\ rg (body x) 1 mod 2 ^ 32 = (n - 1) mod 2 ^ 32
  /\ cc_holds 5 (fl (body x)) = negb ((n - 1) mod 2 ^ 32 =? 0).
Proof.
  cbv zeta. assert (2 ^ 32 <> 0) by discriminate.
  split; [reflexivity|]. split; [reflexivity|].
  assert (A : rg (body x) 0 = (((rg x 0 mod 2 ^ 32 + rg x 1 mod 2 ^ 32 + 0) mod 2 ^ 32) mod 2 ^ 32)) by reflexivity.
  assert (B : rg (body x) 1 = ((rg x 1 mod 2 ^ 32 - 1 - 0) mod 2 ^ 32) mod 2 ^ 32) by reflexivity.
  assert (C : cc_holds 5 (fl (body x)) = xorb true ((rg x 1 mod 2 ^ 32 - 1 - 0) mod 2 ^ 32 =? 0)) by reflexivity.
  rewrite A, B, C. rewrite !Z.mod_mod, Z.add_0_r, !Z.sub_0_r by assumption. rewrite Zplus_mod_idemp_l. split; [reflexivity|]. split; reflexivity.
Qed.
Lemma lp_leads : leads_to sum_prog 4 (LStr "lp") 1.
Proof. exists (TGlobal "lp"), (LStr "lp"). repeat split. Qed.

Section S.
  Variables (s0 s3 : St) (a3 : Spec).
  Hypothesis Hnew : new_gen s0.
  Hypothesis Hhist : shist_ok s0 spec0 (map op_of sum_prog) s3 a3.
  Hypothesis Hfin : finished s3 a3.
  Let A := adr s0 s3 sum_prog.
  Lemma loop_runs (k : nat) : forall x, loaded s3 x -> rg x 1 mod 2 ^ 32 = Z.of_nat (S k) -> Z.of_nat (S k) < 2 ^ 32 ->
    exists x', pruns s0 s3 sum_prog (At 1 x) (At 5 x') /\ mm x' = mm x /\ rg x' RSP = rg x RSP
      /\ rg x' 0 mod 2 ^ 32 = (rg x 0 + Z.of_nat (S k) * (Z.of_nat (S k) + 1) / 2) mod 2 ^ 32.
  Proof.
    induction k as [|k IH]; intros x Hl Hn Hk.
    - destruct (body_ok x) as (B1 & B2 & B3 & B4 & B5). rewrite Hn in *. exists (body x). repeat split; auto.
      eapply PR_one; [exact Hl|eapply P_skip; reflexivity|]. eapply PR_one; [exact Hl|eapply P_ins; reflexivity|].
      eapply PR_one; [|eapply P_ins; reflexivity|]; [exact Hl|]. fold (body x).
      eapply PR_one; [|eapply P_not_taken; [reflexivity|exact B5]|]; [|apply PR_none]. intros z Hz. rewrite B1. now apply Hl.
    - destruct (body_ok x) as (B1 & B2 & B3 & B4 & B5). rewrite Hn in *. set (N := Z.of_nat (S (S k))) in *.
      assert (EN : (N - 1) mod 2 ^ 32 = Z.of_nat (S k)) by (rewrite Z.mod_small; lia).
      assert (Lb : loaded s3 (body x)) by (intros z Hz; rewrite B1; now apply Hl).
      destruct (IH (body x) Lb) as (x' & R & M & S' & Q); [congruence|lia|]. exists x'. rewrite M, S'. split; [|split; [exact B1|split; [exact B2|]]].
      + eapply PR_one; [exact Hl|eapply P_skip; reflexivity|]. eapply PR_one; [exact Hl|eapply P_ins; reflexivity|].
        eapply PR_one; [|eapply P_ins; reflexivity|]; [exact Hl|]. fold (body x).
        eapply PR_one; [exact Lb|eapply P_taken; [reflexivity|apply lp_leads|]|exact R]. rewrite B5, EN. reflexivity.
      + rewrite Q. replace (N * (N + 1) / 2) with (N + Z.of_nat (S k) * (Z.of_nat (S k) + 1) / 2).
        * rewrite Z.add_assoc, <- (Zplus_mod_idemp_l (rg (body x) 0)), B3, Zplus_mod_idemp_l. reflexivity.
        * replace (N * (N + 1)) with (Z.of_nat (S k) * (Z.of_nat (S k) + 1) + N * 2) by (unfold N; lia). rewrite Z.div_add by lia. lia.
  Qed.
  Theorem sum_runs n x : loaded s3 x -> rg x 1 mod 2 ^ 32 = n -> 1 <= n -> exists x',
    msteps (A 0%nat, x) (addr64 (load (mm x) (rg x RSP) 8), x') /\ mm x' = mm x /\ rg x' RSP = addr64 (rg x RSP + 8)
    /\ rg x' 0 mod 2 ^ 32 = (n * (n + 1) / 2) mod 2 ^ 32.
  Proof.
    intros Hl Hn H1. assert (n < 2 ^ 32) by (subst n; apply Z.mod_pos_bound; reflexivity).
    destruct (loop_runs (Z.to_nat (n - 1)) (e_mov 32 eax 0 x)) as (x' & R & M & S' & Q); [exact Hl| |lia|].
    { change (rg (e_mov 32 eax 0 x) 1) with (rg x 1). lia. }
    replace (Z.of_nat (S (Z.to_nat (n - 1)))) with n in Q by lia. change (rg (e_mov 32 eax 0 x) 0) with 0 in Q.
    change (mm (e_mov 32 eax 0 x)) with (mm x) in M. change (rg (e_mov 32 eax 0 x) RSP) with (rg x RSP) in S'.
    exists (set_reg x' RSP (addr64 (rg x' RSP + 8))). split; [|split; [exact M|split; [cbn; now rewrite S'|exact Q]]].
    pose proof (runs_ok s0 s3 a3 sum_prog Hnew Hhist (well_good _ sum_wf) Hfin (At 0 x) (Out (addr64 (load (mm x) (rg x RSP) 8)) (set_reg x' RSP (addr64 (rg x' RSP + 8))))) as T.
    apply T. clear T. eapply PR_one; [exact Hl|eapply P_ins; reflexivity|].
    assert (forall a b c, pruns s0 s3 sum_prog a b -> pruns s0 s3 sum_prog b c -> pruns s0 s3 sum_prog a c) as TR.
    { intros a b c H1' H2'. induction H1'; [exact H2'|]. eapply PR_one; eauto. }
    eapply TR; [exact R|]. eapply PR_one; [intros z Hz; rewrite M; now apply Hl| |apply PR_none]. rewrite <- M, <- S'. apply P_leave. reflexivity.
  Qed.
End S.
