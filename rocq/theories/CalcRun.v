(* The code that sample/calc.cpp generates computes the value of the expression. *)
From Coq Require Import ZArith List Bool String Lia.
From Verif Require Import Base Types Emit EmitFacts Encode Mnemonic SpecX86 SpecAddr SpecIsa SpecInsn SpecLeg SpecMix SpecCond SpecExec SpecVec SpecSse SpecSseRun SseIsa SpecMach Wf State Code Label Gen SpecLabel LabelThms Grow LabelThms6 SpecProg VecFacts SseMean ProgVec ProgInsn ProgMach ProgHist ProgSim ProgSum ProgThms ProgSse SpecCalc Calc.
From Verif Require BfRun.
Import ListNotations.
Open Scope list_scope.
Open Scope Z_scope.

(* the low 64 bits of a vector register *)
Definition low (x : st) (n : Z) : Z := vx x n mod 2 ^ 64.
(* only vector registers differ *)
Definition keeps (x y : st) : Prop := rg y = rg x /\ mm y = mm x /\ fl y = fl x /\ fpu (vu y) = fpu (vu x).
Lemma keeps_refl x : keeps x x. Proof. repeat split. Qed.
Lemma keeps_trans x y z : keeps x y -> keeps y z -> keeps x z.
Proof. intros (A & B & C & D) (A' & B' & C' & D'). repeat split; congruence. Qed.
Definition fp (x : st) (o : op) (a b : Z) : Z := fpu (vu x) (fop_of o) 64 0 [a; b] mod 2 ^ 64.

Lemma regno_xmm k : 0 <= k < 8 -> regno (Xmm k) = k.
Proof.
  intros H. assert (k = 0 \/ k = 1 \/ k = 2 \/ k = 3 \/ k = 4 \/ k = 5 \/ k = 6 \/ k = 7) as K by lia. repeat (destruct K as [-> |K]; [reflexivity|]). subst k. reflexivity.
Qed.
Lemma where_xmm k x : 0 <= k < 8 -> where_ x (OReg (Xmm k)) = XReg k.
Proof. intros H. unfold where_. change (opmask (Xmm k)) with false. cbv iota. now rewrite regno_xmm. Qed.
Lemma s64_add a d : (a + s64 (w64 d)) mod 2 ^ 64 = (a + d) mod 2 ^ 64.
Proof.
  assert (s64 (w64 d) mod 2 ^ 64 = d mod 2 ^ 64) as H.
  { unfold s64, w64. change 18446744073709551616 with (2 ^ 64). pose proof (Z.mod_pos_bound d (2 ^ 64) ltac:(reflexivity)). rewrite Z.mod_mod by discriminate.
    match goal with |- context [if ?c then _ else _] => destruct c end; [now rewrite ?Z.mod_mod by discriminate|].
    replace (d mod 2 ^ 64 - 2 ^ 64) with (d mod 2 ^ 64 + (-1) * 2 ^ 64) by ring. rewrite Z.mod_add, Z.mod_mod by discriminate. reflexivity. }
  rewrite Z.add_mod, H, <- Z.add_mod by discriminate. reflexivity.
Qed.
Lemma where_mem x n d : n = 6 \/ n = 7 -> where_ x (OMem (at_disp n d)) = XMem (addr64 (rg x n + d)).
Proof.
  intros H. unfold where_, at_disp, address0. cbn [a_e]. f_equal. destruct H as [-> | ->]; unfold written, uses32; cbn [e_base e_index e_disp];
  match goal with |- context [regno (Reg64 ?n)] => change (present (Reg64 n)) with true; change (present noReg) with false; change (regno (Reg64 n)) with n;
    change ((bit_ (Reg64 n) =? 32) || (bit_ noReg =? 32)) with false end; cbv iota; unfold addr_size, addr64; rewrite Z.add_0_r;
  apply s64_add.
Qed.

(* movsd(xmm, mem) *)
Lemma load_eff x k n d : 0 <= k < 8 -> n = 6 \/ n = 7 -> let y := smeans q_movsd 0 [OReg (Xmm k); OMem (at_disp n d)] x in
  keeps x y /\ (forall j, j <> k -> vx y j = vx x j) /\ low y k = load (mm x) (rg x n + d) 8 mod 2 ^ 64.
Proof.
  intros Hk Hn. cbv zeta. unfold smeans. rewrite where_xmm, where_mem by assumption. change (if q_imm q_movsd then 0 else 0) with 0. unfold sse_do. change (q_m q_movsd) with (MOne 64). change (q_form q_movsd) with One. cbv iota.
  split; [repeat split|]. split.
  - intros j Hj. unfold keep, set_x, set_v, vx at 1. cbn [vu xr]. unfold SpecExec.upd at 1. destruct (Z.eqb_spec j k); [contradiction|].
    unfold perform, set_x, set_v, vx at 1. cbn [vu xr]. unfold SpecExec.upd. destruct (Z.eqb_spec j k); [contradiction|reflexivity].
  - unfold low. unfold keep, set_x, set_v, vx at 1. cbn [vu xr]. unfold SpecExec.upd at 1. rewrite Z.eqb_refl.
    unfold perform, set_x, set_v, vx at 1. cbn [vu xr]. unfold SpecExec.upd at 1. rewrite Z.eqb_refl.
    change (Z.to_nat (lanes (MOne 64) 128)) with 1%nat. change (esize (MOne 64)) with 64. cbn [build Z.of_nat Z.eqb orb map result nth source].
    change (Z.to_nat (mem_bytes (MOne 64) 128)) with 8%nat.
    assert (load (mm x) (addr64 (rg x n + d)) 8 = load (mm x) (rg x n + d) 8) as -> by (apply load_addr; unfold addr64; now rewrite Z.mod_mod).
    set (v := load _ _ _). unfold lane. rewrite Z.mul_0_r, Z.pow_0_r, Z.div_1_r, Z.add_0_l, Z.mul_1_r, Z.mod_mod by discriminate.
    unfold low128. rewrite (Z.mod_small (v mod 2 ^ 64) (2 ^ 128)) by (pose proof (Z.mod_pos_bound v (2 ^ 64) ltac:(reflexivity)); assert (2 ^ 64 < 2 ^ 128) by reflexivity; lia).
    change (2 ^ 128) with (2 ^ 64 * 2 ^ 64). rewrite Z.mul_assoc, Z.mod_add, Z.mod_mod by discriminate. reflexivity.
Qed.
(* addsd(xmm, xmm) and the like *)
Lemma op_eff x o k : 0 <= k < 7 -> let y := smeans (q_op o) 0 [OReg (Xmm k); OReg (Xmm (k + 1))] x in
  keeps x y /\ (forall j, j <> k -> vx y j = vx x j) /\ low y k = fp x o (low x k) (low x (k + 1)).
Proof.
  intros Hk. cbv zeta. unfold smeans. rewrite !where_xmm by lia. unfold sse_do. change (q_m (q_op o)) with (MScalar (Fp (fop_of o)) 64). change (q_form (q_op o)) with Two. change (q_imm (q_op o)) with false. cbn [is_one].
  split; [repeat split|]. split.
  - intros j Hj. unfold keep, set_x, set_v, vx at 1. cbn [vu xr]. unfold SpecExec.upd at 1. destruct (Z.eqb_spec j k); [contradiction|].
    unfold perform, set_x, set_v, vx at 1. cbn [vu xr]. unfold SpecExec.upd. destruct (Z.eqb_spec j k); [contradiction|reflexivity].
  - unfold low at 1. unfold keep, set_x, set_v, vx at 1. cbn [vu xr]. unfold SpecExec.upd at 1. rewrite Z.eqb_refl.
    unfold perform, set_x, set_v, vx at 1. cbn [vu xr]. unfold SpecExec.upd at 1. rewrite Z.eqb_refl.
    change (Z.to_nat (lanes (MScalar (Fp (fop_of o)) 64) 128)) with 1%nat. change (esize (MScalar (Fp (fop_of o)) 64)) with 64. cbn [build Z.of_nat Z.eqb orb map result nth source apply].
    assert (forall v, lane 64 0 v = v mod 2 ^ 64) as L by (intros v; unfold lane; now rewrite Z.mul_0_r, Z.pow_0_r, Z.div_1_r). rewrite !L. fold (low x k). fold (low x (k + 1)).
    rewrite Z.mul_0_r, Z.pow_0_r, Z.mul_1_r, Z.add_0_l. fold (fp x o (low x k) (low x (k + 1))). set (v := fp _ _ _ _).
    unfold low128. change (2 ^ 128) with (2 ^ 64 * 2 ^ 64). set (w := vx x k / (2 ^ 64 * 2 ^ 64)).
    rewrite Z.mul_assoc, Z.mod_add by discriminate. set (u := vx x k / 2 ^ 64 mod _).
    rewrite <- Znumtheory.Zmod_div_mod; [|reflexivity|reflexivity|exists (2 ^ 64); reflexivity]. rewrite Z.mod_add by discriminate. unfold v, fp. now rewrite Z.mod_mod by discriminate.
Qed.

Section R.
  Context (names : list string) (s0 s : St) (p : program).
  Notation runs := (pruns s0 s p).
  Lemma runs_trans a b c : runs a b -> runs b c -> runs a c.
  Proof. induction 1; intros; [assumption|econstructor; eauto]. Qed.
  Lemma runs_ins i x m f : nth_error p i = Some (SIns m f) -> loaded s x -> runs (At i x) (At (S i) (f x)).
  Proof. intros H L. eapply PR_one; [exact L|eapply P_ins; exact H|apply PR_none]. Qed.
  Lemma loaded_mm x y : mm y = mm x -> loaded s x -> loaded s y.
  Proof. intros E H k Hk. rewrite E. now apply H. Qed.
  Theorem sim env e : forall n k i x, BfRun.at_ p i (comp names e n k) -> 0 <= k -> k + need e <= 8 -> Forall (fun v => In v names) (vars e) -> loaded s x ->
    (forall j v, nth_error (nums e) j = Some v -> load (mm x) (rg x 6 + 8 * Z.of_nat (n + j)) 8 mod 2 ^ 64 = v mod 2 ^ 64) ->
    (forall j v, nth_error names j = Some v -> load (mm x) (rg x 7 + 8 * Z.of_nat j) 8 mod 2 ^ 64 = env v mod 2 ^ 64) ->
    exists y, runs (At i x) (At (i + List.length (comp names e n k)) y) /\ keeps x y /\ (forall j, j < k -> vx y j = vx x j) /\ low y k = eval (fp x) env e.
  Proof.
    induction e as [v|v|o a IHa b IHb]; intros n k i x Hp H0 H8 Hv Hl Hc He; cbn [comp need nums vars eval] in *.
    - destruct (load_eff x k 6 (8 * Z.of_nat n)) as (A & B & C); [lia|now left|]. apply BfRun.at_hd in Hp as (Hp & _).
      eexists. split; [rewrite Nat.add_1_r; eapply runs_ins; [exact Hp|exact Hl]|]. split; [exact A|]. split; [intros j Hj; apply B; lia|].
      rewrite C. specialize (Hc 0%nat v eq_refl). now rewrite Nat.add_0_r in Hc.
    - inversion Hv as [|? ? Hi _]; subst. destruct (index_of names 0 v) as [j|] eqn:J; [|now apply index_none in J].
      apply index_nth in J as [J0 J]. rewrite Z.sub_0_r in J. destruct (load_eff x k 7 (8 * j)) as (A & B & C); [lia|now right|]. apply BfRun.at_hd in Hp as (Hp & _).
      eexists. split; [rewrite Nat.add_1_r; eapply runs_ins; [exact Hp|exact Hl]|]. split; [exact A|]. split; [intros z Hz; apply B; lia|].
      rewrite C. specialize (He _ _ J). now rewrite Z2Nat.id in He.
    - pose proof (need_pos a). pose proof (need_pos b). apply Forall_app in Hv as [V1 V2].
      apply BfRun.at_app in Hp as [P1 P]. apply BfRun.at_app in P as [P2 P3]. apply BfRun.at_hd in P3 as (P3 & _).
      destruct (IHa n k i x P1 H0 ltac:(lia) V1 Hl) as (y & R1 & K1 & L1 & E1).
      { intros j v Hj. apply Hc. rewrite nth_error_app1; [exact Hj|]. apply nth_error_Some. congruence. }
      { exact He. }
      pose proof K1 as (A1 & A2 & _ & A4).
      destruct (IHb (n + List.length (nums a))%nat (k + 1) _ y P2 ltac:(lia) ltac:(lia) V2 (loaded_mm _ _ A2 Hl)) as (z & R2 & K2 & L2 & E2).
      { intros j v Hj. rewrite A1, A2. rewrite <- Nat.add_assoc. apply Hc. rewrite nth_error_app2 by lia. replace (List.length (nums a) + j - List.length (nums a))%nat with j by lia. exact Hj. }
      { intros j v Hj. rewrite A1, A2. now apply He. }
      pose proof (keeps_trans _ _ _ K1 K2) as K. pose proof K as (B1 & B2 & _ & B4).
      destruct (op_eff z o k) as (C1 & C2 & C3); [lia|].
      eexists. split; [|split; [exact (keeps_trans _ _ _ K C1)|split]].
      + eapply runs_trans; [exact R1|]. eapply runs_trans; [exact R2|]. rewrite !app_length. cbn [List.length]. rewrite Nat.add_1_r, Nat.add_succ_r, Nat.add_succ_r, Nat.add_assoc.
        eapply runs_ins; [exact P3|]. exact (loaded_mm _ _ B2 Hl).
      + intros j Hj. rewrite C2, L2, L1 by lia. reflexivity.
      + rewrite C3. unfold low at 1. rewrite L2 by lia. fold (low y k). rewrite E1, E2.
        assert (fp y = fp x) as F by (unfold fp; now rewrite A4). assert (fp z = fp x) as F2 by (unfold fp; now rewrite B4). now rewrite F, F2.
  Qed.
End R.

Theorem calc_runs names tbl e p cs s0 s a x env : calc names tbl e = Fine (p, cs) -> built s0 p s a -> loaded s x ->
  (forall j v, nth_error cs j = Some v -> load (mm x) (tbl + 8 * Z.of_nat j) 8 mod 2 ^ 64 = v mod 2 ^ 64) ->
  (forall j v, nth_error names j = Some v -> load (mm x) (rg x 7 + 8 * Z.of_nat j) 8 mod 2 ^ 64 = env v mod 2 ^ 64) ->
  exists y, msteps (addr64 (c_top (g_code s)), x) (addr64 (load (mm x) (rg x RSP) 8), y) /\ low y 0 = eval (fp x) env e
    /\ mm y = mm x /\ fl y = fl x /\ rg y RSP = addr64 (rg x RSP + 8) /\ forall r, r <> RSP -> r <> 6 -> rg y r = rg x r.
Proof.
  intros H B Hl Hc He. apply calc_fine in H as ((N & _ & V) & -> & ->). set (p := whole names tbl e) in *.
  assert (BfRun.at_ p 0 (first tbl :: comp names e 0 0 ++ [SRet])) as P by (exists [], []; split; [now rewrite app_nil_r|reflexivity]).
  apply BfRun.at_hd in P as (P0 & P & _). apply BfRun.at_app in P as [P1 P2]. apply BfRun.at_hd in P2 as (P2 & _).
  set (x1 := e_mov 64 rsi (tbl mod 2 ^ 64) x). assert (R1 : rg x1 = SpecExec.upd (rg x) 6 (tbl mod 2 ^ 64)).
  { unfold x1, e_mov. change (loc_of rsi x) with (LReg 6). unfold write. change (64 =? 16) with false. cbv iota zeta. now rewrite Z.mod_mod by discriminate. }
  assert (M1 : mm x1 = mm x) by reflexivity.
  destruct (sim names s0 s p env e 0 0 1 x1 P1 ltac:(lia) ltac:(lia) V (loaded_mm _ _ _ M1 Hl)) as (y & R & (K1 & K2 & K3 & _) & _ & E).
  { intros j v Hj. rewrite M1, R1. change (SpecExec.upd (rg x) 6 (tbl mod 2 ^ 64) 6) with (tbl mod 2 ^ 64). rewrite <- (Hc j v Hj). f_equal. apply load_addr. unfold addr64. now rewrite Zplus_mod_idemp_l. }
  { intros j v Hj. rewrite M1, R1. exact (He j v Hj). }
  exists (set_reg y RSP (addr64 (rg y RSP + 8))).
  assert (S1 : rg x1 RSP = rg x RSP) by now rewrite R1.
  split.
  - rewrite <- (entry s0 p s a B). replace (addr64 (load (mm x) (rg x RSP) 8)) with (addr64 (load (mm y) (rg y RSP) 8)) by now rewrite K1, K2, M1, S1.
    change (msteps (mcfg s0 s p (At 0 x)) (mcfg s0 s p (Out (addr64 (load (mm y) (rg y RSP) 8)) (set_reg y RSP (addr64 (rg y RSP + 8)))))).
    eapply b_runs; [exact B|]. eapply PR_one; [exact Hl|eapply P_ins; exact P0|]. eapply runs_trans; [exact R|].
    eapply PR_one; [apply (loaded_mm _ x); [now rewrite K2|exact Hl]|eapply P_leave; exact P2|apply PR_none].
  - split; [exact E|]. split; [exact K2|]. split; [exact K3|]. split.
    + cbn. unfold SpecExec.upd. cbn. now rewrite K1, S1.
    + intros r H1 H2. cbn. unfold SpecExec.upd. destruct (Z.eqb_spec r RSP); [contradiction|]. rewrite K1, R1. unfold SpecExec.upd. destruct (Z.eqb_spec r 6); [contradiction|reflexivity].
Qed.
Theorem calc_calls names tbl e p cs : calc names tbl e = Fine (p, cs) -> well_formed p /\ cs = nums e.
Proof. intros H. apply calc_fine in H as ((N & _) & -> & ->). split; [now apply whole_wf|reflexivity]. Qed.
Theorem calc_accepted names tbl e : (exists r, calc names tbl e = Fine r) <-> accepted names e.
Proof.
  split; [intros ([p cs] & H); now apply calc_fine in H|]. intros H. exists (whole names tbl e, nums e). now apply calc_fine.
Qed.
