(* sample/test0.cpp:12-39 (class Sample, System V branch): the sum 0 + 1 + .. + n, built and run. *)
From Coq Require Import ZArith List Bool String Lia.
From Verif Require Import Base Types Emit EmitFacts Encode Mnemonic SpecX86 SpecLeg SpecCond SpecExec SpecMach Wf ArgCheck ExecFacts ExecProofs ExecMore State Code Label Gen SpecLabel LabelThms Grow LabelThms6 SpecProg ProgInsn ProgMach VecInsn SseInsn ProgRef ProgHist ProgSim ProgSum ProgThms.
Import ListNotations.
Open Scope list_scope.
Open Scope Z_scope.

Definition edx := OReg (Reg32 2).
Definition edi := OReg (Reg32 7).
Definition sample_prog : program :=
  [SIn;                                                       (* test0.cpp:16 *)
   SIns (mov_oo ecx edi) (e_mov2 32 ecx edi);                 (* 21 *)
   SIns (i_xor_oo eax eax) (e_alu2 6 32 eax eax);
   SIns (test_ ecx (Reg32 1)) (e_test 32 ecx ecx);
   SJcc 4 (LStr ".exit") T_AUTO;
   SIns (i_xor_oo edx edx) (e_alu2 6 32 edx edx);
   SLabel (LStr ".lp");
   SIns (i_add_oo eax edx) (e_alu2 0 32 eax edx);
   SIns (i_inc_o edx) (e_unary Inc 32 edx);
   SIns (i_cmp_oo edx ecx) (e_alu2 7 32 edx ecx);
   SJcc 6 (LStr ".lp") T_AUTO;
   SLabel (LStr ".exit");
   SRet;
   SOut].
Ltac two := split; [left; apply gprb_ok; reflexivity|]; split; [apply gprb_ok; reflexivity|]; intros _; constructor; [discriminate|]; constructor; [discriminate|constructor].
Lemma sample_wf : well_formed sample_prog.
Proof.
  unfold sample_prog, well_formed. repeat apply Forall_cons; try exact Logic.I; try lia; try apply Forall_nil.
  - left. refine (I_mov2 ecx edi _ _ _ _); [two|repeat split|repeat split|reflexivity].
  - left. refine (I_alu2 6 i_xor_oi i_xor_oo eax eax _ _ _); [cbn; tauto|two|reflexivity].
  - left. refine (I_test ecx (Reg32 1) _ _ _ _ _); [left; apply gprb_ok; reflexivity|apply gprb_ok; reflexivity|repeat split|repeat split|]. intros _. constructor; [discriminate|]. constructor; [discriminate|constructor].
  - left. refine (I_alu2 6 i_xor_oi i_xor_oo edx edx _ _ _); [cbn; tauto|two|reflexivity].
  - left. refine (I_alu2 0 i_add_oi i_add_oo eax edx _ _ _); [cbn; tauto|two|reflexivity].
  - left. refine (I_unary Inc i_inc_o edx _ _); [cbn; tauto|]. split; [split; [left; apply gprb_ok; reflexivity|unfold low_regs; cbn; try exact Logic.I; try reflexivity; try (repeat split)]|repeat split].
  - left. refine (I_alu2 7 i_cmp_oi i_cmp_oo edx ecx _ _ _); [cbn; tauto|two|reflexivity].
Qed.

Definition turn (x : st) : st := e_alu2 7 32 edx ecx (e_unary Inc 32 edx (e_alu2 0 32 eax edx x)).
Lemma turn_ok x : let n := rg x 1 mod 2 ^ 32 in let i := rg x 2 mod 2 ^ 32 in
  mm (turn x) = mm x /\ rg (turn x) RSP = rg x RSP /\ rg (turn x) 1 = rg x 1
  /\ rg (turn x) 0 mod 2 ^ 32 = (rg x 0 + i) mod 2 ^ 32 /\ rg (turn x) 2 mod 2 ^ 32 = (i + 1) mod 2 ^ 32
  /\ cc_holds 6 (fl (turn x)) = ((i + 1) mod 2 ^ 32 <=? n).
Proof.
  cbv zeta. assert (2 ^ 32 <> 0) by discriminate. set (n := rg x 1 mod 2 ^ 32). set (i := rg x 2 mod 2 ^ 32).
  split; [reflexivity|]. split; [reflexivity|]. split; [reflexivity|].
  assert (A : rg (turn x) 0 = (((rg x 0 mod 2 ^ 32 + i + 0) mod 2 ^ 32) mod 2 ^ 32)) by reflexivity.
  assert (B : rg (turn x) 2 = ((i + 1 + 0) mod 2 ^ 32) mod 2 ^ 32) by reflexivity.
  set (j := (((i + 1 + 0) mod 2 ^ 32) mod 2 ^ 32) mod 2 ^ 32).
  assert (C : cc_holds 6 (fl (turn x)) = xorb false ((j - n - 0 <? 0) || ((j - n - 0) mod 2 ^ 32 =? 0))) by reflexivity.
  rewrite A, B, C. assert (J : j = (i + 1) mod 2 ^ 32) by (unfold j; rewrite !Z.mod_mod, Z.add_0_r by assumption; reflexivity).
  rewrite !Z.mod_mod, !Z.add_0_r by assumption. rewrite Zplus_mod_idemp_l. split; [reflexivity|]. split; [reflexivity|].
  rewrite <- J, Z.sub_0_r, xorb_false_l. assert (0 <= j < 2 ^ 32) by (apply Z.mod_pos_bound; reflexivity). assert (0 <= n < 2 ^ 32) by (apply Z.mod_pos_bound; reflexivity).
  clearbody j n. destruct (Z.ltb_spec (j - n) 0) as [L|L]; cbn [orb].
  - symmetry. apply Z.leb_le. lia.
  - rewrite Z.mod_small by lia. destruct (Z.eqb_spec (j - n) 0); symmetry; [apply Z.leb_le|apply Z.leb_gt]; lia.
Qed.
Lemma lp_leads : leads_to sample_prog 10 (LStr ".lp") 6.
Proof. eexists (TLocal _ _), (LStr ".lp"). repeat split. Qed.
Lemma exit_leads : leads_to sample_prog 4 (LStr ".exit") 11.
Proof. eexists (TLocal _ _), (LStr ".exit"). repeat split. Qed.

Definition start (x : st) : st := e_test 32 ecx ecx (e_alu2 6 32 eax eax (e_mov2 32 ecx edi x)).
Lemma start_ok x : let n := rg x 7 mod 2 ^ 32 in
  mm (start x) = mm x /\ rg (start x) RSP = rg x RSP /\ rg (start x) 1 = n /\ rg (start x) 0 = 0 /\ cc_holds 4 (fl (start x)) = (n =? 0).
Proof.
  cbv zeta. set (n := rg x 7 mod 2 ^ 32). assert (N : 0 <= n < 2 ^ 32) by (apply Z.mod_pos_bound; reflexivity).
  split; [reflexivity|]. split; [reflexivity|].
  assert (A : rg (start x) 1 = n mod 2 ^ 32) by reflexivity.
  assert (B : rg (start x) 0 = Z.lxor (rg x 0 mod 2 ^ 32) (rg x 0 mod 2 ^ 32) mod 2 ^ 32) by reflexivity.
  assert (C : cc_holds 4 (fl (start x)) = xorb false (Z.land ((n mod 2 ^ 32) mod 2 ^ 32) ((n mod 2 ^ 32) mod 2 ^ 32) =? 0)) by reflexivity.
  rewrite A, B, C, Z.lxor_nilpotent, Z.land_diag, xorb_false_l, !(Z.mod_small n (2 ^ 32)) by lia. repeat split.
Qed.
Definition start2 (x : st) : st := e_alu2 6 32 edx edx (start x).
Lemma start2_ok x : let n := rg x 7 mod 2 ^ 32 in
  mm (start2 x) = mm x /\ rg (start2 x) RSP = rg x RSP /\ rg (start2 x) 1 = n /\ rg (start2 x) 0 = 0 /\ rg (start2 x) 2 = 0.
Proof.
  cbv zeta. destruct (start_ok x) as (A1 & A2 & A3 & A4 & _).
  split; [exact A1|]. split; [exact A2|]. split; [exact A3|]. split; [exact A4|].
  assert (B : rg (start2 x) 2 = Z.lxor (rg x 2 mod 2 ^ 32) (rg x 2 mod 2 ^ 32) mod 2 ^ 32) by reflexivity.
  now rewrite B, Z.lxor_nilpotent.
Qed.

Section Run.
  Variables (s0 s : St).
  Let A := adr s0 s sample_prog.
  Lemma runs_trans a b c : pruns s0 s sample_prog a b -> pruns s0 s sample_prog b c -> pruns s0 s sample_prog a c.
  Proof. induction 1; intros; [assumption|econstructor; eauto]. Qed.
  Lemma loaded_mm x y : mm y = mm x -> loaded s x -> loaded s y.
  Proof. intros E H k Hk. rewrite E. now apply H. Qed.
  Lemma to_jump x : loaded s x -> pruns s0 s sample_prog (At 6 x) (At 10 (turn x)).
  Proof.
    intros Hl. eapply PR_one; [exact Hl|eapply P_skip; reflexivity|]. eapply PR_one; [exact Hl|eapply P_ins; reflexivity|].
    eapply PR_one; [|eapply P_ins; reflexivity|]; [exact Hl|]. eapply PR_one; [|eapply P_ins; reflexivity|]; [exact Hl|]. fold (turn x). apply PR_none.
  Qed.
  Lemma loop_runs (k : nat) : forall x i n, loaded s x -> rg x 1 mod 2 ^ 32 = n -> rg x 2 mod 2 ^ 32 = i -> n < 2 ^ 32 - 1 -> n = i + Z.of_nat k ->
    exists y, pruns s0 s sample_prog (At 6 x) (At 11 y) /\ mm y = mm x /\ rg y RSP = rg x RSP
      /\ rg y 0 mod 2 ^ 32 = (rg x 0 + Z.of_nat (S k) * (i + n) / 2) mod 2 ^ 32.
  Proof.
    induction k as [|k IH]; intros x i n Hl Hn Hi Hlt Hk.
    - destruct (turn_ok x) as (B1 & B2 & B3 & B4 & B5 & B6). rewrite Hn, Hi in *.
      assert (0 <= i < 2 ^ 32) by (rewrite <- Hi; apply Z.mod_pos_bound; reflexivity).
      exists (turn x). split; [|split; [exact B1|split; [exact B2|]]].
      + eapply runs_trans; [apply to_jump; exact Hl|]. eapply PR_one; [exact (loaded_mm _ _ B1 Hl)|eapply P_not_taken; [reflexivity|]|apply PR_none].
        rewrite B6, Z.mod_small by lia. apply Z.leb_gt. lia.
      + rewrite B4. do 2 f_equal. replace (Z.of_nat 1 * (i + n)) with (i * 2) by lia. now rewrite Z.div_mul.
    - destruct (turn_ok x) as (B1 & B2 & B3 & B4 & B5 & B6). rewrite Hn, Hi in *.
      assert (0 <= i < 2 ^ 32) by (rewrite <- Hi; apply Z.mod_pos_bound; reflexivity).
      assert (EI : (i + 1) mod 2 ^ 32 = i + 1) by (rewrite Z.mod_small; lia). rewrite EI in *.
      pose proof (loaded_mm _ _ B1 Hl) as Lb.
      destruct (IH (turn x) (i + 1) n Lb) as (y & R & M & S' & Q); [now rewrite B3|exact B5|exact Hlt|lia|].
      exists y. rewrite M, S'. split; [|split; [exact B1|split; [exact B2|]]].
      + eapply runs_trans; [apply to_jump; exact Hl|]. eapply PR_one; [exact Lb|eapply P_taken; [reflexivity|apply lp_leads|]|exact R].
        rewrite B6. apply Z.leb_le. lia.
      + rewrite Q, <- (Zplus_mod_idemp_l (rg (turn x) 0)), B4, Zplus_mod_idemp_l, <- Z.add_assoc. do 2 f_equal.
        replace (Z.of_nat (S (S k)) * (i + n)) with (Z.of_nat (S k) * (i + 1 + n) + i * 2) by nia. rewrite Z.div_add by lia. ring.
  Qed.
End Run.
Theorem sample_runs s0 s a x n : built s0 sample_prog s a -> loaded s x -> rg x 7 mod 2 ^ 32 = n -> n < 2 ^ 32 - 1 -> exists y,
  msteps (addr64 (c_top (g_code s)), x) (addr64 (load (mm x) (rg x RSP) 8), y) /\ mm y = mm x /\ rg y RSP = addr64 (rg x RSP + 8)
  /\ rg y 0 mod 2 ^ 32 = (n * (n + 1) / 2) mod 2 ^ 32.
Proof.
  intros B Hl Hn Hlt. assert (N : 0 <= n) by (subst n; apply Z.mod_pos_bound; reflexivity).
  destruct (start_ok x) as (T1 & T2 & T3 & T4 & T5). rewrite Hn in *. pose proof (loaded_mm s _ _ T1 Hl) as L1.
  assert (K : exists y, pruns s0 s sample_prog (At 4 (start x)) (At 11 y) /\ mm y = mm x /\ rg y RSP = rg x RSP /\ rg y 0 mod 2 ^ 32 = (n * (n + 1) / 2) mod 2 ^ 32).
  { destruct (Z.eqb_spec n 0) as [E|E].
    - exists (start x). split; [eapply PR_one; [exact L1|eapply P_taken; [reflexivity|apply exit_leads|exact T5]|apply PR_none]|].
      split; [exact T1|]. split; [exact T2|]. rewrite T4. replace n with 0 by lia. reflexivity.
    - destruct (start2_ok x) as (U1 & U2 & U3 & U4 & U5). rewrite Hn in *. pose proof (loaded_mm s _ _ U1 Hl) as L2.
      destruct (loop_runs s0 s (Z.to_nat n) (start2 x) 0 n L2) as (y & R & M & S' & Q); [rewrite U3; apply Z.mod_small; lia|now rewrite U5|lia|lia|].
      exists y. rewrite M, S', U1, U2. split; [|split; [reflexivity|split; [reflexivity|]]].
      + eapply PR_one; [exact L1|eapply P_not_taken; [reflexivity|exact T5]|]. eapply PR_one; [exact L1|eapply P_ins; reflexivity|]. exact R.
      + rewrite Q, U4. replace (Z.of_nat (S (Z.to_nat n)) * (0 + n)) with (n * (n + 1)) by (rewrite Nat2Z.inj_succ, Z2Nat.id; lia). now rewrite Z.add_0_l. }
  destruct K as (y & R & M & S' & Q).
  exists (set_reg y RSP (addr64 (rg y RSP + 8))). split; [|split; [exact M|split; [cbn; now rewrite S'|exact Q]]].
  rewrite <- (entry s0 sample_prog s a B). rewrite <- M, <- S'.
  change (msteps (mcfg s0 s sample_prog (At 0 x)) (mcfg s0 s sample_prog (Out (addr64 (load (mm y) (rg y RSP) 8)) (set_reg y RSP (addr64 (rg y RSP + 8)))))).
  eapply b_runs; [exact B|]. eapply PR_one; [exact Hl|eapply P_skip; reflexivity|]. eapply PR_one; [exact Hl|eapply P_ins; reflexivity|].
  eapply PR_one; [|eapply P_ins; reflexivity|]; [exact Hl|]. eapply PR_one; [|eapply P_ins; reflexivity|]; [exact Hl|]. fold (start x).
  eapply runs_trans; [exact R|]. pose proof (loaded_mm s _ _ M Hl) as L3.
  eapply PR_one; [exact L3|eapply P_skip; reflexivity|]. eapply PR_one; [exact L3|eapply P_leave; reflexivity|apply PR_none].
Qed.

(* the largest n: edx never exceeds ecx. A state inside the loop: at one of its four instructions, the jump taken. *)
Definition inside (s0 s : St) (c : Z * st) : Prop := loaded s (snd c) /\ rg (snd c) 1 mod 2 ^ 32 = 2 ^ 32 - 1
  /\ (fst c = adr s0 s sample_prog 7 \/ fst c = adr s0 s sample_prog 8 \/ fst c = adr s0 s sample_prog 9
      \/ fst c = adr s0 s sample_prog 10 /\ cc_holds 6 (fl (snd c)) = true).
Lemma cmp_max x : rg x 1 mod 2 ^ 32 = 2 ^ 32 - 1 -> cc_holds 6 (fl (e_alu2 7 32 edx ecx x)) = true.
Proof.
  intros H. set (i := rg x 2 mod 2 ^ 32). set (n := rg x 1 mod 2 ^ 32) in *. assert (0 <= i < 2 ^ 32) by (apply Z.mod_pos_bound; reflexivity).
  assert (C : cc_holds 6 (fl (e_alu2 7 32 edx ecx x)) = xorb false ((i - n - 0 <? 0) || ((i - n - 0) mod 2 ^ 32 =? 0))) by reflexivity.
  rewrite C, xorb_false_l, Z.sub_0_r. clear C. clearbody i n. destruct (Z.ltb_spec (i - n) 0) as [L|L]; [reflexivity|].
  replace (i - n) with 0 by lia. reflexivity.
Qed.
Lemma step_here s0 s a i x c q : built s0 sample_prog s a -> loaded s x -> nth_error sample_prog i = Some q -> no_code q = false ->
  pstep sample_prog (adr s0 s sample_prog) (At i x) c -> mstep (adr s0 s sample_prog i) x = Some (mcfg s0 s sample_prog c).
Proof. intros B Hl Hq Hn Hs. destruct (b_step _ _ _ _ _ _ _ B Hl Hs) as [H|(_ & q' & H1 & H2)]; [exact H|]. rewrite Hq in H1. assert (q = q') by congruence. congruence. Qed.
Lemma lp_adr s0 s a : built s0 sample_prog s a -> adr s0 s sample_prog 6 = adr s0 s sample_prog 7.
Proof.
  intros []. symmetry. eapply (step_skip s0 s a sample_prog); try eassumption; reflexivity.
Qed.
Lemma inside_step s0 s a c : built s0 sample_prog s a -> inside s0 s c -> exists c', mstep (fst c) (snd c) = Some c' /\ inside s0 s c'.
Proof.
  intros B. destruct c as [ip x]. intros (Hl & Hn & H). cbn [fst snd] in *. destruct H as [->|[->|[->|[-> H]]]].
  - eexists. split; [eapply step_here; [exact B|exact Hl|reflexivity|reflexivity|eapply P_ins; reflexivity]|].
    split; [exact Hl|]. split; [exact Hn|]. right. left. reflexivity.
  - eexists. split; [eapply step_here; [exact B|exact Hl|reflexivity|reflexivity|eapply P_ins; reflexivity]|].
    split; [exact Hl|]. split; [exact Hn|]. right. right. left. reflexivity.
  - eexists. split; [eapply step_here; [exact B|exact Hl|reflexivity|reflexivity|eapply P_ins; reflexivity]|].
    split; [exact Hl|]. split; [exact Hn|]. right. right. right. split; [reflexivity|]. exact (cmp_max x Hn).
  - eexists. split; [eapply step_here; [exact B|exact Hl|reflexivity|reflexivity|eapply P_taken; [reflexivity|apply lp_leads|exact H]]|].
    split; [exact Hl|]. split; [exact Hn|]. left. exact (lp_adr s0 s a B).
Qed.
Lemma inside_stays s0 s a c c' : built s0 sample_prog s a -> msteps c c' -> inside s0 s c -> inside s0 s c'.
Proof.
  intros B H. induction H as [|ip x c1 c2 H1 H2 IH]; intros Hi; [exact Hi|]. apply IH.
  destruct (inside_step s0 s a (ip, x) B Hi) as (c' & H3 & H4). cbn [fst snd] in H3. assert (c1 = c') by congruence. now subst c'.
Qed.
Theorem sample_endless s0 s a x : built s0 sample_prog s a -> loaded s x -> rg x 7 mod 2 ^ 32 = 2 ^ 32 - 1 -> exists c,
  msteps (addr64 (c_top (g_code s)), x) c /\ forall c', msteps c c' -> inside s0 s c' /\ exists c2, mstep (fst c') (snd c') = Some c2.
Proof.
  intros B Hl Hn. destruct (start_ok x) as (T1 & _ & _ & _ & T5). destruct (start2_ok x) as (U1 & _ & U3 & _). rewrite Hn in *.
  pose proof (loaded_mm s _ _ T1 Hl) as L1. pose proof (loaded_mm s _ _ U1 Hl) as L2.
  exists (adr s0 s sample_prog 7, start2 x). split.
  - rewrite <- (entry s0 sample_prog s a B). change (msteps (mcfg s0 s sample_prog (At 0 x)) (mcfg s0 s sample_prog (At 7 (start2 x)))).
    eapply b_runs; [exact B|]. eapply PR_one; [exact Hl|eapply P_skip; reflexivity|]. eapply PR_one; [exact Hl|eapply P_ins; reflexivity|].
    eapply PR_one; [|eapply P_ins; reflexivity|]; [exact Hl|]. eapply PR_one; [|eapply P_ins; reflexivity|]; [exact Hl|]. fold (start x).
    eapply PR_one; [exact L1|eapply P_not_taken; [reflexivity|rewrite T5; reflexivity]|]. eapply PR_one; [exact L1|eapply P_ins; reflexivity|]. fold (start2 x).
    eapply PR_one; [exact L2|eapply P_skip; reflexivity|apply PR_none].
  - intros c' Hc. assert (I' : inside s0 s c').
    { apply (inside_stays s0 s a _ _ B Hc). split; [exact L2|]. split; [cbn [snd]; rewrite U3; reflexivity|]. left. reflexivity. }
    split; [exact I'|]. destruct (inside_step s0 s a c' B I') as (c2 & H & _). now exists c2.
Qed.
