(* sample/test0.cpp:104-120 (Reset::init): the calls depend on n, one add(eax, ecx) for each i < 10 - n. *)
From Coq Require Import ZArith List Bool String Lia.
From Verif Require Import Base Types Emit EmitFacts Encode Mnemonic SpecX86 SpecAddr SpecLeg SpecCond SpecExec SpecMach Wf ArgCheck ExecFacts ExecProofs ExecMore State Code Label Gen SpecLabel LabelThms Grow LabelThms6 SpecProg ProgInsn ProgMach VecInsn SseInsn ProgRef ProgHist ProgSim ProgSum ProgThms.
Import ListNotations.
Open Scope list_scope.
Open Scope Z_scope.

Definition adds (n : Z) : nat := Z.to_nat (10 - n).
Definition one_add : stmt := SIns (i_add_oo eax ecx) (e_alu2 0 32 eax ecx).
Definition body_of (k : nat) (v : Z) : program :=
  [SIns (i_xor_oo eax eax) (e_alu2 6 32 eax eax);
   SIns (mov_oi ecx v) (e_mov 32 ecx (v mod 2 ^ 32));
   SIns (test_ ecx (Reg32 1)) (e_test 32 ecx ecx);
   SJcc 5 (LStr "@f") T_AUTO;
   SRet;
   SLabel (LStr "@@")] ++ repeat one_add k ++
  [SIns (i_sub_oi ecx 1) (e_alu 5 32 ecx 1);
   SJcc 5 (LStr "@b") T_AUTO;
   SRet].
Definition init_prog (n : Z) : program := body_of (adds n) n.
Lemma one_add_wf : insn (i_add_oo eax ecx) (e_alu2 0 32 eax ecx).
Proof.
  refine (I_alu2 0 i_add_oi i_add_oo eax ecx _ _ _); [now left| |reflexivity].
  split; [left; apply gprb_ok; reflexivity|]. split; [apply gprb_ok; reflexivity|]. intros _. constructor; [discriminate|]. constructor; [discriminate|constructor].
Qed.
Lemma body_wf k v : well_formed (body_of k v).
Proof.
  unfold body_of. apply Forall_app. split; [|apply Forall_app; split].
  - repeat apply Forall_cons; try exact Logic.I; try lia; try apply Forall_nil.
    + left. refine (I_alu2 6 i_xor_oi i_xor_oo eax eax _ _ _); [cbn; tauto| |reflexivity].
      split; [left; apply gprb_ok; reflexivity|]. split; [apply gprb_ok; reflexivity|]. intros _. constructor; [discriminate|]. constructor; [discriminate|constructor].
    + left. refine (I_mov ecx v _). split; [left; apply gprb_ok; reflexivity|repeat split].
    + left. refine (I_test ecx (Reg32 1) _ _ _ _ _); [left; apply gprb_ok; reflexivity|apply gprb_ok; reflexivity|repeat split|repeat split|]. intros _. constructor; [discriminate|]. constructor; [discriminate|constructor].
  - apply Forall_forall. intros q Hq. apply repeat_spec in Hq. subst q. left. exact one_add_wf.
  - repeat apply Forall_cons; try exact Logic.I; try lia; try apply Forall_nil.
    left; refine (I_alu 5 i_sub_oi i_sub_oo ecx 1 _ _); [cbn; tauto|]. split; [left; apply gprb_ok; reflexivity|repeat split].
Qed.
Lemma nth_add k v j : (j < k)%nat -> nth_error (body_of k v) (6 + j) = Some one_add.
Proof.
  intros H. change (nth_error (repeat one_add k ++ [SIns (i_sub_oi ecx 1) (e_alu 5 32 ecx 1); SJcc 5 (LStr "@b") T_AUTO; SRet]) j = Some one_add).
  rewrite nth_error_app1 by (rewrite repeat_length; exact H). now apply nth_error_repeat.
Qed.
Lemma nth_end k v c : nth_error (body_of k v) (6 + (k + c)) = nth_error [SIns (i_sub_oi ecx 1) (e_alu 5 32 ecx 1); SJcc 5 (LStr "@b") T_AUTO; SRet] c.
Proof.
  change (nth_error (repeat one_add k ++ [SIns (i_sub_oi ecx 1) (e_alu 5 32 ecx 1); SJcc 5 (LStr "@b") T_AUTO; SRet]) (k + c) = nth_error [SIns (i_sub_oi ecx 1) (e_alu 5 32 ecx 1); SJcc 5 (LStr "@b") T_AUTO; SRet] c).
  rewrite nth_error_app2 by (rewrite repeat_length; lia). rewrite repeat_length. f_equal. lia.
Qed.
Lemma nth_sub k v : nth_error (body_of k v) (6 + k) = Some (SIns (i_sub_oi ecx 1) (e_alu 5 32 ecx 1)).
Proof. pose proof (nth_end k v 0) as H. rewrite Nat.add_0_r in H. exact H. Qed.
Lemma back_leads k v : leads_to (body_of k v) (6 + (k + 1)) (LStr "@b") 5.
Proof.
  assert (N : names_at (body_of k v) (6 + (k + 1)) = mkNames 1 [0%nat] 1 [] 0).
  { unfold names_at. set (t := repeat one_add k ++ [SIns (i_sub_oi ecx 1) (e_alu 5 32 ecx 1); SJcc 5 (LStr "@b") T_AUTO; SRet]).
    change (fold_left names_step (firstn (k + 1) t) (mkNames 1 [0%nat] 1 [] 0) = mkNames 1 [0%nat] 1 [] 0).
    unfold t. rewrite firstn_app, repeat_length, firstn_all2 by (rewrite repeat_length; lia). replace (k + 1 - k)%nat with 1%nat by lia.
    rewrite fold_left_app. clear t. assert (R : forall m, fold_left names_step (repeat one_add m) (mkNames 1 [0%nat] 1 [] 0) = mkNames 1 [0%nat] 1 [] 0).
    { intros m. induction m as [|m IH]; [reflexivity|exact IH]. }
    rewrite R. reflexivity. }
  exists (TAnon 1), (LStr "@@"). rewrite N. repeat split.
Qed.
Lemma fwd_leads k v : leads_to (body_of k v) 3 (LStr "@f") 5.
Proof. exists (TAnon 1), (LStr "@@"). repeat split. Qed.

Definition add1 (x : st) : st := e_alu2 0 32 eax ecx x.
Lemma add1_ok x : mm (add1 x) = mm x /\ rg (add1 x) RSP = rg x RSP /\ rg (add1 x) 1 = rg x 1 /\ rg (add1 x) 0 mod 2 ^ 32 = (rg x 0 + rg x 1) mod 2 ^ 32.
Proof.
  split; [reflexivity|]. split; [reflexivity|]. split; [reflexivity|].
  assert (A : rg (add1 x) 0 = (((rg x 0 mod 2 ^ 32 + rg x 1 mod 2 ^ 32 + 0) mod 2 ^ 32) mod 2 ^ 32)) by reflexivity.
  rewrite A, !Z.mod_mod, Z.add_0_r by discriminate. rewrite <- Zplus_mod. reflexivity.
Qed.
Definition sub1 (x : st) : st := e_alu 5 32 ecx 1 x.
Lemma sub1_ok x : let n := rg x 1 mod 2 ^ 32 in mm (sub1 x) = mm x /\ rg (sub1 x) RSP = rg x RSP /\ rg (sub1 x) 0 = rg x 0
  /\ rg (sub1 x) 1 mod 2 ^ 32 = (n - 1) mod 2 ^ 32 /\ cc_holds 5 (fl (sub1 x)) = negb ((n - 1) mod 2 ^ 32 =? 0).
Proof.
  cbv zeta. split; [reflexivity|]. split; [reflexivity|]. split; [reflexivity|].
  assert (B : rg (sub1 x) 1 = ((rg x 1 mod 2 ^ 32 - 1 - 0) mod 2 ^ 32) mod 2 ^ 32) by reflexivity.
  assert (C : cc_holds 5 (fl (sub1 x)) = xorb true ((rg x 1 mod 2 ^ 32 - 1 - 0) mod 2 ^ 32 =? 0)) by reflexivity.
  rewrite B, C, !Z.mod_mod, !Z.sub_0_r by discriminate. split; reflexivity.
Qed.
Definition begin (v : Z) (x : st) : st := e_test 32 ecx ecx (e_mov 32 ecx (v mod 2 ^ 32) (e_alu2 6 32 eax eax x)).
Lemma begin_ok v x : let n := v mod 2 ^ 32 in
  mm (begin v x) = mm x /\ rg (begin v x) RSP = rg x RSP /\ rg (begin v x) 1 = n /\ rg (begin v x) 0 = 0 /\ cc_holds 5 (fl (begin v x)) = negb (n =? 0).
Proof.
  cbv zeta. set (n := v mod 2 ^ 32). assert (N : 0 <= n < 2 ^ 32) by (apply Z.mod_pos_bound; reflexivity).
  split; [reflexivity|]. split; [reflexivity|].
  assert (A : rg (begin v x) 1 = n mod 2 ^ 32) by reflexivity.
  assert (B : rg (begin v x) 0 = Z.lxor (rg x 0 mod 2 ^ 32) (rg x 0 mod 2 ^ 32) mod 2 ^ 32) by reflexivity.
  assert (C : cc_holds 5 (fl (begin v x)) = xorb true (Z.land ((n mod 2 ^ 32) mod 2 ^ 32) ((n mod 2 ^ 32) mod 2 ^ 32) =? 0)) by reflexivity.
  rewrite A, B, C, Z.lxor_nilpotent, Z.land_diag, !(Z.mod_small n (2 ^ 32)) by lia. repeat split.
Qed.

Section Run.
  Variables (s0 s : St) (k : nat) (v : Z).
  Let p := body_of k v.
  Lemma runs_trans a b c : pruns s0 s p a b -> pruns s0 s p b c -> pruns s0 s p a c.
  Proof. induction 1; intros; [assumption|econstructor; eauto]. Qed.
  Lemma loaded_mm x y : mm y = mm x -> loaded s x -> loaded s y.
  Proof. intros E H i Hi. rewrite E. now apply H. Qed.
  Lemma adds_run (m : nat) : forall j x, (j + m = k)%nat -> loaded s x -> exists y, pruns s0 s p (At (6 + j) x) (At (6 + k) y)
    /\ mm y = mm x /\ rg y RSP = rg x RSP /\ rg y 1 = rg x 1 /\ rg y 0 mod 2 ^ 32 = (rg x 0 + Z.of_nat m * rg x 1) mod 2 ^ 32.
  Proof.
    induction m as [|m IH]; intros j x Hj Hl.
    - exists x. replace j with k by lia. split; [apply PR_none|]. repeat split. f_equal. lia.
    - destruct (add1_ok x) as (A1 & A2 & A3 & A4). destruct (IH (S j) (add1 x) ltac:(lia) (loaded_mm _ _ A1 Hl)) as (y & R & M & S' & C & Q).
      exists y. split; [eapply PR_one; [exact Hl|eapply P_ins; apply nth_add; lia|replace (S (6 + j)) with (6 + S j)%nat by lia; exact R]|].
      rewrite M, S', C, Q, A1, A2, A3. repeat split. rewrite <- Zplus_mod_idemp_l, A4, Zplus_mod_idemp_l. f_equal. lia.
  Qed.
  (* the multiple of ecx, one less in ecx *)
  Lemma turn_runs x : loaded s x -> let n := rg x 1 mod 2 ^ 32 in exists y, pruns s0 s p (At 5 x) (At (6 + (k + 1)) y) /\ mm y = mm x /\ rg y RSP = rg x RSP
    /\ rg y 1 mod 2 ^ 32 = (n - 1) mod 2 ^ 32 /\ rg y 0 mod 2 ^ 32 = (rg x 0 + Z.of_nat k * n) mod 2 ^ 32 /\ cc_holds 5 (fl y) = negb ((n - 1) mod 2 ^ 32 =? 0).
  Proof.
    cbv zeta. intros Hl. destruct (adds_run k 0 x ltac:(lia) Hl) as (y & R & M & S' & C & Q).
    destruct (sub1_ok y) as (B1 & B2 & B3 & B4 & B5). rewrite C in B4, B5. exists (sub1 y). rewrite B1, B2, B3, M, S'. split; [|split; [reflexivity|split; [reflexivity|split; [exact B4|split; [|exact B5]]]]].
    - eapply PR_one; [exact Hl|eapply P_skip; reflexivity|]. eapply runs_trans; [exact R|].
      eapply PR_one; [exact (loaded_mm _ _ M Hl)|eapply P_ins; exact (nth_sub k v)|].
      fold (sub1 y). replace (S (6 + k)) with (6 + (k + 1))%nat by lia. apply PR_none.
    - rewrite Q. rewrite <- Zplus_mod_idemp_r, <- (Zmult_mod_idemp_r (rg x 1)), Zplus_mod_idemp_r. reflexivity.
  Qed.
  Lemma loop_runs (m : nat) : forall x, loaded s x -> rg x 1 mod 2 ^ 32 = Z.of_nat (S m) ->
    exists y, pruns s0 s p (At 5 x) (At (6 + (k + 2)) y) /\ mm y = mm x /\ rg y RSP = rg x RSP
      /\ rg y 0 mod 2 ^ 32 = (rg x 0 + Z.of_nat k * (Z.of_nat (S m) * (Z.of_nat (S m) + 1) / 2)) mod 2 ^ 32.
  Proof.
    induction m as [|m IH]; intros x Hl Hn; destruct (turn_runs x Hl) as (y & R & M & S' & C & Q & F); rewrite Hn in *;
      pose proof (loaded_mm _ _ M Hl) as Ly.
    - exists y. split; [|split; [exact M|split; [exact S'|exact Q]]]. eapply runs_trans; [exact R|].
      eapply PR_one; [exact Ly|eapply P_not_taken; [apply (nth_end k v 1)|exact F]|]. replace (S (6 + (k + 1))) with (6 + (k + 2))%nat by lia. apply PR_none.
    - set (N := Z.of_nat (S (S m))) in *. assert (N < 2 ^ 32) by (rewrite <- Hn; apply Z.mod_pos_bound; reflexivity).
      assert (EN : (N - 1) mod 2 ^ 32 = Z.of_nat (S m)) by (rewrite Z.mod_small; lia).
      destruct (IH y Ly ltac:(congruence)) as (z & R2 & M2 & S2 & Q2). exists z. rewrite M2, S2. split; [|split; [exact M|split; [exact S'|]]].
      + eapply runs_trans; [exact R|]. eapply PR_one; [exact Ly|eapply P_taken; [apply (nth_end k v 1)|apply back_leads|]|exact R2].
        rewrite F, EN. reflexivity.
      + rewrite Q2, <- (Zplus_mod_idemp_l (rg y 0)), Q, Zplus_mod_idemp_l. f_equal.
        replace (N * (N + 1)) with (Z.of_nat (S m) * (Z.of_nat (S m) + 1) + N * 2) by (unfold N; lia). rewrite Z.div_add by lia. ring.
  Qed.
End Run.
Theorem init_runs s0 s a v x : let n := v mod 2 ^ 32 in built s0 (init_prog v) s a -> loaded s x -> exists y,
  msteps (addr64 (c_top (g_code s)), x) (addr64 (load (mm x) (rg x RSP) 8), y) /\ mm y = mm x /\ rg y RSP = addr64 (rg x RSP + 8)
  /\ rg y 0 mod 2 ^ 32 = (Z.max 0 (10 - v) * (n * (n + 1) / 2)) mod 2 ^ 32.
Proof.
  cbv zeta. intros B Hl. set (n := v mod 2 ^ 32). assert (N : 0 <= n < 2 ^ 32) by (apply Z.mod_pos_bound; reflexivity).
  destruct (begin_ok v x) as (T1 & T2 & T3 & T4 & T5). fold n in T3, T5. pose proof (loaded_mm s _ _ T1 Hl) as L1.
  assert (K : exists y i, pruns s0 s (init_prog v) (At 3 (begin v x)) (At i y) /\ nth_error (init_prog v) i = Some SRet /\ mm y = mm x /\ rg y RSP = rg x RSP
    /\ rg y 0 mod 2 ^ 32 = (Z.max 0 (10 - v) * (n * (n + 1) / 2)) mod 2 ^ 32).
  { destruct (Z.eqb_spec n 0) as [E|E].
    - exists (begin v x), 4%nat. split; [eapply PR_one; [exact L1|eapply P_not_taken; [reflexivity|exact T5]|apply PR_none]|].
      split; [reflexivity|]. split; [exact T1|]. split; [exact T2|]. rewrite T4, E. change (0 * (0 + 1) / 2) with 0. now rewrite Z.mul_0_r.
    - destruct (loop_runs s0 s (adds v) v (Z.to_nat (n - 1)) (begin v x) L1) as (y & R & M & S' & Q); [rewrite T3, Z.mod_small; lia|].
      exists y, (6 + (adds v + 2))%nat. rewrite M, S'. split; [|split; [apply (nth_end (adds v) v 2)|split; [exact T1|split; [exact T2|]]]].
      + eapply PR_one; [exact L1|eapply P_taken; [reflexivity|apply fwd_leads|exact T5]|exact R].
      + rewrite Q, T4. replace (Z.of_nat (S (Z.to_nat (n - 1)))) with n by lia. replace (Z.of_nat (adds v)) with (Z.max 0 (10 - v)) by (unfold adds; lia). now rewrite Z.add_0_l. }
  destruct K as (y & i & R & Hi & M & S' & Q).
  exists (set_reg y RSP (addr64 (rg y RSP + 8))). split; [|split; [exact M|split; [cbn; now rewrite S'|exact Q]]].
  rewrite <- (entry s0 _ s a B). rewrite <- M, <- S'.
  change (msteps (mcfg s0 s (init_prog v) (At 0 x)) (mcfg s0 s (init_prog v) (Out (addr64 (load (mm y) (rg y RSP) 8)) (set_reg y RSP (addr64 (rg y RSP + 8)))))).
  eapply b_runs; [exact B|]. eapply PR_one; [exact Hl|eapply P_ins; reflexivity|].
  eapply PR_one; [|eapply P_ins; reflexivity|]; [exact Hl|]. eapply PR_one; [|eapply P_ins; reflexivity|]; [exact Hl|]. fold (begin v x).
  eapply (runs_trans s0 s (adds v) v); [exact R|]. pose proof (loaded_mm s _ _ M Hl) as L3.
  eapply PR_one; [exact L3|eapply P_leave; exact Hi|apply PR_none].
Qed.
