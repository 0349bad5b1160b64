(* The theorems of ProgSim for programs of instructions with a known meaning. *)
From Coq Require Import ZArith List Bool String Lia.
From Verif Require Import Base Types Emit EmitFacts Encode Mnemonic SpecX86 SpecLeg SpecCond SpecExec SpecMach State Code Label Gen CodeFacts SpecLabel LabelHist LabelThms Grow LabelThms6 SpecProg ProgInsn ProgMach ProgHist ProgSim ProgSum CondFacts CondTables.
Import ListNotations.
Open Scope list_scope.
Open Scope Z_scope.

(* a new generator executes the calls of p, all of them succeed, and with AutoGrow ready() is among them; s and a are the
   generator and the specified labels afterwards *)
Record built (s0 : St) (p : program) (s : St) (a : Spec) : Prop := {
  bt_new : new_gen s0;
  bt_calls : shist_ok s0 spec0 (map op_of p) s a;
  bt_insns : well_formed p;
  bt_finished : finished s a }.
Lemma new_size s : new_gen s -> c_size (g_code s) = 0.
Proof.
  intros (n & u & or & _ & _ & H). unfold init in H. destruct (ctorCode n u or false) as [c e] eqn:E.
  destruct e; [discriminate|]. injection H as <-. cbn. unfold ctorCode in E. destruct u; [destruct (o_alloc _ _ _) as [[]|] in E..|]; now injection E as <-.
Qed.
Theorem entry s0 p s a : built s0 p s a -> adr s0 s p 0 = addr64 (c_top (g_code s)).
Proof. intros []. unfold adr, pos_of. cbn. now rewrite (new_size _ bt_new0), Z.add_0_r. Qed.
Theorem b_step s0 p s a i x c : built s0 p s a -> loaded s x -> pstep p (adr s0 s p) (At i x) c ->
  mstep (adr s0 s p i) x = Some (mcfg s0 s p c) \/ mcfg s0 s p c = (adr s0 s p i, x) /\ exists q, nth_error p i = Some q /\ no_code q = true.
Proof. intros [] Hl Hs. eapply step_ok; eauto. now apply well_good. Qed.
Theorem b_runs s0 p s a c c' : built s0 p s a -> pruns s0 s p c c' -> msteps (mcfg s0 s p c) (mcfg s0 s p c').
Proof. intros [] H. eapply runs_ok; eauto. now apply well_good. Qed.
Theorem b_labels s0 p s a i q l : built s0 p s a -> hasUndefinedLabel s = false -> nth_error p i = Some q -> names_label q = Some l -> exists j, leads_to p i l j.
Proof. intros [] H1 H2 H3. eapply label_found; eauto. now apply well_good. Qed.
Theorem b_back s0 p s a i x q r : built s0 p s a -> hasUndefinedLabel s = false -> loaded s x -> nth_error p i = Some q -> no_code q = false -> is_data q = false ->
  mstep (adr s0 s p i) x = Some r -> exists c, pstep p (adr s0 s p) (At i x) c /\ r = mcfg s0 s p c.
Proof.
  intros B Hu Hl Hq Hc Hd Hm. assert (Forall good p) by (destruct B; now apply well_good). pose proof B as [].
  eapply step_back; eauto. intros l Hn. eapply b_labels; eauto.
Qed.
(* such a statement is never stuck *)
Theorem b_goes s0 p s a i x q : built s0 p s a -> hasUndefinedLabel s = false -> nth_error p i = Some q -> is_data q = false -> exists c, pstep p (adr s0 s p) (At i x) c.
Proof.
  intros B Hu Hq Hd. destruct (no_code q) eqn:Hc; [eexists; eapply P_skip; eauto|].
  assert (forall l, names_label q = Some l -> exists j, leads_to p i l j) as Hn by (intros l Hl; eapply b_labels; eauto).
  destruct q; try discriminate; cbn [names_label] in Hn; try (destruct (Hn _ eq_refl) as (j & Hj));
    try (eexists; first [eapply P_jmpout; eauto; fail|eapply P_callout; eauto; fail|eapply P_leave; eauto; fail|econstructor; eauto; fail]).
  destruct (cc_holds k (fl x)) eqn:E; eexists; [eapply P_taken; eauto|eapply P_not_taken; eauto].
Qed.
(* ---- data ---- *)
Theorem b_data s0 p s a i bs x : built s0 p s a -> loaded s x -> nth_error p i = Some (SData bs) ->
  (forall k b, nth_error bs k = Some b -> mm x (addr64 (adr s0 s p i + Z.of_nat k)) = b mod 256) /\ adr s0 s p (S i) = addr64 (adr s0 s p i + Z.of_nat (List.length bs)).
Proof. intros [] Hl Hq. eapply data_bytes; eauto. now apply well_good. Qed.
(* a table of labels *)
Theorem b_table s0 p s a x ls : built s0 p s a -> loaded s x -> forall i, (forall k l, nth_error ls k = Some l -> nth_error p (i + k) = Some (SPutL l) /\ exists j, leads_to p (i + k) l j) ->
  forall k l j, nth_error ls k = Some l -> leads_to p (i + k) l j -> load (mm x) (addr64 (adr s0 s p i + 8 * Z.of_nat k)) 8 = adr s0 s p j.
Proof.
  intros B Hl i Ht. pose proof B as []. apply well_good in bt_insns0.
  assert (forall k, (k <= List.length ls)%nat -> adr s0 s p (i + k) = addr64 (adr s0 s p i + 8 * Z.of_nat k)) as HA.
  { induction k as [|k IH]; intros Hk; [rewrite Nat.add_0_r, Z.add_0_r; symmetry; apply adr_mod|].
    destruct (nth_error ls k) as [l|] eqn:El; [|apply nth_error_None in El; lia]. destruct (Ht k l El) as (Hq & j & Hj).
    destruct (putL_value s0 s a p bt_new0 bt_calls0 bt_insns0 bt_finished0 _ _ _ _ Hq Hj Hl) as [_ N]. rewrite Nat.add_succ_r, N, (IH ltac:(lia)), addr64_add. f_equal. lia. }
  intros k l j Hk Hj. destruct (Ht k l Hk) as (Hq & _). destruct (putL_value s0 s a p bt_new0 bt_calls0 bt_insns0 bt_finished0 _ _ _ _ Hq Hj Hl) as [V _].
  rewrite <- V. rewrite HA; [reflexivity|]. apply Nat.lt_le_incl, nth_error_Some. congruence.
Qed.
Theorem b_sum s0 s a n x : new_gen s0 -> shist_ok s0 spec0 (map op_of sum_prog) s a -> loaded s x -> rg x 1 mod 2 ^ 32 = n -> 1 <= n -> exists x',
  msteps (addr64 (c_top (g_code s)), x) (addr64 (load (mm x) (rg x RSP) 8), x') /\ mm x' = mm x /\ rg x' RSP = addr64 (rg x RSP + 8)
  /\ rg x' 0 mod 2 ^ 32 = (n * (n + 1) / 2) mod 2 ^ 32.
Proof.
  intros Hn Hh Hl H1 H2.
  assert (finished s a) as Hf.
  { pose proof Hh as H. change sum_prog with (firstn 6 sum_prog ++ [SReady]) in H. rewrite map_app in H. apply hist_split in H as (s1 & a1 & _ & H). cbn [map] in H.
    inversion H as [|? ? ? s2 a2 ? ? ? L1 L2 L3 L4 L5]; subst. inversion L5; subst. cbn in L4. injection L4 as <-. intros _. reflexivity. }
  rewrite <- (entry s0 sum_prog s a) by (split; auto; apply sum_wf). eapply sum_runs; eauto.
Qed.
Theorem jcc_stmt : Forall (fun m => exists k, encodes (fst m) k /\ forall l ty s, fst (snd m) l ty s = exec (op_of (SJcc k l ty)) s) jcc_methods.
Proof. eapply Forall_impl; [|exact jcc_all]. intros m (k & H1 & H2 & _). exists k. split; auto. Qed.
