(* Consequences of the label invariant, in the form used by the property theorems. *)
From Coq Require Import ZArith List Bool String Arith Lia ZifyBool Permutation.
From Verif Require Import Base Types Emit EmitFacts Encode State Code Label Gen Wp CodeFacts SpecMem SpecLabel LabelFacts LabelInv LabelEmit LabelDefine LabelStep LabelStep2 LabelStep3 LabelReady LabelHist.
Import ListNotations.
Open Scope Z_scope.

(* ---- fields ---- *)
Lemma pow_succ n : 2 ^ (8 * Z.of_nat (S n)) = 256 * 2 ^ (8 * Z.of_nat n).
Proof. replace (8 * Z.of_nat (S n)) with (8 + 8 * Z.of_nat n) by lia. rewrite Z.pow_add_r by lia. reflexivity. Qed.
Lemma le_read_bytes m n : forall p v, mem_has m p (le_bytes v n) -> le_read m p n = v mod 2 ^ (8 * Z.of_nat n).
Proof.
  induction n as [|n IH]; intros p v H; cbn [le_read le_bytes mem_has] in *.
  - cbn. now rewrite Z.mod_1_r.
  - destruct H as [H1 H2]. rewrite H1, (IH _ _ H2), pow_succ. unfold w8.
    assert (0 < 2 ^ (8 * Z.of_nat n)) by (apply Z.pow_pos_nonneg; lia).
    rewrite (Z.rem_mul_r v 256 (2 ^ (8 * Z.of_nat n))) by lia.
    rewrite <- Z.shiftr_div_pow2 with (n := 8) by lia. reflexivity.
Qed.
Lemma signed_fits n x : n = 1 \/ n = 4 -> fits n (s64 x) -> signed n (x mod 2 ^ (8 * n)) = s64 x.
Proof.
  intros Hn Hf.
  assert (exists k, x = s64 x + k * 18446744073709551616) as [k E].
  { unfold s64, w64. pose proof (Z.div_mod x 18446744073709551616 ltac:(lia)).
    destruct (x mod 18446744073709551616 <? 9223372036854775808);
      [exists (x / 18446744073709551616)|exists (x / 18446744073709551616 + 1)]; lia. }
  set (y := s64 x) in *. rewrite E. clearbody y.
  destruct Hn as [-> | ->]; unfold fits in Hf; cbn [Z.eqb Pos.eqb] in Hf; unfold signed.
  - change (2 ^ (8 * 1)) with 256. change (2 ^ (8 * 1 - 1)) with 128.
    replace (y + k * 18446744073709551616) with (y + (k * 72057594037927936) * 256) by lia. rewrite Z.mod_add by lia.
    destruct (Z_lt_le_dec y 0).
    + replace (y mod 256) with (y + 256) by (symmetry; rewrite <- (Z.mod_add y 1 256) by lia; apply Z.mod_small; lia).
      destruct (y + 256 <? 128) eqn:E'; lia.
    + rewrite Z.mod_small by lia. destruct (y <? 128) eqn:E'; lia.
  - change (2 ^ (8 * 4)) with 4294967296. change (2 ^ (8 * 4 - 1)) with 2147483648.
    replace (y + k * 18446744073709551616) with (y + (k * 4294967296) * 4294967296) by lia. rewrite Z.mod_add by lia.
    destruct (Z_lt_le_dec y 0).
    + replace (y mod 4294967296) with (y + 4294967296) by (symmetry; rewrite <- (Z.mod_add y 1 4294967296) by lia; apply Z.mod_small; lia).
      destruct (y + 4294967296 <? 2147483648) eqn:E'; lia.
    + rewrite Z.mod_small by lia. destruct (y <? 2147483648) eqn:E'; lia.
Qed.
Lemma w64_s64 x y : w64 (x + s64 y) = w64 (x + y).
Proof.
  unfold s64, w64 at 2 3. destruct (y mod 18446744073709551616 <? 9223372036854775808).
  - unfold w64. now rewrite Zplus_mod_idemp_r.
  - unfold w64. replace (x + (y mod 18446744073709551616 - 18446744073709551616))
      with (x + y mod 18446744073709551616 + (-1) * 18446744073709551616) by lia.
    rewrite Z.mod_add by lia. now rewrite Zplus_mod_idemp_r.
Qed.
Lemma branch_target_ok c pos n x : n = 1 \/ n = 4 -> fits n (s64 (x - (c_top c + (pos + n)))) ->
  mem_has (c_mem c) pos (le_bytes (x - (c_top c + (pos + n))) (Z.to_nat n)) -> branch_target c pos n = w64 x.
Proof.
  intros Hn Hf Hm. unfold branch_target, read_signed. rewrite (le_read_bytes _ _ _ _ Hm).
  rewrite Z2Nat.id by lia. rewrite signed_fits by assumption. rewrite w64_s64. f_equal. lia.
Qed.

(* all references of a finished program are written *)
Definition finished (s : St) (a : Spec) : Prop := isAutoGrowC (g_code s) = true -> sp_ready a = true.
Lemma field_of s a r o : Inv s a -> finished s a -> In r (sp_refs a) -> r_val r = Some o ->
  shape r /\ fitsL r o /\ field (g_code s) r o.
Proof.
  intros (_ & g & gid & bnd & HI) Hf Hr Hv. destruct HI, iv_ref. rewrite <- iv_refs in Hr.
  apply in_map_iff in Hr as ([r' st] & E & Hx). cbn [fst] in E. subst r'.
  rewrite Forall_forall in ri_ok. destruct (ri_ok _ Hx) as [Hs H]. cbn [fst snd] in *. split; [exact Hs|].
  destruct st.
  - destruct H; congruence.
  - destruct H as (H1 & H2 & _). specialize (Hf H1). congruence.
  - destruct H as (o' & H1 & H2 & H3 & _). assert (o' = o) by congruence. subst. auto.
Qed.
(* label-relative branches are written at once unless they wait for their label *)
Lemma rel_target s a r t o : Inv s a -> finished s a -> In r (sp_refs a) ->
  r_tid r = Some t -> r_rel r = true -> r_val r = Some o ->
  branch_target (g_code s) (r_pos r) (r_size r) = w64 (c_top (g_code s) + o + r_d r).
Proof.
  intros HI Hf Hr Ht Hrel Hv. destruct (field_of _ _ _ _ HI Hf Hr Hv) as (Hs & Hl & Hfd).
  destruct Hs as (_ & _ & Hs). specialize (Hs Hrel).
  assert (o + r_d r - (r_pos r + r_size r) = c_top (g_code s) + o + r_d r - (c_top (g_code s) + (r_pos r + r_size r))) as E by lia.
  apply branch_target_ok; auto.
  - rewrite <- E. apply Hl; auto. congruence.
  - rewrite <- E. unfold field, want in Hfd. rewrite Ht, Hrel in Hfd. exact Hfd.
Qed.
Lemma abs_value s a r t o : Inv s a -> finished s a -> In r (sp_refs a) ->
  r_tid r = Some t -> r_rel r = false -> r_val r = Some o ->
  read_u64 (g_code s) (r_pos r) = w64 (c_top (g_code s) + o).
Proof.
  intros HI Hf Hr Ht Hrel Hv. destruct (field_of _ _ _ _ HI Hf Hr Hv) as (Hs & Hl & Hfd).
  destruct Hs as (_ & Hs & _). specialize (Hs Hrel). unfold field, want in Hfd. rewrite Ht, Hrel, Hs in Hfd.
  unfold read_u64. apply le_read_bytes in Hfd. exact Hfd.
Qed.
Lemma absjmp_target s a r : Inv s a -> finished s a -> In r (sp_refs a) -> r_tid r = None ->
  r_val r = Some 0 -> fits (r_size r) (s64 (r_d r - (c_top (g_code s) + (r_pos r + r_size r)))) ->
  branch_target (g_code s) (r_pos r) (r_size r) = w64 (r_d r).
Proof.
  intros HI Hf Hr Ht Hv Hfit. destruct (field_of _ _ _ _ HI Hf Hr Hv) as (Hs & Hl & Hfd).
  destruct Hs as (Hs0 & _ & Hs). specialize (Hs (Hs0 Ht)). apply branch_target_ok; auto.
  unfold field, want in Hfd. rewrite Ht in Hfd.
  now replace (r_d r - (c_top (g_code s) + (r_pos r + r_size r))) with (r_d r - (c_top (g_code s) + r_pos r + r_size r)) by lia.
Qed.

(* ---- hasUndefinedLabel ---- *)
Lemma unresolved_pend s a g gid bnd : Inv0 (g_code s) (g_lm s) (g_labels s) a g gid bnd ->
  existsb unresolved (sp_refs a) = true <-> exists r, In (r, Pend) g.
Proof.
  intros []. destruct iv_ref. rewrite Forall_forall in ri_ok. rewrite existsb_exists, <- iv_refs. split.
  - intros (r & Hr & Hu). apply in_map_iff in Hr as ([r' st] & E & Hx). cbn [fst] in E. subst r'. exists r.
    destruct (ri_ok _ Hx) as [_ H]. cbn [snd fst] in H. unfold unresolved in Hu. destruct st; auto.
    + destruct H as (_ & _ & o & H & _). now rewrite H in Hu.
    + destruct H as (o & H & _). now rewrite H in Hu.
  - intros (r & Hx). exists r. split; [apply in_map_iff; exists (r, Pend); auto|].
    destruct (ri_ok _ Hx) as [_ [H _]]. cbn [fst] in H. unfold unresolved. now rewrite H.
Qed.
Lemma pend_nonempty {K} (key : TId -> option K) auto g k j : In (k, j) (pend_of key auto g) -> exists r, In (r, Pend) g.
Proof.
  unfold pend_of. intros H. apply in_flat_map in H as ([r st] & Hx & H). destruct st; [|destruct H|destruct H]. eauto.
Qed.
Lemma in_pend_of {K} (key : TId -> option K) auto g r t k : In (r, Pend) g -> r_tid r = Some t -> key t = Some k ->
  In (k, jmp_of auto r) (pend_of key auto g).
Proof.
  intros Hx Ht Hk. unfold pend_of. apply in_flat_map. exists (r, Pend). split; auto. cbn [pend1]. rewrite Ht, Hk. now left.
Qed.
Lemma nonempty_in {A} (l : list A) : nonempty l = true <-> exists x, In x l.
Proof. destruct l; cbn; split; try discriminate; eauto. intros (x & []). Qed.
Lemma Forall2_in_l {A B} (P : A -> B -> Prop) l l' x : Forall2 P l l' -> In x l -> exists y, In y l' /\ P x y.
Proof. induction 1; intros []; subst; [exists y; cbn; auto|]. destruct IHForall2 as (z & ? & ?); auto. exists z; cbn; auto. Qed.
Lemma Forall2_in_r {A B} (P : A -> B -> Prop) l l' y : Forall2 P l l' -> In y l' -> exists x, In x l /\ P x y.
Proof. induction 1; intros []; subst; [exists x; cbn; auto|]. destruct IHForall2 as (z & ? & ?); auto. exists z; cbn; auto. Qed.

Lemma hasUndefined_iff s a : Inv s a -> hasUndefinedLabel s = existsb unresolved (sp_refs a).
Proof.
  intros (Hok & g & gid & bnd & HI).
  destruct (existsb unresolved (sp_refs a)) eqn:E.
  - apply (unresolved_pend _ _ _ _ _ HI) in E as (r & Hx).
    destruct HI, iv_ref, iv_pend. rewrite Forall_forall in ri_ok. destruct (ri_ok _ Hx) as [_ [_ Ht]]. cbn [fst] in Ht.
    destruct (r_tid r) as [t|] eqn:Et; [|congruence]. clear Ht.
    unfold TidI in iv_tid. rewrite Forall_forall in iv_tid. destruct (iv_tid _ Hx _ Et) as [_ Hp]. destruct (Hp eq_refl) as [_ Hw].
    unfold hasUndefinedLabel, hasUndefS, hasUndefC.
    destruct t as [n|j n|m|i]; cbn [tid_wf] in Hw.
    + replace (nonempty (ss_undef (lm_front (g_lm s)))) with true; [reflexivity|]. symmetry. apply nonempty_in.
      eexists. eapply Permutation_in; [symmetry; exact pi_front|]. eapply in_pend_of; eauto. reflexivity.
    + destruct Hw as [_ Hj]. destruct (Forall2_in_l _ _ _ _ pi_scopes Hj) as (ss & Hss & Hperm).
      replace (existsb _ (lm_stack (g_lm s))) with true; [now rewrite orb_true_r|]. symmetry. apply existsb_exists.
      exists ss. split; auto. apply nonempty_in. eexists. eapply Permutation_in; [symmetry; exact Hperm|].
      eapply in_pend_of; eauto. cbn [skey]. now rewrite Nat.eqb_refl.
    + replace (nonempty (ss_undef (lm_front (g_lm s)))) with true; [reflexivity|]. symmetry. apply nonempty_in.
      eexists. eapply Permutation_in; [symmetry; exact pi_front|]. eapply in_pend_of; eauto. reflexivity.
    + replace (nonempty (lm_undef (g_lm s))) with true; [now rewrite orb_true_r|]. symmetry. apply nonempty_in.
      eexists. eapply Permutation_in; [symmetry; exact pi_class|]. eapply in_pend_of; eauto. reflexivity.
  - destruct (hasUndefinedLabel s) eqn:Eu; auto. exfalso.
    assert (exists r, In (r, Pend) g) as Hex.
    { unfold hasUndefinedLabel, hasUndefS, hasUndefC in Eu. destruct HI, iv_pend.
      rewrite !orb_true_iff in Eu. destruct Eu as [[Eu|Eu]|Eu].
      - apply nonempty_in in Eu as ([k j] & Hin). eapply pend_nonempty. eapply Permutation_in; [exact pi_front|exact Hin].
      - apply existsb_exists in Eu as (ss & Hss & Eu). apply nonempty_in in Eu as ([k j] & Hin).
        destruct (Forall2_in_r _ _ _ _ pi_scopes Hss) as (jj & _ & Hperm). eapply pend_nonempty. eapply Permutation_in; [exact Hperm|exact Hin].
      - apply nonempty_in in Eu as ([k j] & Hin). eapply pend_nonempty. eapply Permutation_in; [exact pi_class|exact Hin]. }
    apply (unresolved_pend _ _ _ _ _ HI) in Hex. congruence.
Qed.
Lemma ready_undefined s a : Inv s a ->
  existsb unresolved (sp_refs a) = true -> ready s = Thrown s ERR_LABEL_IS_NOT_FOUND.
Proof.
  intros HI E. rewrite <- (hasUndefined_iff _ _ HI) in E. unfold ready, fnS, mbind, get. rewrite E.
  cbn. destruct HI as ((-> & _) & _). reflexivity.
Qed.
Lemma ready_defined s a e s' : Inv s a -> existsb unresolved (sp_refs a) = false ->
  ready s = Thrown s' e -> e <> ERR_LABEL_IS_NOT_FOUND.
Proof.
  intros HI E Hr ->. rewrite <- (hasUndefined_iff _ _ HI) in E.
  pose proof (wp_ready s a HI) as W. unfold wp in W. rewrite Hr in W.
  destruct W as [[_ ->]|[W|W]]; try discriminate.
  unfold ready, fnS, mbind, get in Hr. rewrite E in Hr. destruct HI as ((Hn & _) & _).
  destruct (isAutoGrowC (g_code s)); [|discriminate].
  revert Hr. unfold calcJmpAddress, mbind, get.
  assert (forall l s1 s2, calcLoop l s1 = Thrown s2 ERR_LABEL_IS_NOT_FOUND -> False) as Hc.
  { induction l as [|i l IH]; intros s1 s2; cbn [calcLoop]; [discriminate|]. unfold mbind, get, getVal, verifyInInt32M, rewrite.
    set (d := match ai_mode i with LaddTop => _ | LasIs => _ | Labs => _ end).
    assert (forall d s1, (fnS tt (if negb (ai_size i =? 1) && negb (ai_size i =? 2) && negb (ai_size i =? 4) && negb (ai_size i =? 8)
       then mthrow ERR_BAD_PARAMETER else pokes (ai_off i) (le_bytes d (Z.to_nat (ai_size i)))) s1) <> Thrown s2 ERR_LABEL_IS_NOT_FOUND) as Hrw.
    { intros d0 s3. unfold fnS. destruct (_ && _); cbn.
      - destruct (g_noexc s3); discriminate.
      - assert (forall bs o s4 s5 e, pokes o bs s4 <> Thrown s5 e) as Hp.
        { induction bs as [|b bs IHb]; intros o s4 s5 e; cbn [pokes]; [discriminate|]. unfold mbind, poke.
          destruct (_ && _); [apply IHb|discriminate]. }
        destruct (pokes _ _ s3) eqn:Ep; try discriminate. exfalso. eapply Hp; eauto. }
    destruct (ai_size i =? 4).
    - unfold fnS at 1. destruct (IsInInt32 d); cbn.
      + match goal with |- context [match ?x with _ => _ end] => destruct x eqn:Ex end; try discriminate; [apply IH|].
        intros H; inversion H; subst. eapply Hrw; eauto.
      + destruct (g_noexc s1); [|discriminate].
        match goal with |- context [match ?x with _ => _ end] => destruct x eqn:Ex end; try discriminate; [apply IH|].
        intros H; inversion H; subst. eapply Hrw; eauto.
    - cbn. match goal with |- context [match ?x with _ => _ end] => destruct x eqn:Ex end; try discriminate; [apply IH|].
      intros H; inversion H; subst. eapply Hrw; eauto. }
  assert (forall sx, setProtectMode true sx <> Thrown s ERR_LABEL_IS_NOT_FOUND) as Hpm.
  { intros sx. unfold setProtectMode, fnS, mbind, get. destruct (o_protect (g_or sx)); [discriminate|]. cbn.
    destruct (g_noexc sx); discriminate. }
  destruct (c_called (g_code s)).
  - cbn. destruct (o_useProtect (g_or s)); [|discriminate]. unfold mbind. specialize (Hpm s).
    destruct (setProtectMode true s) as [|s2 e2|] eqn:Es; try discriminate. destruct (g_noexc s2); congruence.
  - destruct (calcLoop (c_infos (g_code s)) s) as [s2 []|s2 e2|] eqn:Ec; try discriminate.
    + cbn. destruct (o_useProtect (g_or s)); [|discriminate]. unfold mbind.
      match goal with |- context [setProtectMode true ?x] => specialize (Hpm x); destruct (setProtectMode true x) as [|s3 e3|] eqn:Es end; try discriminate.
      destruct (g_noexc s3); congruence.
    + destruct (g_noexc s2); [discriminate|]. intros H. inversion H; subst. eapply Hc; eauto.
Qed.
