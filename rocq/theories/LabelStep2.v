(* Label objects: definition, assignment, copies, destruction, reset; ready(); scopes. *)
From Coq Require Import ZArith List Bool String Arith Lia ZifyBool Permutation.
From Verif Require Import Base Types Emit EmitFacts Encode State Code Label Gen Wp CodeFacts SpecLabel LabelFacts LabelInv LabelEmit LabelDefine LabelStep.
Import ListNotations.
Open Scope Z_scope.

Lemma zeqb_ok a b : Z.eqb a b = true <-> a = b.
Proof. apply Z.eqb_eq. Qed.
Lemma neqb_ok a b : Nat.eqb a b = true <-> a = b.
Proof. apply Nat.eqb_eq. Qed.

Lemma countId_pos a h i : labOf a h = Some i -> (1 <= countId i (sp_lab a))%nat.
Proof.
  intros H. apply labOf_In in H. unfold countId.
  assert (In (h, i) (filter (fun p => ident_eqb i (snd p)) (sp_lab a))) as F
    by (apply filter_In; split; auto; now apply ident_eqb_ok).
  destruct (filter _ _); [destruct F|cbn; lia].
Qed.

Lemma ptrsInsert_in h lm k : In k (lm_ptrs (ptrsInsert h lm)) <-> k = h \/ In k (lm_ptrs lm).
Proof.
  unfold ptrsInsert. destruct (existsb (Nat.eqb h) (lm_ptrs lm)) eqn:E.
  - apply existsb_exists in E as (x & Hx & E). apply Nat.eqb_eq in E. subst x. split; [auto|]. intros [->|]; auto.
  - cbn [set_ptrs lm_ptrs In]. split; intros [H|H]; auto.
Qed.
Lemma ptrsInsert_nodup h lm : NoDup (lm_ptrs lm) -> NoDup (lm_ptrs (ptrsInsert h lm)).
Proof.
  unfold ptrsInsert. destruct (existsb (Nat.eqb h) (lm_ptrs lm)) eqn:E; auto. intros H. cbn [set_ptrs lm_ptrs]. constructor; auto.
  intros Hin. assert (existsb (Nat.eqb h) (lm_ptrs lm) = true); [|congruence]. apply existsb_exists. exists h. split; auto. apply Nat.eqb_refl.
Qed.
Lemma ptrsInsert_frame h lm : lm_front (ptrsInsert h lm) = lm_front lm /\ lm_stack (ptrsInsert h lm) = lm_stack lm /\
  lm_nextId (ptrsInsert h lm) = lm_nextId lm /\ lm_def (ptrsInsert h lm) = lm_def lm /\ lm_undef (ptrsInsert h lm) = lm_undef lm.
Proof. unfold ptrsInsert. destruct (existsb _ _); auto 10. Qed.

(* the label table after label h (identity i) has been defined at o *)
Lemma ObjI_define lm lbl a gid h i o lm' :
  ObjI lm lbl a gid -> labOf a h = Some i -> gid i <> 0 -> sp_defs a (TObj i) = None ->
  lm_nextId lm' = lm_nextId lm -> lm_def lm' = (gid i, (o, 1)) :: lm_def lm ->
  (forall k, In k (lm_ptrs lm') <-> k = h \/ In k (lm_ptrs lm)) -> NoDup (lm_ptrs lm') ->
  ObjI lm' (fun k => if Nat.eqb k h then mkLab true true (gid i) else lbl k) (specDefine a (TObj i) o) gid.
Proof.
  intros [] Hh Hg Hu En Ed Hp Hnd. set (a' := specDefine a (TObj i) o).
  assert (isDef a i = false) as Hud by (unfold isDef; now rewrite Hu).
  assert (forall h, labOf a' h = labOf a h) as E9 by reflexivity.
  assert (forall j, j <> i -> sp_defs a' (TObj j) = sp_defs a (TObj j)) as Ho by (intros; apply updT_other; congruence).
  assert (sp_defs a' (TObj i) = Some o) as Hi by apply updT_same.
  assert (forall j, j <> i -> isDef a' j = isDef a j) as Hod by (intros; apply isDef_ext; auto).
  assert (isDef a' i = true) as Hid by (unfold isDef; now rewrite Hi).
  assert (forall j, j <> i -> gid j <> 0 -> gid j <> gid i) as Hne by (intros j Hj H E; apply Hj; auto).
  constructor; rewrite ?En; auto.
  - intros j Hj. rewrite Ed. destruct (ident_dec j i) as [->|Hji].
    + rewrite assoc_cons_same by apply zeqb_ok. rewrite Hi. reflexivity.
    + rewrite assoc_cons_other by (apply zeqb_ok || auto). rewrite Ho by assumption. auto.
  - intros j Hj. rewrite Ho by congruence. auto.
  - rewrite Ed, assoc_cons_other by (apply zeqb_ok || auto). auto.
  - intros k Hk. rewrite Ed, assoc_cons_other by (apply zeqb_ok || (specialize (oi_rng i); lia)). auto.
  - intros h'. rewrite E9. specialize (oi_lab h'). destruct (labOf a h') as [j|] eqn:Hh'.
    + destruct (Nat.eqb h' h) eqn:E.
      * apply Nat.eqb_eq in E. subst h'. assert (j = i) by congruence. subst j. cbn [l_alive l_id l_mgr]. auto.
      * rewrite Hod; auto. intros ->. apply Nat.eqb_neq in E. apply E. eapply only_handle; eauto.
    + destruct (Nat.eqb h' h) eqn:E; auto. apply Nat.eqb_eq in E. congruence.
  - intros j Hj. destruct (ident_dec j i) as [->|Hji]; [congruence|]. rewrite Hod in Hj by assumption. apply (oi_one j Hj).
  - intros j o' rc. rewrite Ed. destruct (ident_dec j i) as [->|Hji].
    + rewrite assoc_cons_same by apply zeqb_ok. intros E _. inversion E; subst.
      pose proof (countId_pos _ _ _ Hh). specialize (oi_one i Hud). change (sp_lab a') with (sp_lab a). lia.
    + intros E Hj. rewrite assoc_cons_other in E by (apply zeqb_ok || auto). apply (oi_count _ _ _ E Hj).
  - intros h'. rewrite Hp, oi_ptrs. split.
    + intros [->|(j & H1 & H2)]; [exists i; auto|]. exists j. split; auto. rewrite Hod; auto. congruence.
    + intros (j & H1 & H2). rewrite E9 in H1. destruct (ident_dec j i) as [->|Hji].
      * left. eapply only_handle; eauto.
      * right. exists j. rewrite <- Hod; auto.
Qed.

Lemma wp_defineObj h i o s a g gid bnd :
  ok_st s -> Inv0 (g_code s) (g_lm s) (g_labels s) a g gid bnd -> isAutoGrowC (g_code s) && sp_ready a = false ->
  labOf a h = Some i -> gid i <> 0 -> 0 <= o <= c_size (g_code s) ->
  (isAutoGrowC (g_code s) = false -> (forall r, In r (prefs (TObj i) g) -> r_rel r = true) \/ o = c_size (g_code s)) ->
  wp (mbind (define_inner Z.eqb lm_undef set_cundef (insertC (gid i) o) (gid i) o) (fun _ => linkLabel h)) s
    (fun s' _ => Inv s' (specDefine a (TObj i) o))
    (fun s' e => g_noexc s' = false /\ (e = ERR_LABEL_IS_REDEFINED /\ s' = s \/ L_err e)).
Proof.
  intros Hok HI Hnf Hh Hg Ho Hlabs. pose proof HI as HI0. destruct HI0. destruct iv_pend.
  assert (Hn : g_noexc s = false) by apply Hok. set (t := TObj i).
  apply wp_bind.
  apply (wp_define_keyed Z.eqb zeqb_ok lm_undef set_cundef (fun _ _ => eq_refl) (fun _ _ _ => eq_refl) (fun _ => True)
     (fun _ _ _ => I) ltac:(intros []; reflexivity) (ckey gid) t (gid i) eq_refl _ _ s (sp_ready a) g bnd); auto.
  - unfold insertC. destruct (assoc Z.eqb (gid i) (lm_def (g_lm s))); [discriminate|]. intros lm' E; inversion E; subst. auto.
  - eapply kinj_class; [exact iv_tid|]. apply iv_obj.
  - intros lm1 u c' Hi W Ha Hs Ht HR HP. unfold insertC in Hi.
    destruct (assoc Z.eqb (gid i) (lm_def (g_lm s))) eqn:E; [discriminate|]. inversion Hi; subst lm1; clear Hi.
    assert (sp_defs a t = None) as Hu. { unfold t. rewrite <- (oi_def _ _ _ _ iv_obj i Hg), E. reflexivity. }
    pose proof (oi_lab _ _ _ _ iv_obj h) as Hl. rewrite Hh in Hl. destruct Hl as (Hal & Hid & Hmg).
    unfold linkLabel. apply wp_bind, wp_labelOf; [exact Hal|]. apply wp_put. cbn [g_labels set_lm set_code g_lm]. rewrite Hid.
    set (lm2 := set_cundef _ u). destruct (ptrsInsert_frame h lm2) as (F1 & F2 & F3 & F4 & F5).
    assert (forall t', t' <> t -> sp_defs (specDefine a t o) t' = sp_defs a t') as Hoth
            by (intros t' Ht'; apply updT_other; auto).
    split; [split; [exact Hn|split; [exact W|apply Hok]]|].
    exists (map (resolveg t o (isAutoGrowC (g_code s))) g), gid, bnd. cbn [g_code set_lm set_code g_lm g_labels set_label set_labels].
    constructor.
    + cbn [sp_refs specDefine set_refs set_defs]. rewrite <- iv_refs. eapply resolve_refs; eauto. apply iv_ref.
    + exact HR.
    + rewrite Ha. constructor; rewrite ?F1, ?F2, ?F5; cbn [lm2 set_cundef set_cdef lm_front lm_stack lm_undef].
      * rewrite pend_resolve_none by reflexivity. assumption.
      * eapply Forall2_impl; [|exact pi_scopes]. intros j ss H. now rewrite pend_resolve_none by reflexivity.
      * exact HP.
    + destruct iv_name. constructor; rewrite ?F1, ?F2; cbn [lm2 set_cundef set_cdef lm_front lm_stack lm_undef]; auto.
    + eapply (ObjI_define (g_lm s)); eauto.
      * intros k. rewrite ptrsInsert_in. reflexivity.
      * apply ptrsInsert_nodup. apply iv_obj.
    + eapply TidI_define; [exact iv_tid| |reflexivity|left; reflexivity]. intros t' Ht'. apply Hoth. auto.
    + eapply DefI_define; [exact iv_def|exact Hs| |intros; reflexivity]. lia.
Qed.

Lemma wp_L_obj h s a :
  Inv s a -> isAutoGrowC (g_code s) && sp_ready a = false -> alive a h -> touched_ref a (LObj h) ->
  lm_nextId (g_lm s) < 2147483647 ->
  wp (defineClabel h) s
    (fun s' _ => exists t, tid_of a (LObj h) = Some t /\ Inv s' (specDefine a t (c_size (g_code s))))
    (fun s' e => e = ERR_LABEL_IS_REDEFINED /\ Inv s' a \/ L_err e).
Proof.
  intros (Hok & g & gid & bnd & HI) Hnf Hal Hto Hid. unfold defineClabel.
  unfold alive in Hal. destruct (labOf a h) as [i|] eqn:Hh; [|congruence].
  apply wp_bind. eapply wp_getIdM; eauto. intros lm' lbl' gid' HI' Hg Hnx.
  apply wp_bind, wp_get. set (s1 := set_labels (set_lm s lm') lbl').
  change (c_size (g_code s)) with (c_size (g_code s1)).
  eapply wp_mono; [eapply (wp_defineObj h i _ s1 a g gid' bnd); eauto| |].
  - destruct Hok as (_ & [] & _). cbn. lia.
  - cbn beta. intros s' [] HI2. exists (TObj i). split; [cbn [tid_of]; now rewrite Hh|]. exact HI2.
  - cbn beta. intros s' e (_ & [(-> & ->)|He]); [left|now right]. split; auto.
    split; [exact Hok|]. exists g, gid', bnd. exact HI'.
Qed.

Lemma existsb_ref a (g : list gref) i : map fst g = sp_refs a -> existsb (is_tid (TObj i)) (sp_refs a) = true ->
  exists x, In x g /\ r_tid (fst x) = Some (TObj i).
Proof.
  intros <- H. apply existsb_exists in H as (r & Hr & H). apply in_map_iff in Hr as (x & <- & Hx).
  exists x. split; auto. now apply is_tid_ok.
Qed.


Lemma wp_assign d s0 s a :
  Inv s a -> isAutoGrowC (g_code s) && sp_ready a = false -> alive a d -> alive a s0 ->
  wp (assign d s0) s
    (fun s' _ => forall i j off, labOf a d = Some i -> labOf a s0 = Some j -> sp_defs a (TObj j) = Some off ->
       existsb (is_tid (TObj i)) (sp_refs a)
       && (isAutoGrowC (g_code s) || forallb (fun r => r_rel r || negb (is_tid (TObj i) r)) (sp_refs a)) = true ->
       Inv s' (specDefine a (TObj i) off))
    (fun s' e => (e = ERR_LABEL_IS_REDEFINED \/ e = ERR_LABEL_ISNOT_SET_BY_L) /\ Inv s' a \/ L_err e).
Proof.
  intros HInv Hnf Hd Hs0. pose proof HInv as (Hok & g & gid & bnd & HI). unfold alive in *.
  destruct (labOf a d) as [i|] eqn:Hi; [|congruence]. destruct (labOf a s0) as [j|] eqn:Hj; [|congruence].
  pose proof HI as HI0. destruct HI0. destruct iv_pend.
  pose proof (oi_lab _ _ _ _ iv_obj d) as Ld. rewrite Hi in Ld. destruct Ld as (Da & Did & Dm).
  pose proof (oi_lab _ _ _ _ iv_obj s0) as Ls. rewrite Hj in Ls. destruct Ls as (Sa & Sid & Sm).
  assert (Hn : g_noexc s = false) by apply Hok.
  unfold assign. apply wp_fnS, wp_bind, wp_labelOf; [exact Sa|]. apply wp_bind, wp_get. rewrite Sid.
  destruct (assoc Z.eqb (gid j) (lm_def (g_lm s))) as [[off rc]|] eqn:E.
  - assert (gid j <> 0) as Hgj by (intros Hz; rewrite Hz in E; rewrite (oi_zero _ _ _ _ iv_obj) in E; discriminate).
    assert (sp_defs a (TObj j) = Some off) as Hdj by (rewrite <- (oi_def _ _ _ _ iv_obj j Hgj), E; reflexivity).
    apply wp_bind, wp_labelOf; [exact Da|]. rewrite Did.
    destruct (existsb (is_tid (TObj i)) (sp_refs a)
       && (isAutoGrowC (g_code s) || forallb (fun r => r_rel r || negb (is_tid (TObj i) r)) (sp_refs a))) eqn:Hc.
    + apply andb_true_iff in Hc as [Hc1 Hc2].
      destruct (existsb_ref a g i iv_refs Hc1) as (x & Hx & Htx).
      assert (gid i <> 0) as Hgi.
      { unfold TidI in iv_tid. rewrite Forall_forall in iv_tid. apply (iv_tid x Hx _ Htx). }
      eapply wp_mono; [eapply (wp_defineObj d i off s a g gid bnd); eauto| |].
      * intros Ha. left. intros r Hr. apply prefs_in in Hr as [Hr Ht]. rewrite Ha in Hc2. cbn [orb] in Hc2.
        rewrite forallb_forall in Hc2. specialize (Hc2 r). rewrite Ht in Hc2. cbn [negb] in Hc2. rewrite orb_false_r in Hc2.
        apply Hc2. rewrite <- iv_refs. apply in_map_iff. exists (r, Pend). auto.
      * cbn beta. intros s' [] H2 i' j' off' Hi' Hj' Hoff' _. inversion Hi'; subst i'. inversion Hj'; subst j'.
        assert (off' = off) by congruence. subst off'. exact H2.
      * cbn beta. intros s' e (Hn' & [(-> & ->)|He]); (split; [exact Hn'|]); [left|now right]. auto.
    + apply wp_bind. eapply wp_mono; [eapply (wp_define_inner Z.eqb zeqb_ok lm_undef set_cundef (fun _ _ => eq_refl) (fun _ _ _ => eq_refl) (fun _ => True)
     (fun _ _ _ => I) ltac:(intros []; reflexivity) (insertC (gid i) off) (gid i) off s); eauto| |].
      * intros jj Hjj. apply (Permutation_in _ pi_class) in Hjj. apply pend_of_in in Hjj as (r & t' & Hr & _ & _ & ->).
        eapply Inv_jmp_ok; eauto.
      * unfold insertC. destruct (assoc Z.eqb (gid i) (lm_def (g_lm s))); [discriminate|]. intros lm' E'; inversion E'; subst. auto.
      * cbn beta. intros s' [] (lm1 & ms & u & c' & _ & _ & _ & _ & ->). unfold linkLabel. apply wp_bind, wp_labelOf; [exact Da|].
        apply wp_put. intros i' j' off' Hi' Hj' Hoff' Hc'. inversion Hi'; subst i'. congruence.
      * cbn beta. intros s' e (Hn' & [(-> & _ & ->)|He]); (split; [exact Hn'|]); [left|now right]. auto.
  - apply wp_throw. split; [exact Hn|]. left. auto.
Qed.

(* ---- scopes ---- *)
Lemma Inv_frame s s' a : Inv s a -> g_code s' = g_code s -> g_lm s' = g_lm s -> g_labels s' = g_labels s ->
  g_noexc s' = g_noexc s -> g_or s' = g_or s -> Inv s' a.
Proof. intros ((H1 & H2 & H3) & H) E1 E2 E3 E4 E5. split; [|now rewrite E1, E2, E3]. unfold ok_st. now rewrite E1, E4, E5. Qed.

Lemma pend_new_scope auto a gid g j : TidI a gid g -> ~ In j (sp_scopes a) -> pend_of (skey j) auto g = [].
Proof.
  intros HT Hj. unfold TidI in HT. induction HT as [|[r st] g Hx HT IH]; auto. unfold pend_of in *. cbn [flat_map]. rewrite IH, app_nil_r.
  unfold pend1. destruct st; auto. destruct (r_tid r) as [t|] eqn:Ht; auto. cbn [fst snd] in Hx. destruct (Hx _ Ht) as [_ H]. destruct (H eq_refl) as [_ Hw].
  destruct t; cbn [skey]; auto. cbn [tid_wf] in Hw. destruct (Nat.eqb j scope) eqn:E; auto. apply Nat.eqb_eq in E. subst. tauto.
Qed.

Lemma wp_inLocal s a : Inv s a ->
  wp enterLocal s (fun s' _ => Inv s' (set_scopes a (sp_nscope a :: sp_scopes a) (S (sp_nscope a)))) (fun _ _ => False).
Proof.
  intros (Hok & g & gid & bnd & HI). unfold enterLocal, with_lm. apply wp_put. split; [exact Hok|].
  exists g, gid, bnd. destruct HI. destruct iv_pend, iv_name.
  assert (~ In (sp_nscope a) (sp_scopes a)) as Hnew.
  { intros H. rewrite Forall_forall in ni_lt. apply ni_lt in H. lia. }
  constructor; cbn [g_code g_lm g_labels set_lm]; auto.
  - constructor; cbn [lm_front lm_stack lm_undef set_scopes sp_scopes]; auto.
    constructor; auto. cbn [emptySS ss_undef]. now rewrite (pend_new_scope _ a gid).
  - constructor; cbn [lm_front lm_stack set_scopes sp_scopes sp_nscope sp_anon sp_defs]; auto.
    + constructor; auto. intros s0 _. cbn [emptySS ss_def assoc]. symmetry. apply ni_new. lia.
    + constructor; auto.
    + discriminate.
    + constructor; [lia|]. eapply Forall_impl; [|exact ni_lt]. cbn beta. lia.
    + intros j s0 Hj. apply ni_new. lia.
  - eapply ObjI_ext; eauto.
  - unfold TidI in *. eapply Forall_impl; [|exact iv_tid]. intros x Hx t Ht. destruct (Hx t Ht) as [H1 H2]. split; auto.
    intros Hp. destruct (H2 Hp) as [H3 H4]. split; auto. destruct t; cbn [tid_wf set_scopes sp_scopes] in *; auto. destruct H4. split; auto. now right.
Qed.

Lemma wp_outLocal s a : Inv s a ->
  wp leaveLocal s (fun s' _ => Inv s' (set_scopes a (tl (sp_scopes a)) (sp_nscope a))) (fun s' _ => Inv s' a).
Proof.
  intros HInv. pose proof HInv as (Hok & g & gid & bnd & HI). assert (Hn : g_noexc s = false) by apply Hok.
  unfold leaveLocal. apply wp_fnS, wp_bind, wp_get.
  destruct (List.length (lm_stack (g_lm s)) <=? 1)%nat eqn:El; [apply wp_throw; auto|].
  destruct (nonempty (ss_undef (getSS (g_lm s) true))) eqn:Eu; [apply wp_throw; auto|].
  unfold with_lm. apply wp_put. split; [exact Hok|]. exists g, gid, bnd. destruct HI. destruct iv_pend, iv_name.
  destruct (sp_scopes a) as [|j js] eqn:Hsc; [congruence|].
  destruct (lm_stack (g_lm s)) as [|ss sss] eqn:Hst; [inversion ni_scopes|]. cbn [tl].
  cbn [getSS] in Eu. rewrite Hst in Eu. cbn [hd] in Eu.
  inversion ni_scopes as [|? ? ? ? N1 N2]; subst. inversion pi_scopes as [|? ? ? ? P1 P2]; subst.
  inversion ni_nodup as [|? ? D1 D2]; subst. inversion ni_lt as [|? ? L1 L2]; subst.
  assert (pend_of (skey j) (isAutoGrowC (g_code s)) g = []) as Hpe.
  { destruct (ss_undef ss); [|discriminate]. now apply Permutation_nil. }
  constructor; cbn [g_code g_lm g_labels set_lm]; auto.
  - constructor; cbn [lm_front lm_stack lm_undef set_scopes sp_scopes]; auto.
  - constructor; cbn [lm_front lm_stack set_scopes sp_scopes sp_nscope sp_anon sp_defs]; auto.
    intros ->. inversion N2; subst. cbn in El. discriminate.
  - eapply ObjI_ext; eauto.
  - unfold TidI in *. rewrite Forall_forall in *. intros x Hx t Ht. destruct (iv_tid x Hx t Ht) as [H1 H2]. split; auto.
    intros Hp. destruct (H2 Hp) as [H3 H4]. split; auto. destruct t; cbn [tid_wf set_scopes sp_scopes] in *; auto. destruct H4 as [H4 H5]. split; auto.
    rewrite Hsc in H5. destruct H5 as [<-|H5]; auto. exfalso.
    assert (In (s0, jmp_of (isAutoGrowC (g_code s)) (fst x)) (pend_of (skey j) (isAutoGrowC (g_code s)) g)) as Hin; [|now rewrite Hpe in Hin].
    unfold pend_of. apply in_flat_map. exists x. split; auto. destruct x as [r st]. cbn [fst snd] in *. subst st. unfold pend1. rewrite Ht.
    cbn [skey]. rewrite Nat.eqb_refl. now left.
Qed.
