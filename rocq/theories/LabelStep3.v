(* Label objects: creation, copies, destruction, reset; ready(); a new generator. *)
From Coq Require Import ZArith List Bool String Arith Lia ZifyBool Permutation.
From Verif Require Import Base Types Emit EmitFacts Encode State Code Label Gen Wp CodeFacts SpecLabel LabelFacts LabelInv LabelEmit LabelDefine LabelStep LabelStep2.
Import ListNotations.
Open Scope Z_scope.

(* ---- counting handles ---- *)
Lemma erase_id {K V} (eqb : K -> K -> bool) k (l : list (K * V)) : assoc eqb k l = None -> erase eqb k l = l.
Proof.
  unfold erase. induction l as [|[k' v] l IH]; cbn [assoc filter fst]; auto. destruct (eqb k k'); [discriminate|].
  intros H. cbn [negb]. now rewrite IH.
Qed.
Lemma assoc_notin h (l : list (LabelH * ident)) : ~ In h (map fst l) -> assoc Nat.eqb h l = None.
Proof.
  induction l as [|[h' i] l IH]; cbn [map fst assoc In]; auto. intros H. destruct (Nat.eqb h h') eqn:E; [|apply IH; tauto].
  apply Nat.eqb_eq in E. subst. tauto.
Qed.
Lemma erase_fst h (l : list (LabelH * ident)) x : In x (map fst (erase Nat.eqb h l)) -> In x (map fst l) /\ x <> h.
Proof.
  unfold erase. intros H. apply in_map_iff in H as (p & <- & H). apply filter_In in H as [H1 H2].
  split; [now apply in_map|]. intros E. rewrite E, Nat.eqb_refl in H2. discriminate.
Qed.
Lemma erase_nodup h (l : list (LabelH * ident)) : NoDup (map fst l) -> NoDup (map fst (erase Nat.eqb h l)).
Proof.
  unfold erase. induction l as [|[h' i] l IH]; cbn [map fst filter]; auto. intros H. inversion H; subst.
  destruct (Nat.eqb h h'); cbn [negb map fst]; auto. constructor; auto. intros Hin. apply H2.
  apply erase_fst in Hin. tauto.
Qed.
Lemma countId_cons i h j l : countId i ((h, j) :: l) = ((if ident_eqb i j then 1 else 0) + countId i l)%nat.
Proof. unfold countId. cbn [filter snd]. destruct (ident_eqb i j); reflexivity. Qed.
Lemma ident_eqb_refl i : ident_eqb i i = true.
Proof. now apply ident_eqb_ok. Qed.
Lemma countId_erase h (l : list (LabelH * ident)) j : NoDup (map fst l) -> assoc Nat.eqb h l <> Some j ->
  countId j (erase Nat.eqb h l) = countId j l.
Proof.
  unfold erase. induction l as [|[h' i] l IH]; cbn [map fst filter assoc]; auto. intros H. inversion H; subst.
  destruct (Nat.eqb h h') eqn:E; cbn [negb].
  - intros Hij. apply Nat.eqb_eq in E. subst. fold (erase Nat.eqb h' l). rewrite erase_id by now apply assoc_notin.
    rewrite countId_cons. destruct (ident_eqb j i) eqn:Ej; auto. apply ident_eqb_ok in Ej. congruence.
  - intros Hj. rewrite !countId_cons. f_equal. auto.
Qed.
Lemma countId_erase_same h (l : list (LabelH * ident)) j : NoDup (map fst l) -> assoc Nat.eqb h l = Some j ->
  countId j l = S (countId j (erase Nat.eqb h l)).
Proof.
  unfold erase. induction l as [|[h' i] l IH]; cbn [map fst filter assoc]; [discriminate|]. intros H. inversion H; subst.
  destruct (Nat.eqb h h') eqn:E; cbn [negb].
  - intros Hij. inversion Hij; subst. apply Nat.eqb_eq in E. subst. fold (erase Nat.eqb h' l). rewrite erase_id by now apply assoc_notin.
    rewrite countId_cons, ident_eqb_refl. reflexivity.
  - intros Hj. rewrite !countId_cons. rewrite (IH H3 Hj). lia.
Qed.
Lemma countId_zero h i l : countId i l = 0%nat -> ~ In (h, i) l.
Proof.
  unfold countId. intros H Hin.
  assert (In (h, i) (filter (fun p => ident_eqb i (snd p)) l)) as F by (apply filter_In; split; auto; apply ident_eqb_refl).
  destruct (filter _ _); [destruct F|discriminate].
Qed.

(* ---- a new label ---- *)
Definition newLab (a : Spec) (h : LabelH) : Spec :=
  mkSpec (sp_defs a) (sp_refs a) (sp_anon a) (sp_scopes a) (sp_nscope a)
         ((h, Fresh (sp_nlab a)) :: sp_lab a) (S (sp_nlab a)) (sp_epoch a) (sp_touched a) (sp_ready a).
Lemma labOf_cons a a' h i h' : sp_lab a' = (h, i) :: sp_lab a -> labOf a' h' = if Nat.eqb h' h then Some i else labOf a h'.
Proof. unfold labOf. now intros ->. Qed.

Lemma wp_newLabel h s a : Inv s a -> labOf a h = None ->
  wp (newLabel h) s (fun s' _ => Inv s' (newLab a h)) (fun _ _ => False).
Proof.
  intros (Hok & g & gid & bnd & HI) Hh. unfold newLabel. destruct HI.
  pose proof (oi_lab _ _ _ _ iv_obj h) as Hl. rewrite Hh in Hl. apply wp_bind, wp_get. rewrite Hl.
  apply wp_put. split; [exact Hok|]. exists g, gid, bnd. cbn [g_code g_lm g_labels set_label set_labels].
  constructor; auto.
  - destruct iv_pend. constructor; auto.
  - destruct iv_name. constructor; auto.
  - assert (forall h', labOf (newLab a h) h' = if Nat.eqb h' h then Some (Fresh (sp_nlab a)) else labOf a h') as E9
      by (intros; now apply labOf_cons).
    destruct iv_obj. set (i := Fresh (sp_nlab a)) in *.
    assert (gid i = 0) as Hz. { destruct (Z.eq_dec (gid i) 0) as [|Hnz]; auto. apply oi_old in Hnz. cbn in Hnz. lia. }
    assert (isDef a i = false) as Hud by (unfold isDef; now rewrite oi_undef).
    assert (forall h', labOf a h' <> Some i) as Hno by (intros h' H; apply oi_labold in H; cbn in H; lia).
    assert (countId i (sp_lab a) = 0%nat) as Hc0.
    { unfold countId. destruct (filter (fun p => ident_eqb i (snd p)) (sp_lab a)) as [|[h' i'] f] eqn:F; auto. exfalso.
      assert (In (h', i') (filter (fun p => ident_eqb i (snd p)) (sp_lab a))) as Hin by (rewrite F; now left).
      apply filter_In in Hin as [H1 H2]. cbn [snd] in H2. apply ident_eqb_ok in H2. subst i'.
      apply (Hno h'). apply In_labOf; auto. }
    assert (forall j, old a j -> old (newLab a h) j) as Hold by (intros []; cbn; auto; lia).
    constructor; auto.
    + intros h' j. rewrite E9. destruct (Nat.eqb h' h); eauto. intros E; inversion E; subst. cbn. lia.
    + intros h'. rewrite E9. specialize (oi_lab h'). destruct (Nat.eqb h' h) eqn:E; [|exact oi_lab].
      cbn [l_alive l_id l_mgr]. change (isDef (newLab a h) i) with (isDef a i). rewrite Hud, Hz. auto.
    + cbn [newLab sp_lab map fst]. constructor; auto. intros Hin. apply in_map_iff in Hin as ([h' j] & E & Hin). cbn [fst] in E. subst h'.
      apply In_labOf in Hin; auto. congruence.
    + intros j Hj. cbn [newLab sp_lab]. fold i. rewrite countId_cons. destruct (ident_eqb j i) eqn:E; [|apply (oi_one j Hj)].
      apply ident_eqb_ok in E. subst j. rewrite Hc0. lia.
    + intros j o rc Ha Hg. destruct (oi_count j o rc Ha Hg) as [H1 H2]. split; auto. cbn [newLab sp_lab]. fold i. rewrite countId_cons.
      destruct (ident_eqb j i) eqn:E; auto. apply ident_eqb_ok in E. congruence.
    + intros h'. rewrite oi_ptrs. split; intros (j & H1 & H2); exists j; rewrite E9 in *.
      * split; auto. destruct (Nat.eqb h' h) eqn:E; auto. apply Nat.eqb_eq in E. congruence.
      * split; auto. destruct (Nat.eqb h' h) eqn:E; auto. inversion H1; subst. change (isDef a i = true) in H2. congruence.
Qed.

(* ---- copies ---- *)
Lemma assoc_erase_if h d (l : list (LabelH * ident)) :
  assoc Nat.eqb h (erase Nat.eqb d l) = if Nat.eqb h d then None else assoc Nat.eqb h l.
Proof.
  destruct (Nat.eqb h d) eqn:E.
  - apply Nat.eqb_eq in E. subst. apply assoc_erase_same. apply neqb_ok.
  - apply Nat.eqb_neq in E. apply assoc_erase_other; [apply neqb_ok|auto].
Qed.

Lemma ObjI_copy lm lbl a gid d i off rc :
  ObjI lm lbl a gid -> gid i <> 0 -> sp_defs a (TObj i) <> None ->
  (forall j, labOf a d = Some j -> gid j = 0) ->
  assoc Z.eqb (gid i) (lm_def lm) = Some (off, rc) ->
  ObjI (ptrsInsert d (set_cdef lm ((gid i, (off, rc + 1)) :: erase Z.eqb (gid i) (lm_def lm))))
       (fun k => if Nat.eqb k d then mkLab true true (gid i) else lbl k)
       (set_lab a ((d, i) :: erase Nat.eqb d (sp_lab a))) gid.
Proof.
  intros [] Hg Hdef Hd Ha. set (a' := set_lab a _). set (lm' := set_cdef lm _).
  destruct (ptrsInsert_frame d lm') as (_ & _ & F3 & F4 & _).
  assert (forall h, labOf a' h = if Nat.eqb h d then Some i else labOf a h) as E9.
  { intros h. unfold labOf. cbn [a' set_lab sp_lab assoc]. destruct (Nat.eqb h d) eqn:E; auto. rewrite assoc_erase_if, E. reflexivity. }
  assert (isDef a i = true) as Hid by (unfold isDef; destruct (sp_defs a (TObj i)); congruence).
  assert (forall j, isDef a' j = isDef a j) as Hod by reflexivity.
  assert (forall j, j <> i -> gid j <> 0 -> gid j <> gid i) as Hne by (intros j Hj H E; apply Hj; auto).
  assert (forall j, j <> i -> gid j <> 0 -> assoc Z.eqb (gid j) (lm_def lm') = assoc Z.eqb (gid j) (lm_def lm)) as Hasc.
  { intros j Hj Hgj. cbn [lm' set_cdef lm_def]. rewrite assoc_cons_other by (apply zeqb_ok || auto).
    apply assoc_erase_other; [apply zeqb_ok|]. auto. }
  assert (forall k, k = 0 \/ lm_nextId lm <= k -> assoc Z.eqb k (lm_def lm') = assoc Z.eqb k (lm_def lm)) as Hask.
  { intros k Hk. cbn [lm' set_cdef lm_def]. assert (k <> gid i) by (specialize (oi_rng i); lia).
    rewrite assoc_cons_other by (apply zeqb_ok || auto). apply assoc_erase_other; [apply zeqb_ok|]. auto. }
  assert (assoc Z.eqb (gid i) (lm_def lm') = Some (off, rc + 1)) as Hasi
    by (cbn [lm' set_cdef lm_def]; apply assoc_cons_same; apply zeqb_ok).
  assert (labOf a d <> Some i) as Hdi by (intros H; apply Hg; auto).
  assert (countId i (sp_lab a') = S (countId i (sp_lab a))) as Hci.
  { cbn [a' set_lab sp_lab]. rewrite countId_cons, ident_eqb_refl, countId_erase; auto. }
  assert (forall j, j <> i -> (countId j (sp_lab a') <= countId j (sp_lab a))%nat) as Hcle.
  { intros j Hj. cbn [a' set_lab sp_lab]. rewrite countId_cons. destruct (ident_eqb j i) eqn:E; [apply ident_eqb_ok in E; congruence|].
    destruct (labOf a d) as [j0|] eqn:Hl.
    - destruct (ident_dec j0 j) as [->|Hjj]; [pose proof (countId_erase_same d (sp_lab a) j oi_nodup Hl)|
        pose proof (countId_erase d (sp_lab a) j oi_nodup)]; [lia|]. rewrite H; [lia|]. unfold labOf in Hl. congruence.
    - rewrite countId_erase; auto. unfold labOf in Hl. congruence. }
  constructor; rewrite ?F3, ?F4; auto.
  - intros j Hj. destruct (ident_dec j i) as [->|Hji].
    + rewrite Hasi. cbn [option_map fst]. change (sp_defs a' (TObj i)) with (sp_defs a (TObj i)). rewrite <- oi_def, Ha; auto.
    + rewrite Hasc by assumption. apply oi_def; auto.
  - rewrite Hask by auto. auto.
  - intros k Hk. change (lm_nextId lm') with (lm_nextId lm) in Hk. rewrite Hask by auto. auto.
  - intros h j. rewrite E9. destruct (Nat.eqb h d); [|eauto]. intros E; inversion E; subst. apply (oi_old j Hg).
  - intros h. rewrite E9. specialize (oi_lab h). destruct (Nat.eqb h d) eqn:E; [|exact oi_lab]. cbn [l_alive l_id l_mgr]. rewrite Hod. auto.
  - cbn [a' set_lab sp_lab map fst]. constructor; [|now apply erase_nodup]. intros H. apply erase_fst in H. tauto.
  - intros j Hj. rewrite Hod in Hj. assert (j <> i) by congruence. specialize (Hcle j H). specialize (oi_one j Hj). lia.
  - intros j o' rc' Hja Hgj. destruct (ident_dec j i) as [->|Hji].
    + rewrite Hasi in Hja. inversion Hja; subst. destruct (oi_count i _ _ Ha Hg) as [H1 H2]. rewrite Hci. lia.
    + rewrite Hasc in Hja by assumption. destruct (oi_count j _ _ Hja Hgj) as [H1 H2]. split; auto. rewrite H1. f_equal.
      cbn [a' set_lab sp_lab]. rewrite countId_cons. destruct (ident_eqb j i) eqn:E; [apply ident_eqb_ok in E; congruence|].
      rewrite countId_erase; auto.
  - intros h. rewrite ptrsInsert_in. change (lm_ptrs lm') with (lm_ptrs lm). rewrite oi_ptrs. split.
    + intros [->|(j & H1 & H2)]; [exists i; rewrite E9, Nat.eqb_refl; auto|]. exists j. rewrite E9. split; auto.
      destruct (Nat.eqb h d) eqn:E; auto. apply Nat.eqb_eq in E. subst h. exfalso. apply Hd in H1. apply oi_undef in H1.
      unfold isDef in H2. rewrite H1 in H2. discriminate.
    + intros (j & H1 & H2). rewrite E9 in H1. destruct (Nat.eqb h d) eqn:E; [left; now apply Nat.eqb_eq|]. right. exists j. auto.
  - apply ptrsInsert_nodup. auto.
Qed.

Lemma Inv0_copy c lm lbl a g gid bnd d i off rc :
  Inv0 c lm lbl a g gid bnd -> gid i <> 0 -> sp_defs a (TObj i) <> None -> (forall j, labOf a d = Some j -> gid j = 0) ->
  assoc Z.eqb (gid i) (lm_def lm) = Some (off, rc) ->
  Inv0 c (ptrsInsert d (set_cdef lm ((gid i, (off, rc + 1)) :: erase Z.eqb (gid i) (lm_def lm))))
       (fun k => if Nat.eqb k d then mkLab true true (gid i) else lbl k)
       (set_lab a ((d, i) :: erase Nat.eqb d (sp_lab a))) g gid bnd.
Proof.
  intros [] Hg Hdef Hd Ha. set (lm' := set_cdef lm _). destruct (ptrsInsert_frame d lm') as (F1 & F2 & F3 & F4 & F5).
  constructor; auto.
  - destruct iv_pend. constructor; rewrite ?F1, ?F2, ?F5; auto.
  - destruct iv_name. constructor; rewrite ?F1, ?F2; auto.
  - now apply ObjI_copy.
Qed.

Lemma isDef_found lm lbl a gid i : ObjI lm lbl a gid -> isDef a i = true ->
  gid i <> 0 /\ sp_defs a (TObj i) <> None /\ exists off rc, assoc Z.eqb (gid i) (lm_def lm) = Some (off, rc).
Proof.
  intros [] H. unfold isDef in H. destruct (sp_defs a (TObj i)) as [o|] eqn:E; [|discriminate].
  assert (gid i <> 0) as Hg by (intros Hz; apply oi_undef in Hz; congruence). split; auto. split; [discriminate|].
  specialize (oi_def i Hg). rewrite E in oi_def. destruct (assoc Z.eqb (gid i) (lm_def lm)) as [[off rc]|]; [|discriminate]. eauto.
Qed.

Lemma wp_copyLabel d s0 s a : Inv s a -> labOf a d = None -> alive a s0 ->
  wp (copyLabel d s0) s
    (fun s' _ => forall i, labOf a s0 = Some i -> isDef a i = true -> Inv s' (set_lab a ((d, i) :: sp_lab a)))
    (fun _ _ => False).
Proof.
  intros (Hok & g & gid & bnd & HI) Hd Hs0. unfold alive in Hs0. destruct (labOf a s0) as [i|] eqn:Hi; [|congruence].
  pose proof HI as HI0. destruct HI0.
  pose proof (oi_lab _ _ _ _ iv_obj d) as Ld. rewrite Hd in Ld.
  pose proof (oi_lab _ _ _ _ iv_obj s0) as Ls. rewrite Hi in Ls. destruct Ls as (Sa & Sid & Sm).
  unfold copyLabel. apply wp_bind, wp_get. rewrite Ld. apply wp_bind, wp_labelOf; [exact Sa|]. apply wp_bind, wp_put.
  rewrite Sm, Sid. destruct (isDef a i) eqn:Hdf.
  - destruct (isDef_found _ _ _ _ _ iv_obj Hdf) as (Hg & Hne & off & rc & Ha).
    unfold incRefCount, with_lm. apply wp_put. cbn [g_lm set_label set_labels]. rewrite Ha.
    intros i' E _. inversion E; subst i'. split; [exact Hok|]. exists g, gid, bnd.
    rewrite <- (erase_id Nat.eqb d (sp_lab a)) at 1 by exact Hd.
    eapply (Inv0_copy _ _ _ _ _ _ _ d) in HI; eauto; [exact HI|]. intros j Hj; congruence.
  - apply wp_ret. intros i' E H. inversion E; subst i'. congruence.
Qed.

Lemma wp_copyAssign d s0 s a : Inv s a -> alive a d -> alive a s0 ->
  wp (copyAssign d s0) s
    (fun s' _ => forall i, labOf a s0 = Some i -> isDef a i = true -> Inv s' (set_lab a ((d, i) :: erase Nat.eqb d (sp_lab a))))
    (fun s' _ => Inv s' a).
Proof.
  intros HInv Hd Hs0. pose proof HInv as (Hok & g & gid & bnd & HI). unfold alive in *. assert (Hn : g_noexc s = false) by apply Hok.
  destruct (labOf a s0) as [i|] eqn:Hi; [|congruence]. destruct (labOf a d) as [j|] eqn:Hj; [|congruence].
  pose proof HI as HI0. destruct HI0.
  pose proof (oi_lab _ _ _ _ iv_obj d) as Ld. rewrite Hj in Ld. destruct Ld as (Da & Did & Dm).
  pose proof (oi_lab _ _ _ _ iv_obj s0) as Ls. rewrite Hi in Ls. destruct Ls as (Sa & Sid & Sm).
  unfold copyAssign. apply wp_fnS, wp_bind, wp_labelOf; [exact Da|]. rewrite Did.
  destruct (gid j =? 0) eqn:Hz; cbn [negb]; [|apply wp_throw; auto].
  apply wp_bind, wp_labelOf; [exact Sa|]. apply wp_bind, wp_put.
  rewrite Sm, Sid. destruct (isDef a i) eqn:Hdf.
  - destruct (isDef_found _ _ _ _ _ iv_obj Hdf) as (Hg & Hne & off & rc & Ha).
    unfold incRefCount, with_lm. apply wp_put. cbn [g_lm set_label set_labels]. rewrite Ha.
    intros i' E _. inversion E; subst i'. split; [exact Hok|]. exists g, gid, bnd.
    eapply (Inv0_copy _ _ _ _ _ _ _ d) in HI; eauto; [exact HI|]. intros j' Hj'. assert (j' = j) by congruence. subst. lia.
  - apply wp_ret. intros i' E H. inversion E; subst i'. congruence.
Qed.

(* ---- destruction ---- *)
Definition destroyed (a : Spec) (h : LabelH) (i : ident) : Spec :=
  let l := erase Nat.eqb h (sp_lab a) in
  match countId i l with
  | O => set_defs (set_lab a l) (updT (sp_defs a) (TObj i) None)
  | S _ => set_lab a l
  end.

Lemma ObjI_destroy lm lbl a gid h i lm' :
  ObjI lm lbl a gid -> labOf a h = Some i ->
  lm_nextId lm' = lm_nextId lm ->
  (isDef a i = false -> lm' = lm) ->
  (isDef a i = true -> (forall off rc, assoc Z.eqb (gid i) (lm_def lm) = Some (off, rc) ->
      lm_def lm' = if rc =? 1 then erase Z.eqb (gid i) (lm_def lm) else (gid i, (off, rc - 1)) :: erase Z.eqb (gid i) (lm_def lm)) /\
      lm_ptrs lm' = filter (fun k => negb (Nat.eqb h k)) (lm_ptrs lm)) ->
  ObjI lm' (fun k => if Nat.eqb k h then mkLab false false 0 else lbl k) (destroyed a h i) gid.
Proof.
  intros HO Hh En Hu Hd. pose proof HO as HO'. destruct HO'. set (a' := destroyed a h i).
  set (l := erase Nat.eqb h (sp_lab a)).
  assert (sp_lab a' = l /\ sp_nlab a' = sp_nlab a /\ sp_epoch a' = sp_epoch a /\ sp_touched a' = sp_touched a) as (El & El1 & El2 & El3).
  { unfold a', destroyed. fold l. destruct (countId i l); cbn; auto. }
  assert (forall j, old a' j <-> old a j) as Eold by (intros []; cbn [old]; rewrite ?El1, ?El2; tauto).
  assert (forall h', labOf a' h' = if Nat.eqb h' h then None else labOf a h') as E9.
  { intros h'. unfold labOf. rewrite El. apply assoc_erase_if. }
  assert (countId i (sp_lab a) = S (countId i l)) as Hci by (apply countId_erase_same; auto).
  assert (forall j, j <> i -> countId j l = countId j (sp_lab a)) as Hcj
    by (intros j Hj; apply countId_erase; auto; fold (labOf a h); congruence).
  assert (forall j, j <> i -> sp_defs a' (TObj j) = sp_defs a (TObj j)) as Hoth.
  { intros j Hj. unfold a', destroyed. fold l. destruct (countId i l); auto. cbn [set_defs sp_defs]. apply updT_other. congruence. }
  assert (sp_defs a' (TObj i) = if (countId i l =? 0)%nat then None else sp_defs a (TObj i)) as Hsi.
  { unfold a', destroyed. fold l. destruct (countId i l); auto. apply updT_same. }
  assert (forall j, j <> i -> isDef a' j = isDef a j) as Hod by (intros; apply isDef_ext; auto).
  assert (forall h', labOf a' h' = Some i -> isDef a' i = isDef a i) as Hodi.
  { intros h' H. apply isDef_ext. rewrite Hsi. destruct (countId i l) eqn:E; auto. exfalso.
    apply labOf_In in H. rewrite El in H. eapply countId_zero; eauto. }
  assert (forall h' j, labOf a' h' = Some j -> isDef a' j = isDef a j) as Hoda.
  { intros h' j H. destruct (ident_dec j i) as [->|Hj]; eauto. }
  assert (labs : forall h', match labOf a' h' with
                     | Some j => l_alive (if Nat.eqb h' h then mkLab false false 0 else lbl h') = true /\
                         l_id (if Nat.eqb h' h then mkLab false false 0 else lbl h') = gid j /\
                         l_mgr (if Nat.eqb h' h then mkLab false false 0 else lbl h') = isDef a' j
                     | None => l_alive (if Nat.eqb h' h then mkLab false false 0 else lbl h') = false end).
  { intros h'. pose proof (Hoda h') as Hh'. rewrite E9 in *. specialize (oi_lab h'). destruct (Nat.eqb h' h); [reflexivity|].
    destruct (labOf a h') as [j|]; auto. now rewrite (Hh' j eq_refl). }
  destruct (isDef a i) eqn:Hdf.
  - destruct (isDef_found _ _ _ _ _ HO Hdf) as (Hg & Hne & off & rc & Ha). destruct (Hd eq_refl) as [Hd1 Hd2].
    specialize (Hd1 _ _ Ha). destruct (oi_count _ _ _ Ha Hg) as [Hrc Hrc1].
    assert (forall k, k <> gid i -> assoc Z.eqb k (lm_def lm') = assoc Z.eqb k (lm_def lm)) as Hask.
    { intros k Hk. rewrite Hd1. destruct (rc =? 1); rewrite ?assoc_cons_other by (apply zeqb_ok || auto);
      apply assoc_erase_other; [apply zeqb_ok|auto|apply zeqb_ok|auto]. }
    assert (assoc Z.eqb (gid i) (lm_def lm') = if rc =? 1 then None else Some (off, rc - 1)) as Hasi.
    { rewrite Hd1. destruct (rc =? 1); [apply assoc_erase_same; apply zeqb_ok|apply assoc_cons_same; apply zeqb_ok]. }
    assert ((countId i l =? 0)%nat = (rc =? 1)) as Hcz by lia.
    assert (forall j, j <> i -> gid j <> 0 -> gid j <> gid i) as Hnj by (intros j Hj H E; apply Hj; auto).
    constructor; rewrite ?En, ?El3; auto.
    + intros j Hj. destruct (ident_dec j i) as [->|Hji].
      * rewrite Hasi, Hsi, Hcz. destruct (rc =? 1); auto. cbn [option_map fst]. rewrite <- oi_def, Ha; auto.
      * rewrite Hask, Hoth; auto.
    + intros j Hj. rewrite Hoth by congruence. auto.
    + rewrite Hask; auto.
    + intros k Hk. rewrite Hask; auto. specialize (oi_rng i). lia.
    + intros j Hj. apply Eold. auto.
    + intros h' j H. rewrite Eold. rewrite E9 in H. destruct (Nat.eqb h' h); [discriminate|]. eauto.
    + rewrite El. now apply erase_nodup.
    + intros j Hj. rewrite El. destruct (ident_dec j i) as [->|Hji].
      * unfold isDef in Hj, Hdf. rewrite Hsi in Hj. destruct (countId i l); [lia|]. cbn [Nat.eqb] in Hj. destruct (sp_defs a (TObj i)); discriminate.
      * rewrite Hcj by assumption. rewrite Hod in Hj by assumption. auto.
    + intros j o' rc' Hja Hgj. rewrite El. destruct (ident_dec j i) as [->|Hji].
      * rewrite Hasi in Hja. destruct (rc =? 1) eqn:E1; [discriminate|]. inversion Hja; subst o' rc'. lia.
      * rewrite Hask in Hja by auto. rewrite Hcj by assumption. eauto.
    + intros h'. rewrite Hd2, filter_In, oi_ptrs. split.
      * intros [(j & H1 & H2) H3]. exists j. assert (labOf a' h' = Some j) as H4.
        { rewrite E9. rewrite Nat.eqb_sym. destruct (Nat.eqb h h'); [discriminate|auto]. }
        split; auto. rewrite (Hoda _ _ H4). auto.
      * intros (j & H1 & H2). rewrite (Hoda _ _ H1) in H2. rewrite E9 in H1. rewrite Nat.eqb_sym in H1. destruct (Nat.eqb h h'); [discriminate|].
        split; auto. exists j. auto.
    + rewrite Hd2. now apply NoDup_filter.
  - rewrite (Hu eq_refl) in *. clear lm' Hu En Hd.
    assert (sp_defs a (TObj i) = None) as Hin by (unfold isDef in Hdf; destruct (sp_defs a (TObj i)); [discriminate|auto]).
    assert (forall j, sp_defs a' (TObj j) = sp_defs a (TObj j)) as Hall.
    { intros j. destruct (ident_dec j i) as [->|Hj]; auto. rewrite Hsi, Hin. now destruct (_ =? _)%nat. }
    assert (forall j, isDef a' j = isDef a j) as Hdall by (intros; apply isDef_ext; auto).
    constructor; rewrite ?El3; auto.
    + intros j Hj. rewrite Hall. auto.
    + intros j Hj. rewrite Hall. auto.
    + intros j Hj. apply Eold. auto.
    + intros h' j H. rewrite Eold. rewrite E9 in H. destruct (Nat.eqb h' h); [discriminate|]. eauto.
    + rewrite El. now apply erase_nodup.
    + intros j Hj. rewrite El. rewrite Hdall in Hj. specialize (oi_one j Hj). destruct (ident_dec j i) as [->|Hji]; [lia|]. rewrite Hcj; auto.
    + intros j o' rc' Hja Hgj. rewrite El. rewrite Hcj; eauto. intros ->. specialize (oi_def i Hgj). rewrite Hja, Hin in oi_def. discriminate.
    + intros h'. rewrite oi_ptrs. split; intros (j & H1 & H2); exists j; rewrite Hdall, E9 in *.
      * split; auto. destruct (Nat.eqb h' h) eqn:E; auto. apply Nat.eqb_eq in E. congruence.
      * split; auto. destruct (Nat.eqb h' h); [discriminate|auto].
Qed.

Lemma wp_destroy h s a : Inv s a -> alive a h ->
  wp (destroyLabel h) s (fun s' _ => forall i, labOf a h = Some i -> Inv s' (destroyed a h i)) (fun _ _ => False).
Proof.
  intros (Hok & g & gid & bnd & HI) Hal. unfold alive in Hal. destruct (labOf a h) as [i|] eqn:Hh; [|congruence].
  pose proof HI as HI0. destruct HI0.
  pose proof (oi_lab _ _ _ _ iv_obj h) as Ld. rewrite Hh in Ld. destruct Ld as (Da & Did & Dm).
  assert (forall lm', lm_front lm' = lm_front (g_lm s) -> lm_stack lm' = lm_stack (g_lm s) -> lm_undef lm' = lm_undef (g_lm s) ->
     ObjI lm' (fun k => if Nat.eqb k h then mkLab false false 0 else g_labels s k) (destroyed a h i) gid ->
     forall i', Some i = Some i' -> Inv (set_label (set_lm s lm') h (mkLab false false 0)) (destroyed a h i')) as K.
  { intros lm' F1 F2 F5 HO i' E. inversion E; subst i'. split; [exact Hok|]. exists g, gid, bnd.
    cbn [g_code g_lm g_labels set_label set_labels set_lm].
    assert (forall t, (forall j, t <> TObj j) -> sp_defs (destroyed a h i) t = sp_defs a t) as Hd.
    { intros t Ht. unfold destroyed. destruct (countId _ _); auto. cbn [set_defs sp_defs]. apply updT_other. auto. }
    assert (forall t o, sp_defs (destroyed a h i) t = Some o -> sp_defs a t = Some o) as Hd2.
    { intros t o. unfold destroyed. destruct (countId _ _); auto. cbn [set_defs sp_defs]. unfold updT. destruct (TId_eqb _ _); [discriminate|auto]. }
    assert (sp_refs (destroyed a h i) = sp_refs a /\ sp_ready (destroyed a h i) = sp_ready a /\ sp_scopes (destroyed a h i) = sp_scopes a /\
      sp_anon (destroyed a h i) = sp_anon a /\ sp_nscope (destroyed a h i) = sp_nscope a) as (S1 & S2 & S3 & S4 & S5).
    { unfold destroyed. destruct (countId _ _); cbn; auto. }
    constructor; rewrite ?S1, ?S2; auto.
    - destruct iv_pend. constructor; rewrite ?F1, ?F2, ?F5, ?S3; auto.
    - destruct iv_name. constructor; rewrite ?F1, ?F2, ?S3, ?S4, ?S5, ?Hd by discriminate; auto.
      + intros s0 H1 H2. rewrite Hd by discriminate. auto.
      + intros m. rewrite Hd by discriminate. auto.
      + eapply Forall2_impl; [|exact ni_scopes]. intros j ss H s0 H0. rewrite Hd by discriminate. auto.
      + intros j s0 Hj. rewrite Hd by discriminate. auto.
    - unfold TidI in *. eapply Forall_impl; [|exact iv_tid]. intros x Hx t Ht. destruct (Hx t Ht) as [H1 H2]. split; auto.
      intros Hp. destruct (H2 Hp) as [H3 H4]. split.
      + destruct (sp_defs (destroyed a h i) t) eqn:E'; auto. apply Hd2 in E'. congruence.
      + destruct t; cbn [tid_wf] in *; rewrite ?S3, ?S4; auto.
    - intros t o Ho. apply Hd2 in Ho. eauto. }
  unfold destroyLabel. apply wp_bind, wp_labelOf; [exact Da|]. apply wp_bind. rewrite Did, Dm.
  destruct (isDef a i) eqn:Hdf.
  - destruct (isDef_found _ _ _ _ _ iv_obj Hdf) as (Hg & Hne & off & rc & Ha).
    replace (negb (gid i =? 0) && true) with true by lia. unfold decRefCount, with_lm. apply wp_put, wp_put.
    change (lm_def (ptrsErase h (g_lm s))) with (lm_def (g_lm s)). rewrite Ha.
    set (lm' := if rc =? 1 then _ else _). apply K.
    + unfold lm'. now destruct (rc =? 1).
    + unfold lm'. now destruct (rc =? 1).
    + unfold lm'. now destruct (rc =? 1).
    + apply (ObjI_destroy (g_lm s)); auto.
      * unfold lm'. now destruct (rc =? 1).
      * congruence.
      * intros _. split.
        -- intros off' rc' E'. rewrite Ha in E'. inversion E'; subst. unfold lm'. now destruct (rc' =? 1).
        -- unfold lm'. now destruct (rc =? 1).
  - rewrite andb_false_r. apply wp_ret, wp_put. specialize (K (g_lm s)).
    replace (set_lm s (g_lm s)) with s in K by (destruct s; reflexivity). apply K; auto.
    apply (ObjI_destroy (g_lm s)); auto. congruence.
Qed.

(* ---- reset ---- *)
Lemma wp_clearAll l : forall s (Q : St -> unit -> Prop) (X : St -> xerr -> Prop),
  (forall h, In h l -> l_alive (g_labels s h) = true) ->
  (forall lbl, (forall h, lbl h = if existsb (Nat.eqb h) l then mkLab true false 0 else g_labels s h) -> Q (set_labels s lbl) tt) ->
  wp (clearAll l) s Q X.
Proof.
  induction l as [|h l IH]; cbn [clearAll existsb]; intros s Q X Hl HQ.
  - apply wp_ret. specialize (HQ (g_labels s) (fun _ => eq_refl)). replace (set_labels s (g_labels s)) with s in HQ by (destruct s; reflexivity). exact HQ.
  - apply wp_bind, wp_labelOf; [apply Hl; now left|]. apply wp_bind, wp_put. apply IH.
    + intros k Hk. cbn [set_label set_labels g_labels]. destruct (Nat.eqb k h); auto. apply Hl. now right.
    + intros lbl Hlbl. cbn [set_label set_labels g_labels] in Hlbl. apply HQ. intros k. rewrite Hlbl.
      destruct (Nat.eqb k h); cbn [orb]; destruct (existsb (Nat.eqb k) l); reflexivity.
Qed.

Definition resetSpec (a : Spec) : Spec :=
  mkSpec (fun _ => None) [] 0 [0%nat] 1 (map (fun p => (fst p, AfterReset (sp_epoch a) (fst p))) (sp_lab a))
         (sp_nlab a) (S (sp_epoch a)) [] false.
Lemma assoc_map_reset h e (l : list (LabelH * ident)) :
  assoc Nat.eqb h (map (fun p => (fst p, AfterReset e (fst p))) l) =
  match assoc Nat.eqb h l with Some _ => Some (AfterReset e h) | None => None end.
Proof.
  induction l as [|[h' i] l IH]; cbn [map assoc fst]; auto. destruct (Nat.eqb h h') eqn:E; auto.
  apply Nat.eqb_eq in E. now subst.
Qed.
Lemma count_reset i e (l : list (LabelH * ident)) : NoDup (map fst l) ->
  (countId i (map (fun p => (fst p, AfterReset e (fst p))) l) <= 1)%nat.
Proof.
  induction l as [|[h' j] l IH]; cbn [map fst]; intros H; [cbn; lia|]. inversion H; subst. rewrite countId_cons.
  destruct (ident_eqb i (AfterReset e h')) eqn:E; [|auto]. apply ident_eqb_ok in E. subst i.
  assert (countId (AfterReset e h') (map (fun p => (fst p, AfterReset e (fst p))) l) = 0%nat); [|lia].
  clear -H2. induction l as [|[h j] l IH]; [reflexivity|]. cbn [map fst]. rewrite countId_cons, IH.
  - cbn [ident_eqb]. destruct (Nat.eqb h' h) eqn:E; [|now rewrite andb_false_r]. apply Nat.eqb_eq in E. subst. exfalso. apply H2. now left.
  - intros Hin. apply H2. now right.
Qed.
Lemma memId_in i l : memId i l = true <-> In i l.
Proof.
  unfold memId. rewrite existsb_exists. split.
  - intros (x & H & E). apply ident_eqb_ok in E. now subst.
  - intros H. exists i. split; auto. apply ident_eqb_refl.
Qed.

Lemma wp_reset s a : Inv s a ->
  wp reset s
    (fun s' _ => forallb (fun p => isDef a (snd p) || negb (memId (snd p) (sp_touched a))) (sp_lab a) = true -> Inv s' (resetSpec a))
    (fun _ _ => False).
Proof.
  intros (Hok & g & gid & bnd & HI). destruct HI, iv_obj. destruct Hok as (Hn & W & Hb).
  unfold reset, resetSize, with_code, lmReset, with_lm, resetLabelPtrList.
  apply wp_bind, wp_put, wp_bind, wp_put, wp_bind, wp_put, wp_bind, wp_get, wp_bind.
  cbn [g_lm set_lm set_code set_err lm_ptrs]. apply wp_clearAll.
  - intros h Hh. apply oi_ptrs in Hh as (i & H1 & _). specialize (oi_lab h). rewrite H1 in oi_lab. apply oi_lab.
  - intros lbl Hlbl. apply wp_put. intros Hcov. cbn [g_labels set_lm set_code set_err g_code] in *.
    split.
    { split; [exact Hn|]. split; [|exact Hb]. destruct W. constructor; auto; cbn; lia. }
    exists [], (fun _ => 0), 0. cbn [g_code g_lm g_labels set_labels set_lm set_code set_err].
    set (a' := resetSpec a).
    assert (forall h, labOf a' h = match labOf a h with Some _ => Some (AfterReset (sp_epoch a) h) | None => None end) as E9
      by (intros; apply assoc_map_reset).
    constructor; auto.
    + constructor; auto.
      * cbn. lia.
      * cbn. lia.
      * cbn. unfold isAutoGrowC. cbn. now rewrite andb_false_r.
    + constructor; cbn; auto.
    + constructor; cbn; auto.
      * intros m. split; [congruence|lia].
      * constructor; [intros []|constructor].
      * discriminate.
    + constructor; cbn [set_ptrs lm_nextId lm_def lm_ptrs a' resetSpec sp_touched]; auto; try lia; try (intros; exfalso; auto; fail).
      * intros h i. rewrite E9. destruct (labOf a h); [|discriminate]. intros E; inversion E; subst. cbn. lia.
      * intros h. rewrite E9. specialize (oi_lab h). rewrite Hlbl. destruct (labOf a h) as [i|] eqn:Hh.
        -- destruct (existsb (Nat.eqb h) (lm_ptrs (g_lm s))) eqn:Ex; [cbn; auto|].
           destruct oi_lab as (L1 & L2 & L3).
           assert (isDef a i = false) as Hdf.
           { destruct (isDef a i) eqn:Hdf; auto. assert (In h (lm_ptrs (g_lm s))) as Hin by (apply oi_ptrs; exists i; auto).
             assert (existsb (Nat.eqb h) (lm_ptrs (g_lm s)) = true); [|congruence]. apply existsb_exists. exists h. split; auto. apply Nat.eqb_refl. }
           rewrite L1, L2, L3, Hdf. split; auto. split; [|reflexivity].
           rewrite forallb_forall in Hcov. specialize (Hcov (h, i) (labOf_In _ _ _ Hh)). cbn [snd] in Hcov. rewrite Hdf in Hcov. cbn [orb] in Hcov.
           destruct (Z.eq_dec (gid i) 0) as [|Hz]; auto. apply oi_touched in Hz. apply memId_in in Hz. rewrite Hz in Hcov. discriminate.
        -- destruct (existsb (Nat.eqb h) (lm_ptrs (g_lm s))) eqn:Ex; auto. exfalso. apply existsb_exists in Ex as (k & Hk & E). apply Nat.eqb_eq in E. subst k.
           apply oi_ptrs in Hk as (i & H1 & _). congruence.
      * unfold a', resetSpec. cbn [sp_lab]. rewrite map_map. cbn [fst]. exact oi_nodup.
      * intros i _. apply count_reset; auto.
      * intros h. split; [intros []|]. intros (i & _ & H). discriminate.
      * constructor.
    + constructor.
    + intros t o H. discriminate.
Qed.
