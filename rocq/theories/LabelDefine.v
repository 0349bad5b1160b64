(* Defining a label resolves exactly the pending references to it. *)
From Coq Require Import ZArith List Bool String Arith Lia ZifyBool Permutation.
From Verif Require Import Base Types Emit EmitFacts Encode State Code Label Gen Wp CodeFacts SpecLabel LabelFacts LabelInv LabelEmit.
Import ListNotations.
Open Scope Z_scope.

Definition resolveg (t : TId) (o : Z) (auto : bool) (x : gref) : gref :=
  match x with
  | (r, Pend) => if is_tid t r then (resolve1 t o r, if auto then Saved else Writ) else x
  | _ => x
  end.
(* the pending references to t *)
Fixpoint prefs (t : TId) (g : list gref) : list ref :=
  match g with
  | [] => []
  | (r, Pend) :: g' => if is_tid t r then r :: prefs t g' else prefs t g'
  | _ :: g' => prefs t g'
  end.
Lemma prefs_in t g r : In r (prefs t g) <-> In (r, Pend) g /\ is_tid t r = true.
Proof.
  induction g as [|[r' st] g IH]; cbn [prefs In]; [tauto|].
  destruct st.
  - destruct (is_tid t r') eqn:E; cbn [In]; rewrite IH; split.
    + intros [->|H]; tauto.
    + intros [[H|H] H2]; [inversion H; auto|auto].
    + tauto.
    + intros [[H|H] H2]; [inversion H; subst; congruence|auto].
  - rewrite IH. split; [tauto|]. intros [[H|H] H2]; [discriminate|auto].
  - rewrite IH. split; [tauto|]. intros [[H|H] H2]; [discriminate|auto].
Qed.

Lemma resolve_refs c rdy t o auto g : Forall (ref_ok c rdy) g ->
  map fst (map (resolveg t o auto) g) = map (resolve1 t o) (map fst g).
Proof.
  intros H. induction H as [|[r st] g Hx Hg IH]; cbn [map]; auto. rewrite IH. f_equal.
  destruct Hx as (_ & Hx). cbn [fst snd resolveg] in *. destruct st.
  - unfold resolve1. destruct (is_tid t r); cbn [fst]; [reflexivity|]. now rewrite andb_false_r.
  - destruct Hx as (_ & _ & o' & Hv & _). unfold resolve1, unresolved. now rewrite Hv.
  - destruct Hx as (o' & Hv & _). unfold resolve1, unresolved. now rewrite Hv.
Qed.
Lemma resolve1_pend t o r : r_val r = None -> is_tid t r = true ->
  resolve1 t o r = mkRef (r_pos r) (r_size r) (r_tid r) (r_rel r) (r_d r) (Some o).
Proof. intros Hv Ht. unfold resolve1, unresolved. now rewrite Hv, Ht. Qed.
Lemma layout_resolve t o auto g : forall b, layout b g -> layout b (map (resolveg t o auto) g).
Proof.
  induction g as [|[r st] g IH]; cbn [map layout]; intros b H; auto. destruct H as (H1 & H2 & H3).
  specialize (IH _ H3). destruct st; cbn [resolveg layout]; auto.
  destruct (is_tid t r) eqn:E; cbn [layout]; auto.
  unfold resolve1. destruct (unresolved r && is_tid t r); cbn [r_size r_pos]; auto.
Qed.

Section Keyed.
  Context {K : Type} (eqb : K -> K -> bool).
  Hypothesis eqb_ok : forall a b, eqb a b = true <-> a = b.
  Variable key : TId -> option K.
  Variables (t : TId) (o : Z) (auto : bool) (k : K).
  Hypothesis Hkt : key t = Some k.
  Definition kinj (g : list gref) : Prop :=
    forall r t', In (r, Pend) g -> r_tid r = Some t' -> key t' = Some k -> t' = t.

  Lemma pend_resolve_k g : kinj g ->
    pend_of key auto (map (resolveg t o auto) g) = filter (fun p => negb (eqb k (fst p))) (pend_of key auto g).
  Proof.
    induction g as [|[r st] g IH]; intros Hi; auto. unfold pend_of in *. cbn [map flat_map]. rewrite filter_app.
    rewrite IH by (intros r' t' H; apply (Hi r' t'); now right). f_equal. clear IH.
    destruct st; cbn [resolveg pend1]; auto.
    destruct (is_tid t r) eqn:E.
    - apply is_tid_ok in E. rewrite E, Hkt. cbn [filter fst]. rewrite (eqb_refl' eqb eqb_ok). cbn [negb].
      destruct auto; reflexivity.
    - cbn [pend1]. destruct (r_tid r) as [t'|] eqn:Et; auto. destruct (key t') as [k'|] eqn:Ek; auto.
      cbn [filter fst]. destruct (eqb k k') eqn:Ekk; auto. apply eqb_ok in Ekk. subst k'. exfalso.
      assert (t' = t) by (apply (Hi r t'); auto; now left). subst t'.
      assert (is_tid t r = true) by (apply is_tid_ok; auto). congruence.
  Qed.
  Lemma pend_match_k g : kinj g ->
    filter (fun p => eqb k (fst p)) (pend_of key auto g) = map (fun r => (k, jmp_of auto r)) (prefs t g).
  Proof.
    induction g as [|[r st] g IH]; intros Hi; auto. unfold pend_of in *. cbn [flat_map prefs]. rewrite filter_app.
    rewrite IH by (intros r' t' H; apply (Hi r' t'); now right). clear IH.
    destruct st; cbn [pend1 app filter]; auto.
    destruct (is_tid t r) eqn:E.
    - apply is_tid_ok in E. rewrite E, Hkt. cbn [filter fst]. rewrite (eqb_refl' eqb eqb_ok). reflexivity.
    - destruct (r_tid r) as [t'|] eqn:Et; auto. destruct (key t') as [k'|] eqn:Ek; auto.
      cbn [filter fst]. destruct (eqb k k') eqn:Ekk; auto. apply eqb_ok in Ekk. subst k'. exfalso.
      assert (t' = t) by (apply (Hi r t'); auto; now left). subst t'.
      assert (is_tid t r = true) by (apply is_tid_ok; auto). congruence.
  Qed.
  Lemma filter_pairs (f : K * JmpLabel -> bool) b ms : (forall v, f (k, v) = b) ->
    filter f (map (pair k) ms) = if b then map (pair k) ms else [].
  Proof. intros H. induction ms as [|m ms IH]; cbn [map filter]; [now destruct b|]. rewrite H, IH. now destruct b. Qed.
  Lemma split_undef g U ms u : kinj g ->
    Permutation U (pend_of key auto g) -> Permutation U (map (pair k) ms ++ u) -> (forall v, ~ In (k, v) u) ->
    Permutation u (pend_of key auto (map (resolveg t o auto) g)) /\ Permutation ms (map (jmp_of auto) (prefs t g)).
  Proof.
    intros Hi H1 H2 Hu.
    assert (Permutation (pend_of key auto g) (map (pair k) ms ++ u)) as HP by (eapply perm_trans; [apply Permutation_sym|]; eauto).
    assert (filter (fun p : K * JmpLabel => negb (eqb k (fst p))) u = u) as F1.
    { clear -Hu eqb_ok. induction u as [|[k' v] u IH]; auto. cbn [filter fst].
      rewrite (eqb_neq eqb eqb_ok); [cbn [negb]; rewrite IH; auto; intros v' Hv'; apply (Hu v'); now right|].
      intros ->. apply (Hu v). now left. }
    assert (filter (fun p : K * JmpLabel => eqb k (fst p)) u = []) as F2.
    { clear -Hu eqb_ok. induction u as [|[k' v] u IH]; auto. cbn [filter fst].
      rewrite (eqb_neq eqb eqb_ok); [apply IH; intros v' Hv'; apply (Hu v'); now right|].
      intros ->. apply (Hu v). now left. }
    split.
    - rewrite pend_resolve_k by assumption. apply (Permutation_filter' (fun p => negb (eqb k (fst p)))) in HP.
      rewrite filter_app, F1, (filter_pairs _ false) in HP by (intros; cbn; now rewrite (eqb_refl' eqb eqb_ok)).
      cbn [app] in HP. now apply Permutation_sym.
    - apply (Permutation_filter' (fun p => eqb k (fst p))) in HP.
      rewrite filter_app, F2, (filter_pairs _ true), app_nil_r in HP by (intros; cbn; now rewrite (eqb_refl' eqb eqb_ok)).
      rewrite pend_match_k in HP by assumption. apply (Permutation_map snd) in HP. rewrite !map_map in HP. cbn [snd] in HP.
      rewrite map_id in HP. now apply Permutation_sym.
  Qed.
End Keyed.
Lemma pend_resolve_none {K} (key : TId -> option K) t o auto g : key t = None ->
  pend_of key auto (map (resolveg t o auto) g) = pend_of key auto g.
Proof.
  intros Hk. induction g as [|[r st] g IH]; auto. unfold pend_of in *. cbn [map flat_map]. rewrite IH. f_equal.
  destruct st; cbn [resolveg pend1]; auto. destruct (is_tid t r) eqn:E; [|reflexivity].
  apply is_tid_ok in E. rewrite E, Hk. destruct auto; reflexivity.
Qed.

(* ---- the effect on the code ---- *)
Lemma infos_resolve t o g c rdy : Forall (ref_ok c rdy) g ->
  Permutation (infos_of (map (resolveg t o true) g)) (infos_of g ++ map (fun r => info_of (resolve1 t o r)) (prefs t g)).
Proof.
  intros H. induction H as [|[r st] g Hx Hg IH]; cbn [map infos_of prefs]; [constructor|].
  destruct st; cbn [resolveg infos_of app].
  - destruct (is_tid t r) eqn:E; cbn [infos_of map]; [|exact IH].
    eapply perm_trans; [apply perm_skip; exact IH|]. apply Permutation_middle.
  - apply perm_skip. exact IH.
  - exact IH.
Qed.

Lemma prefs_FOP t g b : layout b g -> ForallOrdPairs rdisj (prefs t g).
Proof.
  revert b. induction g as [|[r st] g IH]; cbn [layout prefs]; intros b H; [constructor|].
  destruct H as (Hs & Hb & Hl). specialize (IH _ Hl). destruct st; auto.
  destruct (is_tid t r); auto. constructor; auto. apply Forall_forall. intros r' Hr'.
  apply prefs_in in Hr' as (Hin & _). destruct (layout_in _ _ _ Hl Hin) as (_ & _ & H). cbn [fst] in H. right. lia.
Qed.
Lemma rdisj_jdisj auto l : ForallOrdPairs rdisj l -> ForallOrdPairs jdisj (map (jmp_of auto) l).
Proof.
  induction 1 as [|r l H1 H2 IH]; cbn [map]; constructor; auto.
  apply Forall_forall. intros j Hj. apply in_map_iff in Hj as (r' & <- & Hr').
  rewrite Forall_forall in H1. specialize (H1 _ Hr'). unfold rdisj, jdisj, jmp_of in *. cbn [j_end j_size]. lia.
Qed.
Lemma jdisj_sym a b : jdisj a b -> jdisj b a.
Proof. unfold jdisj. tauto. Qed.

Lemma patch_fits_fitsL auto o r : r_rel r = true -> (r_size r = 1 \/ r_size r = 4) -> patch_fits o (jmp_of auto r) ->
  fits (r_size r) (s64 (o + r_d r - (r_pos r + r_size r))).
Proof.
  intros Hr Hs Hp. unfold patch_fits, jmp_of in Hp. cbn [j_mode j_size j_end j_disp] in Hp. rewrite Hr in Hp.
  destruct (Hp eq_refl) as [H1 H2]. unfold fits.
  set (x := o - (r_pos r + r_size r) + r_d r) in *.
  replace (o + r_d r - (r_pos r + r_size r)) with x by (unfold x; lia).
  assert (IsInInt32 x = true) as Hx.
  { unfold IsInInt32 in *. assert (r_size r <= 4) as Hle by lia. specialize (H1 Hle). unfold w64 in *. now rewrite Z.mod_mod in H1 by lia. }
  destruct Hs as [Hs|Hs]; rewrite Hs in *; cbn [Z.eqb Pos.eqb].
  - apply IsInDisp8_s64; auto.
  - apply IsInInt32_s64; auto.
Qed.

Lemma RefI_define c c' rdy g bnd t o ms :
  RefI c rdy g bnd -> isAutoGrowC c && rdy = false -> patched o c ms c' ->
  Permutation ms (map (jmp_of (isAutoGrowC c)) (prefs t g)) ->
  (isAutoGrowC c = false -> (forall r, In r (prefs t g) -> r_rel r = true) \/ o = c_size c) ->
  RefI c' rdy (map (resolveg t o (isAutoGrowC c)) g) bnd.
Proof.
  intros [] Hnf Hp HP Hlabs.
  assert (forall r, In (r, Pend) g -> is_tid t r = true -> In (jmp_of (isAutoGrowC c) r) ms) as Hin.
  { intros r Hr Ht. apply (Permutation_in _ (Permutation_sym HP)). apply in_map. apply prefs_in. auto. }
  assert (forall r, In (r, Pend) g -> ref_ok c rdy (r, Pend)) as Hok.
  { intros r Hr. rewrite Forall_forall in ri_ok. auto. }
  destruct (isAutoGrowC c) eqn:Ha.
  - destruct (patched_auto _ _ _ _ Ha Hp) as [HF ->]. constructor.
    + now apply layout_resolve.
    + exact ri_bnd.
    + rewrite Forall_forall in *. intros x Hx. apply in_map_iff in Hx as ([r st] & <- & Hx).
      pose proof (ri_ok _ Hx) as Hr. destruct st; cbn [resolveg]; auto.
      destruct (is_tid t r) eqn:E; [|exact Hr].
      destruct Hr as ((S1 & S2 & S3) & Hv & Htid). cbn [fst snd] in *. rewrite resolve1_pend by assumption.
      split; [exact (conj S1 (conj S2 S3))|]. cbn [fst snd]. split; [exact Ha|].
      split; [exact Hnf|]. exists o. split; [reflexivity|]. split.
      * intros _ Hrel. exact (patch_fits_fitsL true o r Hrel (S3 Hrel) (HF _ (Hin _ Hx E))).
      * intros Hn. cbn [r_tid] in Hn. congruence.
    + intros _ Hrdy. cbn [c_setinfos c_infos]. eapply perm_trans; [|apply Permutation_sym; eapply infos_resolve; exact ri_ok].
      apply Permutation_app; [auto|].
      set (f := fun j => mkAI (j_end j - j_size j) (patch_val c o j) (j_size j) (j_mode j)).
      eapply perm_trans; [apply (Permutation_map f); exact HP|]. rewrite map_map.
      assert (map (fun x => f (jmp_of true x)) (prefs t g) = map (fun r => info_of (resolve1 t o r)) (prefs t g)) as ->; [|apply Permutation_refl].
      apply map_ext_in. intros r Hr. apply prefs_in in Hr as (Hr & Et). destruct (Hok _ Hr) as ((S1 & S2 & S3) & Hv & Htid).
      cbn [fst snd] in *. rewrite resolve1_pend by assumption. unfold f, jmp_of, info_of, patch_val.
      cbn [j_end j_size j_mode j_disp r_tid r_pos r_size r_d r_rel]. destruct (r_tid r); [|congruence].
      replace (r_pos r + r_size r - r_size r) with (r_pos r) by lia. unfold valOf. cbn [r_val].
      destruct (r_rel r); reflexivity.
    + rewrite <- Ha in ri_called. exact ri_called.
  - assert (forall j, In j ms -> exists r, j = jmp_of false r /\ In (r, Pend) g /\ is_tid t r = true) as Hms.
    { intros j Hj. apply (Permutation_in _ HP) in Hj. apply in_map_iff in Hj as (r & <- & Hr). apply prefs_in in Hr. exists r. tauto. }
    assert (forall j, In j ms -> 0 <= j_size j) as Hpos.
    { intros j Hj. destruct (Hms j Hj) as (r & -> & Hr & _). destruct (layout_in _ _ _ ri_layout Hr) as (H & _). cbn [fst] in H. cbn [jmp_of j_size]. lia. }
    assert (ForallOrdPairs jdisj ms) as HD.
    { eapply FOP_perm; [apply jdisj_sym|apply Permutation_sym; exact HP|]. apply rdisj_jdisj. eapply prefs_FOP; eauto. }
    destruct (patched_fixed _ _ _ _ Ha Hp Hpos HD) as (HF & m & -> & Hm & Hfr).
    constructor.
    + now apply layout_resolve.
    + exact ri_bnd.
    + rewrite Forall_forall in *. intros x Hx. apply in_map_iff in Hx as ([r st] & <- & Hx).
      pose proof (ri_ok _ Hx) as Hr. destruct (layout_in _ _ _ ri_layout Hx) as (Lz & L0 & Lb). cbn [fst] in *.
      destruct st; cbn [resolveg].
      * destruct (is_tid t r) eqn:E; [|exact Hr].
        destruct Hr as ((S1 & S2 & S3) & Hv & Htid). cbn [fst snd] in *. rewrite resolve1_pend by assumption.
        split; [exact (conj S1 (conj S2 S3))|]. cbn [fst snd]. exists o. split; [reflexivity|]. split.
        -- intros _ Hrel. exact (patch_fits_fitsL false o r Hrel (S3 Hrel) (HF _ (Hin _ Hx E))).
        -- split; [|split; intros Hx1; change (isAutoGrowC c = true) in Hx1; congruence].
           specialize (Hm _ (Hin _ Hx E)). unfold field, want. cbn [r_tid r_pos r_size r_rel r_d c_setmem c_mem c_top].
           destruct (r_tid r) as [t'|] eqn:Et; [|congruence].
           unfold jmp_of, patch_val in Hm. cbn [j_end j_size j_mode j_disp] in Hm.
           replace (r_pos r + r_size r - r_size r) with (r_pos r) in Hm by lia.
           destruct (r_rel r) eqn:Er.
           ++ rewrite le_bytes_w64 in Hm by lia. replace (o + r_d r - (r_pos r + r_size r)) with (o - (r_pos r + r_size r) + r_d r) by lia. exact Hm.
           ++ rewrite le_bytes_w64 in Hm by lia. destruct (Hlabs eq_refl) as [Hl| ->]; [|exact Hm].
              exfalso. assert (r_rel r = true) by (apply Hl, prefs_in; auto). congruence.
      * exfalso. destruct Hr as (_ & Hr & _). congruence.
      * destruct Hr as (Sh & o' & Hv & Hfit & Hfield & Hau & Hab). cbn [fst snd] in *. split; [exact Sh|]. exists o'.
        do 2 (split; [assumption|]). split; [|split; [exact Hau|exact Hab]]. unfold field in *. cbn [c_setmem c_mem c_top].
        eapply mem_has_ext; [|exact Hfield]. rewrite le_bytes_length. intros k Hk. apply Hfr.
        intros j Hj. destruct (Hms j Hj) as (r' & -> & Hr' & _). unfold jmp_of; cbn [j_end j_size].
        assert (rdisj r r') as D.
        { pose proof (layout_disj _ _ ri_layout) as HD0.
          assert (r <> r') as Hne.
          { intros ->. destruct (Hok _ Hr') as (_ & Hv' & _). cbn [fst snd] in Hv'. congruence. }
          apply (in_map fst) in Hx, Hr'. cbn [fst] in *.
          destruct (ForallOrdPairs_In HD0 _ _ Hx Hr') as [Heq|[H|H]]; [contradiction|exact H|].
          unfold rdisj in *. tauto. }
        cbn [fst] in Hk. unfold rdisj in D. lia.
    + intros Hx1. change (isAutoGrowC c = true) in Hx1. congruence.
    + rewrite <- Ha in ri_called. exact ri_called.
Qed.

(* ---- define_inner ---- *)
Section DefineInner.
  Context {K : Type} (eqb : K -> K -> bool).
  Hypothesis eqb_ok : forall a b, eqb a b = true <-> a = b.
  Variables (getU : LabelMgr -> list (K * JmpLabel)) (setU : LabelMgr -> list (K * JmpLabel) -> LabelMgr).
  Hypothesis getsetU : forall lm u, getU (setU lm u) = u.
  Hypothesis setsetU : forall lm u u', setU (setU lm u) u' = setU lm u'.
  Variable okL : LabelMgr -> Prop.
  Hypothesis okL_set : forall lm u, okL lm -> okL (setU lm u).
  Hypothesis setgetU : forall lm, okL lm -> setU lm (getU lm) = lm.

  Lemma wp_define_inner insert k o s :
    ok_st s -> (forall lm', insert (g_lm s) = Some lm' -> okL lm') -> (forall j, In (k, j) (getU (g_lm s)) -> jmp_ok (g_code s) j) ->
    (forall lm', insert (g_lm s) = Some lm' -> getU lm' = getU (g_lm s)) ->
    wp (define_inner eqb getU setU insert k o) s
      (fun s' _ => exists lm1 ms u c', insert (g_lm s) = Some lm1 /\
                     Permutation (getU (g_lm s)) (map (pair k) ms ++ u) /\
                     (forall v, ~ In (k, v) u) /\ patched o (g_code s) ms c' /\
                     s' = set_lm (set_code s c') (setU lm1 u))
      (fun s' e => g_noexc s' = false /\
         (e = ERR_LABEL_IS_REDEFINED /\ insert (g_lm s) = None /\ s' = s \/
          e = ERR_OFFSET_IS_TOO_BIG \/ e = ERR_LABEL_IS_TOO_FAR)).
  Proof.
    intros Hok HokL Hj Hins. unfold define_inner. apply wp_fnS, wp_bind, wp_get.
    destruct (insert (g_lm s)) as [lm1|] eqn:Hi.
    - apply wp_bind. unfold with_lm. apply wp_put. specialize (Hins lm1 eq_refl).
      eapply wp_mono; [apply (wp_defLoop eqb eqb_ok getU setU getsetU setsetU okL okL_set setgetU)| |].
      + cbn [g_lm set_lm]. auto.
      + cbn [g_lm set_lm]. rewrite Hins. lia.
      + exact Hok.
      + cbn [g_lm set_lm g_code]. rewrite Hins. exact Hj.
      + cbn [g_lm set_lm g_code]. rewrite Hins. intros s' _ (ms & u & c' & H1 & H2 & H3 & ->).
        exists lm1, ms, u, c'. auto.
      + cbn [g_lm set_lm g_code]. intros s' e (He & ms & u & c' & _ & Hp & ->).
        assert (g_noexc s = false) as Hn by apply Hok.
        split; [exact Hn|]. split; [exact Hn|]. tauto.
    - apply wp_throw. assert (g_noexc s = false) as Hn by apply Hok. split; [exact Hn|]. split; [exact Hn|]. auto.
  Qed.
End DefineInner.


Lemma Inv_jmp_ok c rdy g bnd auto r : RefI c rdy g bnd -> In (r, Pend) g -> jmp_ok c (jmp_of auto r).
Proof.
  intros [] Hr. destruct (layout_in _ _ _ ri_layout Hr) as (H1 & H2 & H3). cbn [fst] in *.
  unfold jmp_ok, jmp_of. cbn [j_end j_size]. repeat split; auto; lia.
Qed.
Lemma pend_of_in {K} (key : TId -> option K) auto g k j : In (k, j) (pend_of key auto g) ->
  exists r t, In (r, Pend) g /\ r_tid r = Some t /\ key t = Some k /\ j = jmp_of auto r.
Proof.
  unfold pend_of. rewrite in_flat_map. intros ([r st] & Hin & H). destruct st; cbn [pend1] in H; try contradiction.
  destruct (r_tid r) as [t|] eqn:Et; [|contradiction]. destruct (key t) as [k'|] eqn:Ek; [|contradiction].
  destruct H as [H|[]]. inversion H; subst. exists r, t. auto.
Qed.

(* what is left to show after the code and the pending lists have been dealt with *)
Lemma TidI_define a gid g t o auto a' :
  TidI a gid g -> (forall t', t' <> t -> sp_defs a' t' = sp_defs a t') -> sp_scopes a' = sp_scopes a ->
  (sp_anon a' = sp_anon a \/ t = TAnon (S (sp_anon a))) ->
  TidI a' gid (map (resolveg t o auto) g).
Proof.
  intros HT Hd Hsc Han. unfold TidI in *. rewrite Forall_forall in *. intros x Hx.
  apply in_map_iff in Hx as ([r st] & <- & Hx). specialize (HT _ Hx). cbn [fst snd] in HT.
  destruct st; cbn [resolveg].
  - destruct (is_tid t r) eqn:E; cbn [fst snd].
    + intros t' Ht'. assert (r_tid r = Some t') as Hr.
      { unfold resolve1 in Ht'. destruct (unresolved r && is_tid t r); exact Ht'. }
      split; [apply (HT _ Hr)|]. destruct auto; discriminate.
    + intros t' Ht'. destruct (HT t' Ht') as (H1 & H2). split; [exact H1|]. intros _. destruct (H2 eq_refl) as (H3 & H4).
      assert (t' <> t) as Hne.
      { intros ->. apply is_tid_ok in Ht'. congruence. }
      split; [rewrite Hd; auto|]. destruct t'; cbn [tid_wf] in *; auto; [now rewrite Hsc|].
      destruct Han as [->|Ht]; [exact H4|]. subst. congruence.
  - cbn [fst snd]. intros t' Ht'. split; [apply (HT _ Ht')|discriminate].
  - cbn [fst snd]. intros t' Ht'. split; [apply (HT _ Ht')|discriminate].
Qed.
Lemma DefI_define c c' a t o a' :
  DefI c a -> c_size c' = c_size c -> 0 <= o <= c_size c -> (forall t', sp_defs a' t' = updT (sp_defs a) t (Some o) t') -> DefI c' a'.
Proof.
  intros HD Hs Ho Hu t' o' H. rewrite Hu in H. unfold updT in H. rewrite Hs. destruct (TId_eqb t t').
  - inversion H; subst; lia.
  - apply (HD _ _ H).
Qed.
Lemma patched_same o c ms c' : patched o c ms c' ->
  c_type c' = c_type c /\ c_size c' = c_size c /\ c_top c' = c_top c /\ c_max c' = c_max c /\ c_cap c' = c_cap c
  /\ c_called c' = c_called c.
Proof.
  induction 1 as [c|c j c1 l c' H1 H2 IH]; [auto 10|]. apply patch1_same in H1.
  destruct H1 as (A1 & A2 & A3 & A4 & A5 & A6), IH as (B1 & B2 & B3 & B4 & B5 & B6). repeat split; congruence.
Qed.

Section DefineKeyed.
  Context {K : Type} (eqb : K -> K -> bool).
  Hypothesis eqb_ok : forall a b, eqb a b = true <-> a = b.
  Variables (getU : LabelMgr -> list (K * JmpLabel)) (setU : LabelMgr -> list (K * JmpLabel) -> LabelMgr).
  Hypothesis getsetU : forall lm u, getU (setU lm u) = u.
  Hypothesis setsetU : forall lm u u', setU (setU lm u) u' = setU lm u'.
  Variable okL : LabelMgr -> Prop.
  Hypothesis okL_set : forall lm u, okL lm -> okL (setU lm u).
  Hypothesis setgetU : forall lm, okL lm -> setU lm (getU lm) = lm.
  Variables (key : TId -> option K) (t : TId) (k : K).
  Hypothesis Hkt : key t = Some k.

  Lemma wp_define_keyed insert o s rdy g bnd (Q : St -> unit -> Prop) (X : St -> xerr -> Prop) :
    ok_st s -> RefI (g_code s) rdy g bnd -> isAutoGrowC (g_code s) && rdy = false ->
    (forall lm', insert (g_lm s) = Some lm' -> okL lm' /\ getU lm' = getU (g_lm s)) ->
    Permutation (getU (g_lm s)) (pend_of key (isAutoGrowC (g_code s)) g) -> kinj key t k g ->
    (isAutoGrowC (g_code s) = false -> (forall r, In r (prefs t g) -> r_rel r = true) \/ o = c_size (g_code s)) ->
    (forall lm1 u c', insert (g_lm s) = Some lm1 -> code_wf c' -> 
       isAutoGrowC c' = isAutoGrowC (g_code s) -> c_size c' = c_size (g_code s) -> c_top c' = c_top (g_code s) ->
       RefI c' rdy (map (resolveg t o (isAutoGrowC (g_code s))) g) bnd ->
       Permutation u (pend_of key (isAutoGrowC (g_code s)) (map (resolveg t o (isAutoGrowC (g_code s))) g)) ->
       Q (set_lm (set_code s c') (setU lm1 u)) tt) ->
    (insert (g_lm s) = None -> X s ERR_LABEL_IS_REDEFINED) ->
    (forall s' e, g_noexc s' = false -> e = ERR_OFFSET_IS_TOO_BIG \/ e = ERR_LABEL_IS_TOO_FAR -> X s' e) ->
    wp (define_inner eqb getU setU insert k o) s Q X.
  Proof.
    intros Hok HR Hnf Hins HP Hinj Hlabs HQ HX1 HX2.
    eapply wp_mono; [apply (wp_define_inner eqb eqb_ok getU setU getsetU setsetU okL okL_set setgetU)| |].
    - exact Hok.
    - intros lm' H. apply (Hins lm' H).
    - intros j Hj. apply (Permutation_in _ HP) in Hj. apply pend_of_in in Hj as (r & t' & Hr & _ & _ & ->).
      eapply Inv_jmp_ok; eauto.
    - intros lm' H. apply (Hins lm' H).
    - intros s' [] (lm1 & ms & u & c' & Hi & HP2 & Hu & Hpat & ->).
      destruct (split_undef eqb eqb_ok key t o (isAutoGrowC (g_code s)) k Hkt g _ ms u Hinj HP HP2 Hu) as [HP3 HP4].
      pose proof (patched_same _ _ _ _ Hpat) as Hsame.
      apply HQ; auto.
      + eapply code_wf_same; [apply Hok|exact Hsame].
      + destruct Hsame as (Ht & _). now apply isAutoGrow_of.
      + apply Hsame.
      + apply Hsame.
      + eapply RefI_define; eauto.
    - intros s' e (Hn & [(-> & Hi & ->)|He]); auto.
  Qed.
End DefineKeyed.

Lemma getset_US k lm u : getUS k (setUS k lm u) = u.
Proof. unfold getUS, setUS. destruct (isLocalStr k); reflexivity. Qed.
Lemma setset_US k lm u u' : setUS k (setUS k lm u) u' = setUS k lm u'.
Proof. unfold setUS. destruct (isLocalStr k); reflexivity. Qed.
Definition neStack (lm : LabelMgr) : Prop := lm_stack lm <> [].
Lemma neStack_set k lm u : neStack lm -> neStack (setUS k lm u).
Proof. unfold neStack, setUS. destruct (isLocalStr k); cbn; auto. discriminate. Qed.
Lemma setget_US k lm : neStack lm -> setUS k lm (getUS k lm) = lm.
Proof.
  unfold neStack, setUS, getUS. destruct (isLocalStr k); cbn.
  - destruct lm as [f st n d u p]; cbn. destruct st as [|[sd su] st]; [congruence|reflexivity].
  - destruct lm as [[fd fu] st n d u p]; reflexivity.
Qed.
Lemma insertS_neStack k o lm lm' : neStack lm -> insertS k o lm = Some lm' -> neStack lm' /\ getUS k lm' = getUS k lm.
Proof.
  unfold insertS, neStack, getUS. destruct (assoc _ _ _); [discriminate|]. intros H E. inversion E; subst. clear E.
  destruct (isLocalStr k); cbn; split; auto. discriminate.
Qed.
Lemma NameI_ne lm a : NameI lm a -> neStack lm.
Proof. intros [] E. rewrite E in ni_scopes. destruct (sp_scopes a); [congruence|inversion ni_scopes]. Qed.

(* pending keys identify the label *)
Lemma kinj_front a gid g t k : TidI a gid g -> fkey t = Some k -> tid_wf a t -> kinj fkey t k g.
Proof.
  intros HT Hk Hw r t' Hr Ht' Hk'. unfold TidI in HT. rewrite Forall_forall in HT. specialize (HT _ Hr). cbn [fst snd] in HT.
  destruct (HT _ Ht') as [_ H2]. destruct (H2 eq_refl) as [_ Hw'].
  destruct t, t'; cbn [fkey tid_wf] in *; try congruence.
  - exfalso. destruct Hw as [_ Hw]. assert (s = if Nat.even n then "@b"%string else "@f"%string) as E by congruence.
    unfold special in Hw. destruct (Nat.even n); subst s; discriminate.
  - exfalso. destruct Hw' as [_ Hw']. assert (s = if Nat.even n then "@b"%string else "@f"%string) as E by congruence.
    unfold special in Hw'. destruct (Nat.even n); subst s; discriminate.
Qed.
Lemma kinj_scope j s k g : skey j (TLocal j s) = Some k -> kinj (skey j) (TLocal j s) k g.
Proof.
  intros Hk r t' Hr Ht' Hk'. cbn [skey] in Hk. rewrite Nat.eqb_refl in Hk. inversion Hk; subst.
  destruct t'; cbn [skey] in Hk'; try discriminate. destruct (Nat.eqb j scope) eqn:E; [|discriminate].
  apply Nat.eqb_eq in E. congruence.
Qed.
Lemma kinj_class a gid g i : TidI a gid g -> (forall i j, gid i <> 0 -> gid i = gid j -> i = j) -> kinj (ckey gid) (TObj i) (gid i) g.
Proof.
  intros HT Hinj r t' Hr Ht' Hk'. unfold TidI in HT. rewrite Forall_forall in HT. specialize (HT _ Hr). cbn [fst snd] in HT.
  destruct (HT _ Ht') as [H1 _]. destruct t'; cbn [ckey] in Hk'; try discriminate. inversion Hk'. f_equal.
  apply Hinj; auto.
Qed.
