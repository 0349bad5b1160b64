(* Facts about the association lists and the resolution loop of LabelManager. *)
From Coq Require Import ZArith List Bool String Lia ZifyBool Permutation.
From Verif Require Import Base Types Emit EmitFacts State Code Label Wp CodeFacts.
Import ListNotations.
Open Scope Z_scope.

Section AssocFacts.
  Context {K V : Type} (eqb : K -> K -> bool).
  Hypothesis eqb_ok : forall a b, eqb a b = true <-> a = b.

  Lemma eqb_refl' a : eqb a a = true.
  Proof. now apply eqb_ok. Qed.
  Lemma eqb_neq a b : a <> b -> eqb a b = false.
  Proof. intros H. destruct (eqb a b) eqn:E; auto. apply eqb_ok in E. contradiction. Qed.

  Lemma assoc_In k (v : V) l : assoc eqb k l = Some v -> In (k, v) l.
  Proof.
    induction l as [|[k' v'] l IH]; cbn [assoc]; [discriminate|].
    destruct (eqb k k') eqn:E.
    - apply eqb_ok in E. subst. intros H; inversion H; subst. now left.
    - intros H. right. auto.
  Qed.
  Lemma assoc_None k (l : list (K * V)) : assoc eqb k l = None <-> (forall v, ~ In (k, v) l).
  Proof.
    induction l as [|[k' v'] l IH]; cbn [assoc In].
    - split; auto.
    - destruct (eqb k k') eqn:E.
      + apply eqb_ok in E. subst. split; [discriminate|]. intros H. exfalso. apply (H v'). now left.
      + rewrite IH. split.
        * intros H v [H'|H']; [|now apply (H v)]. inversion H'; subst. now rewrite eqb_refl' in E.
        * intros H v H'. apply (H v). now right.
  Qed.
  Lemma assoc_cons_same k (v : V) l : assoc eqb k ((k, v) :: l) = Some v.
  Proof. cbn [assoc]. now rewrite eqb_refl'. Qed.
  Lemma assoc_cons_other k k' (v : V) l : k <> k' -> assoc eqb k ((k', v) :: l) = assoc eqb k l.
  Proof. intros H. cbn [assoc]. now rewrite eqb_neq. Qed.
  Lemma assoc_erase_same k (l : list (K * V)) : assoc eqb k (erase eqb k l) = None.
  Proof.
    apply assoc_None. intros v H. apply filter_In in H as [_ H]. cbn [fst] in H.
    now rewrite eqb_refl' in H.
  Qed.
  Lemma assoc_erase_other k k' (l : list (K * V)) : k <> k' -> assoc eqb k (erase eqb k' l) = assoc eqb k l.
  Proof.
    intros Hn. induction l as [|[j v] l IH]; cbn [erase filter fst assoc]; auto.
    destruct (eqb k' j) eqn:E; cbn [negb].
    - apply eqb_ok in E. subst j. rewrite (eqb_neq k k') by assumption. exact IH.
    - cbn [assoc]. destruct (eqb k j); auto.
  Qed.

  Lemma takeNth_perm k n (v : V) l r : takeNth eqb k n l = Some (v, r) -> Permutation l ((k, v) :: r).
  Proof.
    revert n r. induction l as [|[k' v'] l IH]; cbn [takeNth]; [discriminate|]. intros n r.
    destruct (eqb k k') eqn:E.
    - apply eqb_ok in E. subst k'. destruct n as [|n].
      + intros H; inversion H; subst. apply Permutation_refl.
      + destruct (takeNth eqb k n l) as [[v0 r0]|] eqn:T; [|discriminate].
        intros H; inversion H; subst. apply IH in T.
        eapply perm_trans; [apply perm_skip; exact T|]. apply perm_swap.
    - destruct (takeNth eqb k n l) as [[v0 r0]|] eqn:T; [|discriminate].
      intros H; inversion H; subst. apply IH in T.
      eapply perm_trans; [apply perm_skip; exact T|]. apply perm_swap.
  Qed.
  Lemma takeNth_None k n (l : list (K * V)) :
    takeNth eqb k n l = None -> (List.length (matches_of eqb k l) <= n)%nat.
  Proof.
    revert n. induction l as [|[k' v'] l IH]; unfold matches_of; cbn [takeNth filter map fst List.length]; intros n; [lia|].
    destruct (eqb k k') eqn:E.
    - destruct n as [|n]; [discriminate|].
      destruct (takeNth eqb k n l) as [[v0 r0]|] eqn:T; [discriminate|]. intros _.
      apply IH in T. unfold matches_of in T. cbn [map List.length]. lia.
    - destruct (takeNth eqb k n l) as [[v0 r0]|] eqn:T; [discriminate|]. intros _. apply IH in T. exact T.
  Qed.
  Lemma findErase_Some pick k (v : V) l r : findErase eqb pick k l = Some (v, r) -> Permutation l ((k, v) :: r).
  Proof. apply takeNth_perm. Qed.
  Lemma findErase_None pick k (l : list (K * V)) : findErase eqb pick k l = None -> forall v, ~ In (k, v) l.
  Proof.
    unfold findErase. intros H v Hin. apply takeNth_None in H.
    assert (In v (matches_of eqb k l)) as Hm.
    { unfold matches_of. change v with (snd (k, v)). apply in_map. apply filter_In. split; auto. apply eqb_refl'. }
    destruct (matches_of eqb k l) as [|m ms] eqn:E; [inversion Hm|].
    pose proof (Nat.mod_upper_bound (pick (m :: ms)) (List.length (m :: ms)) ltac:(discriminate)). lia.
  Qed.
End AssocFacts.

Lemma Permutation_filter' {A} (f : A -> bool) l l' : Permutation l l' -> Permutation (filter f l) (filter f l').
Proof.
  induction 1 as [|x l l' H IH|x y l|l l' l'' H1 IH1 H2 IH2]; cbn [filter].
  - constructor.
  - destruct (f x); auto.
  - destruct (f x), (f y); auto. apply perm_swap.
  - eapply perm_trans; eauto.
Qed.

(* ---- one pending reference is patched ---- *)
Definition jmp_ok (c : Code) (j : JmpLabel) : Prop :=
  (j_size j = 1 \/ j_size j = 4 \/ j_size j = 8) /\ 0 <= j_end j - j_size j /\ j_end j <= c_size c.
Definition patch_val (c : Code) (o : Z) (j : JmpLabel) : Z :=
  match j_mode j with
  | LaddTop => o | Labs => w64 (c_top c + c_size c) | LasIs => w64 (o - j_end j + j_disp j) end.
Definition patch_fits (o : Z) (j : JmpLabel) : Prop :=
  j_mode j = LasIs ->
  (j_size j <= 4 -> IsInInt32 (w64 (o - j_end j + j_disp j)) = true) /\
  (j_size j = 1 -> IsInDisp8 (w32 (w64 (o - j_end j + j_disp j))) = true).
Definition patch1 (o : Z) (c : Code) (j : JmpLabel) (c' : Code) : Prop :=
  patch_fits o j /\
  if isAutoGrowC c
  then c' = c_setinfos c (c_infos c ++ [mkAI (j_end j - j_size j) (patch_val c o j) (j_size j) (j_mode j)])
  else exists m, c' = c_setmem c m /\ mem_has m (j_end j - j_size j) (le_bytes (patch_val c o j) (Z.to_nat (j_size j)))
       /\ (forall k, k < j_end j - j_size j \/ j_end j <= k -> m k = c_mem c k).
Inductive patched (o : Z) : Code -> list JmpLabel -> Code -> Prop :=
| patched_nil c : patched o c [] c
| patched_cons c j c1 l c' : patch1 o c j c1 -> patched o c1 l c' -> patched o c (j :: l) c'.

Lemma wp_patchOne o j s (Q : St -> unit -> Prop) (X : St -> xerr -> Prop) :
  ok_st s -> jmp_ok (g_code s) j ->
  (forall c', patch1 o (g_code s) j c' -> Q (set_code s c') tt) ->
  (forall e, e = ERR_OFFSET_IS_TOO_BIG \/ e = ERR_LABEL_IS_TOO_FAR -> X s e) ->
  wp (patchOne o j) s Q X.
Proof.
  intros (Hn & W & Hb) (Hsz & Hlo & Hhi) HQ HX. destruct W.
  assert (w64 (j_end j - j_size j) = j_end j - j_size j) as Hw.
  { unfold w64. apply Z.mod_small. destruct Hsz as [E|[E|E]]; lia. }
  assert (forall v, patch_val (g_code s) o j = v -> patch_fits o j ->
    wp (if isAutoGrowC (g_code s) then save (w64 (j_end j - j_size j)) v (j_size j) (j_mode j)
        else rewrite (w64 (j_end j - j_size j)) v (j_size j)) s Q X) as K.
  { intros v Hv Hf. rewrite Hw. destruct (isAutoGrowC (g_code s)) eqn:Ha.
    - unfold save, with_code. apply wp_put. apply HQ. split; [exact Hf|]. rewrite Ha, Hv. reflexivity.
    - apply wp_rewrite; [destruct Hsz as [E|[E|E]]; lia|lia|lia|].
      intros m Hm Hk. apply HQ. split; [exact Hf|]. rewrite Ha. exists m. rewrite Hv.
      split; [reflexivity|]. split; [exact Hm|]. intros k Hk'. apply Hk. lia. }
  unfold patchOne. apply wp_bind, wp_get, wp_bind.
  unfold patch_val, patch_fits in *. destruct (j_mode j) eqn:Hm.
  - destruct ((j_size j <=? 4) && negb (IsInInt32 (w64 (o - j_end j + j_disp j)))) eqn:E1;
      [apply wp_throw, HX; now left|].
    destruct ((j_size j =? 1) && negb (IsInDisp8 (w32 (w64 (o - j_end j + j_disp j))))) eqn:E2;
      [apply wp_throw, HX; now right|].
    apply wp_ret. apply K; [reflexivity|]. intros _. split; intros Hs; lia.
  - apply wp_ret. apply K; [reflexivity|]. discriminate.
  - apply wp_ret. apply K; [reflexivity|]. discriminate.
Qed.

Lemma patch1_same o c j c' : patch1 o c j c' ->
  c_type c' = c_type c /\ c_size c' = c_size c /\ c_top c' = c_top c /\ c_max c' = c_max c /\ c_cap c' = c_cap c
  /\ c_called c' = c_called c.
Proof.
  intros [_ H]. destruct (isAutoGrowC c).
  - subst. cbn. auto 10.
  - destruct H as (m & -> & _). cbn. auto 10.
Qed.
Lemma code_wf_same c c' : code_wf c ->
  c_type c' = c_type c /\ c_size c' = c_size c /\ c_top c' = c_top c /\ c_max c' = c_max c /\ c_cap c' = c_cap c
  /\ c_called c' = c_called c -> code_wf c'.
Proof.
  intros [] (H1 & H2 & H3 & H4 & H5 & H6). constructor; rewrite ?H2, ?H4, ?H5; auto.
  unfold isAutoGrowC in *. rewrite H1. auto.
Qed.

Section DefLoop.
  Context {K : Type} (eqb : K -> K -> bool).
  Hypothesis eqb_ok : forall a b, eqb a b = true <-> a = b.
  Variables (getU : LabelMgr -> list (K * JmpLabel)) (setU : LabelMgr -> list (K * JmpLabel) -> LabelMgr).
  Hypothesis getsetU : forall lm u, getU (setU lm u) = u.
  Hypothesis setsetU : forall lm u u', setU (setU lm u) u' = setU lm u'.
  Variable okL : LabelMgr -> Prop.
  Hypothesis okL_set : forall lm u, okL lm -> okL (setU lm u).
  Hypothesis setgetU : forall lm, okL lm -> setU lm (getU lm) = lm.

  Lemma wp_defLoop fuel k o : forall s,
    okL (g_lm s) -> (List.length (getU (g_lm s)) < fuel)%nat -> ok_st s ->
    (forall j, In (k, j) (getU (g_lm s)) -> jmp_ok (g_code s) j) ->
    wp (defLoop eqb getU setU fuel k o) s
      (fun s' _ => exists ms u c', Permutation (getU (g_lm s)) (map (pair k) ms ++ u) /\
                     (forall v, ~ In (k, v) u) /\ patched o (g_code s) ms c' /\
                     s' = set_lm (set_code s c') (setU (g_lm s) u))
      (fun s' e => (e = ERR_OFFSET_IS_TOO_BIG \/ e = ERR_LABEL_IS_TOO_FAR) /\
                   exists ms u c', Permutation (getU (g_lm s)) (map (pair k) ms ++ u) /\ patched o (g_code s) ms c' /\
                     s' = set_lm (set_code s c') (setU (g_lm s) u)).
  Proof.
    induction fuel as [|fuel IH]; intros s HokL Hf Hok Hj; [lia|].
    cbn [defLoop]. apply wp_bind, wp_get.
    destruct (findErase eqb (o_pick (g_or s)) k (getU (g_lm s))) as [[j rest]|] eqn:Hfe.
    - pose proof (findErase_Some eqb eqb_ok _ _ _ _ _ Hfe) as HP.
      apply wp_bind. apply wp_patchOne.
      + exact Hok.
      + apply Hj. apply (Permutation_in _ (Permutation_sym HP)). now left.
      + intros c1 Hp1. apply wp_bind. unfold with_lm. apply wp_put.
        cbn [g_lm set_code].
        pose proof (patch1_same _ _ _ _ Hp1) as Hsame.
        eapply wp_mono; [apply IH| |].
        * cbn [g_lm set_lm]. auto.
        * cbn [g_lm set_lm]. rewrite getsetU. apply Permutation_length in HP. cbn [List.length] in HP. lia.
        * destruct Hok as (A & B & C). split; [exact A|]. split; [|exact C].
          cbn [g_code set_lm set_code]. eapply code_wf_same; eauto.
        * cbn [g_lm set_lm g_code set_code]. rewrite getsetU. intros j' Hj'.
          specialize (Hj j'). destruct Hj as (A & B & C).
          { apply (Permutation_in _ (Permutation_sym HP)). now right. }
          split; [exact A|]. split; [exact B|]. destruct Hsame as (_ & -> & _). exact C.
        * cbn [g_lm set_lm g_code set_code]. rewrite getsetU.
          intros s' _ (ms & u & c' & HP2 & Hu & Hpp & ->).
          exists (j :: ms), u, c'. split; [|split; [exact Hu|split; [econstructor; eauto|]]].
          -- cbn [map app]. eapply perm_trans; [exact HP|]. apply perm_skip. exact HP2.
          -- rewrite setsetU. reflexivity.
        * cbn [g_lm set_lm g_code set_code]. rewrite getsetU.
          intros s' e (He & ms & u & c' & HP2 & Hpp & ->). split; [exact He|].
          exists (j :: ms), u, c'. split; [|split; [econstructor; eauto|]].
          -- cbn [map app]. eapply perm_trans; [exact HP|]. apply perm_skip. exact HP2.
          -- rewrite setsetU. reflexivity.
      + intros e He. split; [exact He|]. exists [], (getU (g_lm s)), (g_code s).
        split; [apply Permutation_refl|]. split; [constructor|].
        rewrite setgetU by assumption. destruct s; reflexivity.
    - apply wp_ret. exists [], (getU (g_lm s)), (g_code s). split; [apply Permutation_refl|].
      split; [apply (findErase_None eqb eqb_ok _ _ _ Hfe)|]. split; [constructor|].
      rewrite setgetU by assumption. destruct s; reflexivity.
  Qed.
End DefLoop.

(* ---- disjoint fields ---- *)
Definition jdisj (a b : JmpLabel) : Prop := j_end a <= j_end b - j_size b \/ j_end b <= j_end a - j_size a.
Lemma FOP_perm {A} (R : A -> A -> Prop) (l l' : list A) :
  (forall a b, R a b -> R b a) -> Permutation l l' -> ForallOrdPairs R l -> ForallOrdPairs R l'.
Proof.
  intros Hs. induction 1 as [|x l l' H IH|x y l|l l' l'' H1 IH1 H2 IH2]; intros HF.
  - exact HF.
  - inversion HF; subst. constructor; auto. eapply Permutation_Forall; eauto.
  - inversion HF as [|? ? F1 F2]; subst. inversion F2 as [|? ? F3 F4]; subst. inversion F1; subst.
    constructor; [constructor; auto|]. constructor; auto.
  - auto.
Qed.

Lemma patched_auto o c ms c' :
  isAutoGrowC c = true -> patched o c ms c' ->
  Forall (patch_fits o) ms /\
  c' = c_setinfos c (c_infos c ++ map (fun j => mkAI (j_end j - j_size j) (patch_val c o j) (j_size j) (j_mode j)) ms).
Proof.
  intros Ha H. induction H as [c|c j c1 l c' [Hf H1] H2 IH].
  - split; [constructor|]. cbn [map]. rewrite app_nil_r. destruct c; reflexivity.
  - rewrite Ha in H1. subst c1. destruct IH as [F IH]; [exact Ha|]. split; [constructor; auto|].
    rewrite IH. cbn [c_setinfos c_infos map]. rewrite <- app_assoc. reflexivity.
Qed.
Lemma patched_fixed o c ms c' :
  isAutoGrowC c = false -> patched o c ms c' -> (forall j, In j ms -> 0 <= j_size j) -> ForallOrdPairs jdisj ms ->
  Forall (patch_fits o) ms /\
  exists m, c' = c_setmem c m /\
    (forall j, In j ms -> mem_has m (j_end j - j_size j) (le_bytes (patch_val c o j) (Z.to_nat (j_size j)))) /\
    (forall k, (forall j, In j ms -> k < j_end j - j_size j \/ j_end j <= k) -> m k = c_mem c k).
Proof.
  intros Ha H. induction H as [c|c j c1 l c' [Hf H1] H2 IH]; intros Hp HD.
  - split; [constructor|]. exists (c_mem c). split; [destruct c; reflexivity|]. split; [intros j []|auto].
  - rewrite Ha in H1. destruct H1 as (m1 & -> & Hm1 & Hfr1).
    inversion HD as [|? ? D1 D2]; subst.
    destruct IH as (F & m & -> & Hm & Hfr); [exact Ha| |exact D2|].
    { intros j' Hj'. apply Hp. now right. }
    split; [constructor; auto|]. exists m. split; [reflexivity|].
    cbn [c_setmem c_mem c_top c_size] in *. split.
    + intros j' [<-|Hj']; [|apply Hm; assumption].
      eapply mem_has_ext; [|exact Hm1]. rewrite le_bytes_length. intros k Hk. apply Hfr.
      intros j2 Hj2. rewrite Forall_forall in D1. specialize (D1 j2 Hj2). unfold jdisj in D1.
      pose proof (Hp j (or_introl eq_refl)). pose proof (Hp j2 (or_intror Hj2)). lia.
    + intros k Hk. rewrite Hfr; [|intros j2 Hj2; apply Hk; now right]. apply Hfr1. apply Hk. now left.
Qed.
