(* Labels are defined once; references agree with the definitions; both persist. *)
From Coq Require Import ZArith List Bool String Arith Lia ZifyBool Permutation.
From Verif Require Import Base Types Emit EmitFacts Encode State Code Label Gen Wp CodeFacts SpecMem SpecLabel LabelFacts LabelInv LabelEmit LabelDefine LabelStep LabelStep2 LabelStep3 LabelReady LabelHist LabelThms.
Import ListNotations.
Open Scope Z_scope.

(* ---- definitions of defined labels fail and change nothing ---- *)
Lemma L_redef_str s a k t o : Inv s a -> k <> "@@"%string -> k <> "@b"%string -> k <> "@f"%string ->
  tid_of a (LStr k) = Some t -> sp_defs a t = Some o -> defineSlabel k s = Thrown s ERR_LABEL_IS_REDEFINED.
Proof.
  intros ((Hn & _) & g & gid & bnd & HI) H1 H2 H3 Ht Hd. destruct HI, iv_name.
  apply String.eqb_neq in H1, H2, H3. cbn [tid_of] in Ht. rewrite H2, H3 in Ht.
  assert (insertS k (c_size (g_code s)) (g_lm s) = None) as Hins.
  { unfold insertS. destruct (isLocalStr k) eqn:El; inversion Ht; subst t; cbn [getSS].
    - destruct (sp_scopes a) as [|j js] eqn:Hsc; [congruence|].
      destruct (lm_stack (g_lm s)) as [|ss sss] eqn:Hst; [inversion ni_scopes|].
      inversion ni_scopes as [|? ? ? ? N1 N2]; subst. cbn [hd] in *. rewrite N1 by assumption. now rewrite Hd.
    - rewrite ni_glob; auto. + now rewrite Hd. + unfold special. now rewrite H2, H3. }
  unfold defineSlabel. rewrite H1, H2, H3. cbn [orb]. unfold fnS at 1, mbind, mret, get.
  unfold define_inner, fnS, mbind, get. rewrite Hins. cbn. repeat (rewrite Hn; cbn). reflexivity.
Qed.
Lemma getIdM_known s a h i : Inv s a -> labOf a h = Some i -> isDef a i = true ->
  exists id, id <> 0 /\ getIdM h s = Done s id /\ l_id (g_labels s h) = id /\ l_alive (g_labels s h) = true /\ l_mgr (g_labels s h) = true /\
     option_map fst (assoc Z.eqb id (lm_def (g_lm s))) = sp_defs a (TObj i).
Proof.
  intros (_ & g & gid & bnd & HI) Hh Hd. destruct HI, iv_obj. specialize (oi_lab h). rewrite Hh in oi_lab.
  destruct oi_lab as (Ha & Hid & Hm).
  assert (gid i <> 0) as Hg. { intros E. apply oi_undef in E. unfold isDef in Hd. now rewrite E in Hd. }
  exists (gid i). split; [exact Hg|]. split; [|rewrite Hd in Hm; auto].
  unfold getIdM, mbind, labelOf. rewrite Ha, Hid. apply Z.eqb_neq in Hg. now rewrite Hg.
Qed.
Lemma L_redef_obj s a h i o : Inv s a -> labOf a h = Some i -> sp_defs a (TObj i) = Some o ->
  defineClabel h s = Thrown s ERR_LABEL_IS_REDEFINED.
Proof.
  intros HI Hh Hd. destruct (getIdM_known s a h i HI Hh) as (id & Hz & Hg & _ & _ & _ & Hk); [unfold isDef; now rewrite Hd|].
  destruct HI as ((Hn & _) & _).
  unfold defineClabel, mbind at 1. rewrite Hg. unfold mbind, get, define_inner, fnS, mbind, get.
  unfold insertC. destruct (assoc Z.eqb id (lm_def (g_lm s))) as [[? ?]|]; [|cbn in Hk; congruence]. cbn. now rewrite Hn.
Qed.
Lemma assign_redef s a d s0 i j o o' : Inv s a -> labOf a d = Some i -> labOf a s0 = Some j ->
  sp_defs a (TObj j) = Some o -> sp_defs a (TObj i) = Some o' -> assign d s0 s = Thrown s ERR_LABEL_IS_REDEFINED.
Proof.
  intros HI Hi Hj Ho Ho'.
  destruct (getIdM_known s a d i HI Hi) as (id & Hz & Hg & Hid & Hal & _ & Hk); [unfold isDef; now rewrite Ho'|].
  destruct (getIdM_known s a s0 j HI Hj) as (id2 & Hz2 & Hg2 & Hid2 & Hal2 & _ & Hk2); [unfold isDef; now rewrite Ho|].
  destruct HI as ((Hn & _) & _).
  unfold assign, fnS, mbind, labelOf, get. rewrite Hal2, Hid2.
  destruct (assoc Z.eqb id2 (lm_def (g_lm s))) as [[? ?]|]; [|cbn in Hk2; congruence]. rewrite Hal, Hid.
  unfold define_inner, fnS, mbind, get, insertC. destruct (assoc Z.eqb id (lm_def (g_lm s))) as [[? ?]|]; [|cbn in Hk; congruence].
  cbn. repeat (rewrite Hn; cbn). reflexivity.
Qed.
Lemma assign_undef s a d s0 j : Inv s a -> labOf a s0 = Some j -> sp_defs a (TObj j) = None ->
  assign d s0 s = Thrown s ERR_LABEL_ISNOT_SET_BY_L.
Proof.
  intros ((Hn & _) & g & gid & bnd & HI) Hj Ho. destruct HI, iv_obj. specialize (oi_lab s0). rewrite Hj in oi_lab.
  destruct oi_lab as (Ha & Hid & Hm). unfold assign, fnS, mbind, labelOf, get. rewrite Ha, Hid.
  destruct (Z.eq_dec (gid j) 0) as [E|E].
  - rewrite E, oi_zero. cbn. now rewrite Hn.
  - specialize (oi_def _ E). rewrite Ho in oi_def. destruct (assoc Z.eqb (gid j) (lm_def (g_lm s))); [discriminate|]. cbn. now rewrite Hn.
Qed.
Lemma anon_undef s a : Inv s a -> sp_defs a (TAnon (S (sp_anon a))) = None.
Proof.
  intros (_ & g & gid & bnd & HI). destruct HI, iv_name. destruct (sp_defs a (TAnon (S (sp_anon a)))) eqn:E; auto. exfalso.
  assert (sp_defs a (TAnon (S (sp_anon a))) <> None) as H by congruence. rewrite ni_anon in H. lia.
Qed.

(* ---- references agree with the definitions ---- *)
Definition gone (a : Spec) (t : TId) : Prop :=
  exists i, t = TObj i /\ (forall h, labOf a h <> Some i) /\ sp_defs a t = None.
Definition SI (a : Spec) : Prop := forall r t, In r (sp_refs a) -> r_tid r = Some t -> r_val r = sp_defs a t \/ gone a t.

Lemma SI_addRef a p n t rel d : SI a -> SI (addRef a p n t rel d).
Proof.
  intros H r t0 Hr Ht. unfold addRef in Hr. cbn [set_refs sp_refs] in Hr. destruct Hr as [<-|Hr].
  - cbn [r_tid r_val] in *. subst t. now left.
  - destruct (H r t0 Hr Ht); auto.
Qed.
Lemma SI_addBranch a p q t d : SI a -> SI (addBranch a p q t d).
Proof. unfold addBranch. destruct (q - p =? 2); apply SI_addRef. Qed.
Lemma SI_touch a l : SI a -> SI (touch a l).
Proof. destruct l as [k|h]; auto. unfold touch. destruct (labOf a h) eqn:E; auto. Qed.
Lemma SI_touch_items its : forall a, SI a -> SI (touch_items a its).
Proof. induction its as [|[b|l rel d|e] its IH]; intros a H; cbn [touch_items]; auto. now apply IH, SI_touch. Qed.
Lemma SI_items its : forall a p q, SI a -> SI (spec_items a its p q).
Proof.
  induction its as [|[b|l rel d|e] its IH]; intros a p q H; cbn [spec_items]; auto.
  - destruct (p + 1 <=? q); auto.
  - destruct (_ <=? q); auto. destruct (tid_of a l); auto. now apply IH, SI_addRef.
Qed.
Lemma SI_define a t o : SI a -> sp_defs a t = None -> (forall i, t = TObj i -> exists h, labOf a h = Some i) -> SI (specDefine a t o).
Proof.
  intros H Hd Hal r t0 Hr Ht. unfold specDefine in *. cbn [set_refs set_defs sp_refs sp_defs] in *.
  apply in_map_iff in Hr as (r0 & <- & Hr0).
  assert (r_tid (resolve1 t o r0) = r_tid r0) as E by (unfold resolve1; now destruct (_ && _)). rewrite E in Ht. clear E.
  unfold resolve1. destruct (is_tid t r0) eqn:Et.
  - apply is_tid_ok in Et. assert (t0 = t) by congruence. subst t0. rewrite updT_same.
    destruct (H r0 t Hr0 Ht) as [Hv|(i & -> & Hg & _)].
    + unfold unresolved. rewrite Hv, Hd. cbn [andb r_val]. now left.
    + destruct (Hal i eq_refl) as (h & Hh). now apply Hg in Hh.
  - rewrite andb_false_r. assert (t <> t0). { intros <-. apply (proj2 (is_tid_ok t r0)) in Ht. congruence. }
    rewrite updT_other by assumption. destruct (H r0 t0 Hr0 Ht) as [Hv|(i & -> & Hg & Hn)]; auto.
    right. exists i. split; auto. split; auto. cbn [set_refs set_defs sp_defs]. now rewrite updT_other.
Qed.
Lemma SI_frame a a' : sp_defs a' = sp_defs a -> sp_refs a' = sp_refs a -> sp_lab a' = sp_lab a -> SI a -> SI a'.
Proof.
  intros E1 E2 E3 H r t Hr Ht. rewrite E2 in Hr. rewrite E1. destruct (H r t Hr Ht) as [|(i & -> & Hg & Hn)]; auto.
  right. exists i. split; auto. unfold labOf in *. rewrite E3, E1. auto.
Qed.
Lemma SI_lab a a' : sp_defs a' = sp_defs a -> sp_refs a' = sp_refs a ->
  (forall r i h, In r (sp_refs a) -> r_tid r = Some (TObj i) -> (forall h, labOf a h <> Some i) -> labOf a' h <> Some i) -> SI a -> SI a'.
Proof.
  intros E1 E2 Hl H r t Hr Ht. rewrite E2 in Hr. rewrite E1. destruct (H r t Hr Ht) as [|(i & -> & Hg & Hn)]; auto.
  right. exists i. split; auto. rewrite E1. split; auto. intros h. eapply Hl; eauto.
Qed.
Lemma ref_old s a r i : Inv s a -> In r (sp_refs a) -> r_tid r = Some (TObj i) -> old a i.
Proof.
  intros (_ & g & gid & bnd & HI) Hr Ht. destruct HI. rewrite <- iv_refs in Hr. apply in_map_iff in Hr as (x & <- & Hx).
  unfold TidI in iv_tid. rewrite Forall_forall in iv_tid. destruct (iv_tid _ Hx _ Ht) as [Hg _]. destruct iv_obj. auto.
Qed.
Lemma assoc_erase_some {V} h h' (l : list (LabelH * V)) v : assoc Nat.eqb h (erase Nat.eqb h' l) = Some v -> assoc Nat.eqb h l = Some v.
Proof.
  destruct (Nat.eq_dec h h') as [->|Hn].
  - rewrite assoc_erase_same; [discriminate|]. intros; apply Nat.eqb_eq.
  - rewrite assoc_erase_other; auto. intros; apply Nat.eqb_eq.
Qed.

Lemma SI_step o s a e s1 a1 : Inv s a -> SI a -> legal a o (env_of s) (c_size (g_code s)) ->
  (e = None /\ exec o s = Done s1 tt \/ exists x, e = Some x /\ exec o s = Thrown s1 x) ->
  spec_step a o e (env_of s) (c_size (g_code s)) (c_size (g_code s1)) = Some a1 -> SI a1.
Proof.
  intros HI H Hleg Hex Hs.
  destruct o as [m|l ty sc lc lp|addr ty sc lc lp|l|d s0| | |h|d s0|d s0|h| | |b|en|en]; cbn [legal spec_step] in *.
  - destruct (_ && _); [discriminate|]. destruct (m _ _) as [its r]. inversion Hs; subst. now apply SI_items, SI_touch_items.
  - destruct (_ && _); [discriminate|]. destruct e; [inversion Hs; subst; now apply SI_touch|].
    destruct (tid_of _ l); [|discriminate]. destruct (_ <=? maxCode); [|discriminate]. inversion Hs; subst. now apply SI_addBranch, SI_touch.
  - destruct (_ && _); [discriminate|]. destruct e; inversion Hs; subst; auto. now apply SI_addBranch.
  - destruct (_ && _); [discriminate|].
    destruct e as [x|]; [destruct x; inversion Hs; subst; now apply SI_touch|].
    destruct Hex as [[_ Hex]|(x & ? & _)]; [|discriminate].
    destruct l as [k|h].
    + cbn [touch] in Hs. destruct (String.eqb k "@@") eqn:E1.
      * inversion Hs; subst. apply (SI_frame (specDefine a (TAnon (S (sp_anon a))) (c_size (g_code s)))); auto.
        apply SI_define; auto; [|discriminate]. eapply anon_undef; eauto.
      * destruct (tid_of a (LStr k)) as [t|] eqn:Ht; [|discriminate]. inversion Hs; subst.
        apply SI_define; auto.
        -- destruct (sp_defs a t) as [o|] eqn:Hd; auto. exfalso. cbn [exec] in Hex.
           apply String.eqb_neq in E1.
           destruct (String.eqb k "@b") eqn:E2; [unfold defineSlabel in Hex; rewrite E2 in Hex; cbn [orb] in Hex; cbn in Hex; destruct (g_noexc s) eqn:En; [destruct HI as ((Hn & _) & _); congruence|discriminate]|].
           destruct (String.eqb k "@f") eqn:E3; [unfold defineSlabel in Hex; rewrite E3, E2 in Hex; cbn [orb] in Hex; cbn in Hex; destruct (g_noexc s) eqn:En; [destruct HI as ((Hn & _) & _); congruence|discriminate]|].
           apply String.eqb_neq in E2, E3. rewrite (L_redef_str s a k t o) in Hex; auto. discriminate.
        -- intros i ->. cbn [tid_of] in Ht. destruct (String.eqb k "@b"); [destruct (sp_anon a); discriminate|].
           destruct (String.eqb k "@f"); [discriminate|]. destruct (isLocalStr k); discriminate.
    + cbn [tid_of] in Hs.
      rewrite labOf_touch in Hs. destruct (labOf a h) as [i|] eqn:Hh; [|discriminate]. cbn [option_map] in Hs.
      assert (a1 = specDefine (touch a (LObj h)) (TObj i) (c_size (g_code s))) as -> by congruence. apply SI_define.
      * now apply SI_touch.
      * replace (sp_defs (touch a (LObj h)) (TObj i)) with (sp_defs a (TObj i)) by (unfold touch; now rewrite Hh).
        destruct (sp_defs a (TObj i)) as [o|] eqn:Hd; auto. cbn [exec] in Hex. rewrite (L_redef_obj s a h i o) in Hex; auto. discriminate.
      * intros j E. inversion E; subst. exists h. now rewrite labOf_touch.
  - destruct (_ && _); [discriminate|]. destruct e as [x|]; [destruct x; inversion Hs; subst; auto|].
    destruct Hex as [[_ Hex]|(x & ? & _)]; [|discriminate].
    destruct (labOf a d) as [i|] eqn:Hi; [|discriminate]. destruct (labOf a s0) as [j|] eqn:Hj; [|discriminate].
    destruct (sp_defs a (TObj j)) as [off|] eqn:Ho; [|discriminate].
    match goal with H : (if ?b then _ else _) = _ |- _ => destruct b; [|discriminate] end. inversion Hs; subst.
    apply SI_define; auto.
    + destruct (sp_defs a (TObj i)) as [o|] eqn:Hd; auto. cbn [exec] in Hex. rewrite (assign_redef s a d s0 i j off o) in Hex; auto. discriminate.
    + intros k E. inversion E; subst. eauto.
  - inversion Hs; subst. eapply SI_frame; [| | |exact H]; reflexivity.
  - destruct e; inversion Hs; subst; exact H.
  - inversion Hs; subst. eapply SI_lab; [| | |exact H]; try reflexivity.
    intros r i h' Hr Ht Hd. unfold labOf. cbn [sp_lab assoc]. destruct (Nat.eqb h' h); [|apply Hd].
    intros E. inversion E; subst i. pose proof (ref_old _ _ _ _ HI Hr Ht) as Ho. cbn [old] in Ho. lia.
  - destruct (labOf a s0) as [i|] eqn:Hi; [|discriminate]. destruct (isDef a i); [|discriminate]. inversion Hs; subst.
    eapply SI_lab; [| | |exact H]; try reflexivity.
    intros r j h' Hr Ht Hd. unfold labOf. cbn [set_lab sp_lab assoc]. destruct (Nat.eqb h' d); [|apply Hd].
    intros E. inversion E; subst j. now apply (Hd s0).
  - destruct e as [x|]; [inversion Hs; subst; auto|].
    destruct (labOf a s0) as [i|] eqn:Hi; [|discriminate]. destruct (isDef a i); [|discriminate]. inversion Hs; subst.
    eapply SI_lab; [| | |exact H]; try reflexivity.
    intros r j h' Hr Ht Hd. unfold labOf. cbn [set_lab sp_lab assoc]. destruct (Nat.eqb h' d).
    + intros E. inversion E; subst j. now apply (Hd s0).
    + intros E. apply assoc_erase_some in E. now apply (Hd h').
  - destruct (labOf a h) as [i|] eqn:Hi; [|discriminate]. inversion Hs; subst. clear Hs.
    assert (SI (set_lab a (erase Nat.eqb h (sp_lab a)))) as K.
    { eapply SI_lab; [| | |exact H]; try reflexivity. intros r j h' Hr Ht Hd. unfold labOf. cbn [set_lab sp_lab].
      intros E. apply assoc_erase_some in E. now apply (Hd h'). }
    destruct (countId i (erase Nat.eqb h (sp_lab a))) eqn:Ec; [|exact K].
    intros r t Hr Ht. cbn [set_defs sp_refs sp_defs] in *.
    destruct (TId_eqb (TObj i) t) eqn:Et.
    + apply TId_eqb_ok in Et. subst t. right. exists i. split; auto. split.
      * intros h' E. unfold labOf in E. cbn [set_defs sp_lab] in E. change (labOf (set_lab a (erase Nat.eqb h (sp_lab a))) h' = Some i) in E.
        apply countId_pos in E. cbn [set_lab sp_lab] in E. lia.
      * cbn [set_defs sp_defs]. apply updT_same.
    + assert (TObj i <> t) by (intros E; apply TId_eqb_ok in E; congruence).
      rewrite updT_other by assumption. destruct (K r t Hr Ht) as [|(j & -> & Hg & Hn)]; auto.
      right. exists j. split; auto. split; auto. cbn [set_defs sp_defs set_lab] in *. now rewrite updT_other.
  - destruct (forallb _ _); [|discriminate]. inversion Hs; subst. intros r t [].
  - destruct e as [x|]; [destruct x; try discriminate; inversion Hs; subst; exact H|]. inversion Hs; subst. eapply SI_frame; [| | |exact H]; reflexivity.
  - inversion Hs; subst; auto.
  - inversion Hs; subst; auto.
  - inversion Hs; subst; auto.
Qed.
Theorem history_SI os s a s' a' : Inv s a -> SI a -> shistory s a os s' a' -> SI a'.
Proof.
  intros HI HS H. revert HI HS. induction H as [s a|s a o s1 a1 os s2 a2 Hl Hid He Hs Hh IH|s a o e s1 a1 os s2 a2 Hl Hid He Hs Hh IH]; intros HI HS; auto.
  - apply IH.
    + eapply (history_inv [o]); [exact HI|]. eapply SH_done; eauto. constructor.
    + eapply SI_step; eauto.
  - apply IH.
    + eapply (history_inv [o]); [exact HI|]. eapply SH_thrown; eauto. constructor.
    + eapply SI_step; eauto.
Qed.
Lemma SI0 : SI spec0.
Proof. intros r t []. Qed.
