(* Persistence of definitions and references over histories; trace forms of the label properties;
   exact outcomes of the scope, copy, reset and address calls. *)
From Coq Require Import ZArith List Bool String Arith Lia ZifyBool Permutation.
From Verif Require Import Base Types Emit EmitFacts Encode State Code Label Gen Wp CodeFacts SpecMem SpecLabel LabelFacts LabelInv LabelEmit LabelDefine LabelStep LabelStep2 LabelStep3 LabelReady LabelHist LabelThms LabelThms2.
Import ListNotations.
Open Scope Z_scope.

Lemma absjmp_auto s a r : Inv s a -> isAutoGrowC (g_code s) = true -> sp_ready a = true -> In r (sp_refs a) -> r_tid r = None ->
  branch_target (g_code s) (r_pos r) (r_size r) = w64 (r_d r).
Proof.
  intros (Hok & g & gid & bnd & HI) Ha Hr Hin Ht. destruct HI, iv_ref. rewrite <- iv_refs in Hin.
  apply in_map_iff in Hin as ([r' st] & E & Hx). cbn [fst] in E. subst r'.
  rewrite Forall_forall in ri_ok. destruct (ri_ok _ Hx) as [Hs H]. cbn [fst snd] in *.
  destruct st; [destruct H; congruence|destruct H as (_ & H & _); congruence|].
  destruct H as (o & _ & _ & Hf & _ & Hfit). specialize (Hfit Ha Ht). unfold field, want in *. rewrite Ht in *.
  destruct Hs as (Hs0 & _ & Hs). specialize (Hs (Hs0 Ht)).
  replace (c_top (g_code s) + r_pos r + r_size r) with (c_top (g_code s) + (r_pos r + r_size r)) in * by lia.
  apply branch_target_ok; auto.
Qed.

(* ---- persistence ---- *)
Definition same_ref (r r' : ref) : Prop :=
  r_pos r' = r_pos r /\ r_size r' = r_size r /\ r_tid r' = r_tid r /\ r_rel r' = r_rel r /\ r_d r' = r_d r.
Lemma same_ref_refl r : same_ref r r.
Proof. unfold same_ref; auto. Qed.
Lemma same_ref_trans a b c : same_ref a b -> same_ref b c -> same_ref a c.
Proof. unfold same_ref. intuition congruence. Qed.
Record kept (a a' : Spec) : Prop := mkKept {
  kp_def : forall t o, sp_defs a t = Some o -> sp_defs a' t = Some o \/ gone a' t;
  kp_ref : forall r, In r (sp_refs a) -> exists r', In r' (sp_refs a') /\ same_ref r r';
  kp_gone : forall i, old a i -> (forall h, labOf a h <> Some i) -> sp_defs a (TObj i) = None ->
              (forall h, labOf a' h <> Some i) /\ sp_defs a' (TObj i) = None;
  kp_old : forall i, old a i -> old a' i }.
Definition no_reset (os : list op) : Prop := ~ In OpReset os.

Lemma kept_refl a : kept a a.
Proof. constructor; auto. intros r Hr. exists r. split; auto. apply same_ref_refl. Qed.
Lemma kept_same a a' : sp_defs a' = sp_defs a -> sp_refs a' = sp_refs a -> sp_lab a' = sp_lab a -> sp_nlab a' = sp_nlab a -> sp_epoch a' = sp_epoch a -> kept a a'.
Proof.
  intros E1 E2 E3 E4 E5. constructor.
  - intros t o H. left. now rewrite E1.
  - rewrite E2. intros r Hr. exists r. split; auto. apply same_ref_refl.
  - intros i H1 H2 H3. unfold labOf in *. rewrite E1, E3. auto.
  - intros i. unfold old. now rewrite E4, E5.
Qed.
Lemma kept_addRef a p n t rel d : kept a (addRef a p n t rel d).
Proof.
  constructor; auto. intros r Hr. exists r. split; [now right|apply same_ref_refl].
Qed.
Lemma kept_addBranch a p q t d : kept a (addBranch a p q t d).
Proof. unfold addBranch. destruct (q - p =? 2); apply kept_addRef. Qed.
Lemma kept_touch a l : kept a (touch a l).
Proof. destruct l as [k|h]; [apply kept_refl|]. unfold touch. destruct (labOf a h) eqn:E; [|apply kept_refl]. apply kept_same; reflexivity. Qed.
Lemma kept_define a t o : sp_defs a t = None -> (forall i, t = TObj i -> exists h, labOf a h = Some i) -> kept a (specDefine a t o).
Proof.
  intros Hd Hal. unfold specDefine. constructor; cbn [set_refs set_defs sp_defs sp_refs].
  - intros t' o' H. left. rewrite updT_other; auto. intros ->. congruence.
  - intros r Hr. exists (resolve1 t o r). split; [now apply in_map|]. unfold resolve1. destruct (_ && _); [unfold same_ref; auto|apply same_ref_refl].
  - intros i H1 H2 H3. split; [exact H2|]. rewrite updT_other; auto. intros ->.
    destruct (Hal i eq_refl) as (h & Hh). now apply H2 in Hh.
  - auto.
Qed.
Lemma kept_trans a b c : (forall i, sp_defs a (TObj i) <> None -> old a i) -> kept a b -> kept b c -> kept a c.
Proof.
  intros Ho K1 K2. constructor.
  - intros t o H. destruct (kp_def _ _ K1 t o H) as [H1|(i & -> & Hg & Hn)].
    + apply (kp_def _ _ K2 t o H1).
    + assert (old a i) by (apply Ho; congruence).
      destruct (kp_gone _ _ K2 i) as (G1 & G2); auto.
      { now apply (kp_old _ _ K1). } right. exists i. auto.
  - intros r Hr. destruct (kp_ref _ _ K1 r Hr) as (r1 & Hr1 & S1). destruct (kp_ref _ _ K2 r1 Hr1) as (r2 & Hr2 & S2).
    exists r2. split; auto. eapply same_ref_trans; eauto.
  - intros i H1 H2 H3. destruct (kp_gone _ _ K1 i H1 H2 H3) as (B & C). apply (kp_gone _ _ K2 i); auto. now apply (kp_old _ _ K1).
  - intros i H. now apply (kp_old _ _ K2), (kp_old _ _ K1).
Qed.

Lemma Inv_def_old s a i : Inv s a -> sp_defs a (TObj i) <> None -> old a i.
Proof.
  intros (_ & g & gid & bnd & HI) H. destruct HI, iv_obj. apply oi_old. intros E. apply H, oi_undef, E.
Qed.
Lemma kept_touch_items its : forall a, (forall i, sp_defs a (TObj i) <> None -> old a i) -> kept a (touch_items a its).
Proof.
  induction its as [|[b|l rel d|e] its IH]; intros a H; cbn [touch_items]; auto using kept_refl.
  assert (kept a (touch a l)) as K by apply kept_touch.
  eapply kept_trans; [exact H|exact K|]. apply IH. intros i Hi. apply (kp_old _ _ K). apply H.
  destruct l as [k|h]; auto. unfold touch in Hi. destruct (labOf a h); auto.
Qed.
Lemma kept_items its : forall a p q, (forall i, sp_defs a (TObj i) <> None -> old a i) -> kept a (spec_items a its p q).
Proof.
  induction its as [|[b|l rel d|e] its IH]; intros a p q H; cbn [spec_items]; auto using kept_refl.
  - destruct (p + 1 <=? q); auto using kept_refl.
  - destruct (_ <=? q); auto using kept_refl. destruct (tid_of a l); auto using kept_refl.
    eapply kept_trans; [exact H|apply kept_addRef|]. apply IH. exact H.
Qed.
Lemma defs_touch_items its : forall a, sp_defs (touch_items a its) = sp_defs a.
Proof. induction its as [|[b|l rel d|e] its IH]; intros a; cbn [touch_items]; auto. rewrite IH. destruct l as [k|h]; auto. unfold touch. now destruct (labOf a h). Qed.
Lemma defs_touch a l : sp_defs (touch a l) = sp_defs a.
Proof. destruct l as [k|h]; auto. unfold touch. now destruct (labOf a h). Qed.

Lemma success_undef_L s a l s1 t : Inv s a -> exec (OpL l) s = Done s1 tt -> l <> LStr "@@"%string -> tid_of a l = Some t -> sp_defs a t = None.
Proof.
  intros HI Hex Hne Ht. destruct (sp_defs a t) as [o|] eqn:Hd; auto. exfalso. destruct l as [k|h]; cbn [exec] in Hex.
  - assert (k <> "@@"%string) as E1 by congruence.
    destruct (String.eqb k "@b") eqn:E2; [unfold defineSlabel in Hex; rewrite E2 in Hex; cbn [orb] in Hex; cbn in Hex; destruct (g_noexc s) eqn:En; [destruct HI as ((Hn & _) & _); congruence|discriminate]|].
    destruct (String.eqb k "@f") eqn:E3; [unfold defineSlabel in Hex; rewrite E3, E2 in Hex; cbn [orb] in Hex; cbn in Hex; destruct (g_noexc s) eqn:En; [destruct HI as ((Hn & _) & _); congruence|discriminate]|].
    apply String.eqb_neq in E2, E3. rewrite (L_redef_str s a k t o) in Hex; auto. discriminate.
  - cbn [tid_of] in Ht. destruct (labOf a h) as [i|] eqn:Hh; [|discriminate]. inversion Ht; subst t.
    rewrite (L_redef_obj s a h i o) in Hex; auto. discriminate.
Qed.
Lemma tid_str_noobj a k i : tid_of a (LStr k) <> Some (TObj i).
Proof.
  cbn [tid_of]. destruct (String.eqb k "@b"); [destruct (sp_anon a); discriminate|].
  destruct (String.eqb k "@f"); [discriminate|]. destruct (isLocalStr k); discriminate.
Qed.

Lemma kept_step o s a e s1 a1 : Inv s a -> legal a o (env_of s) (c_size (g_code s)) -> o <> OpReset ->
  (e = None /\ exec o s = Done s1 tt \/ exists x, e = Some x /\ exec o s = Thrown s1 x) ->
  spec_step a o e (env_of s) (c_size (g_code s)) (c_size (g_code s1)) = Some a1 -> kept a a1.
Proof.
  intros HI Hleg Hnr Hex Hs.
  assert (forall i, sp_defs a (TObj i) <> None -> old a i) as Hold by (intros i; eapply Inv_def_old; eauto).
  destruct o as [m|l ty sc lc lp|addr ty sc lc lp|l|d s0| | |h|d s0|d s0|h| | |b|en|en]; cbn [legal spec_step] in *.
  - destruct (_ && _); [discriminate|]. destruct (m _ _) as [its r]. inversion Hs; subst.
    eapply kept_trans; [exact Hold|now apply kept_touch_items|]. apply kept_items.
    intros i. rewrite defs_touch_items. intros H. apply (kp_old _ _ (kept_touch_items its a Hold)). auto.
  - destruct (_ && _); [discriminate|]. destruct e.
    { assert (a1 = touch a l) as -> by congruence. apply kept_touch. }
    destruct (tid_of _ l); [|discriminate]. destruct (_ <=? maxCode); [|discriminate].
    eapply kept_trans; [exact Hold|apply (kept_touch a l)|].
    match type of Hs with Some ?x = _ => assert (a1 = x) as -> by congruence end. apply kept_addBranch.
  - destruct (_ && _); [discriminate|]. destruct e; inversion Hs; subst; [apply kept_refl|apply kept_addBranch].
  - destruct (_ && _); [discriminate|].
    destruct e as [x|].
    { assert (a1 = touch a l) as -> by (destruct x; congruence). apply kept_touch. }
    destruct Hex as [[_ Hex]|(x & ? & _)]; [|discriminate].
    destruct l as [k|h].
    + change (touch a (LStr k)) with a in Hs. destruct (String.eqb k "@@") eqn:E1.
      * inversion Hs; subst. eapply kept_trans; [exact Hold|apply (kept_define a (TAnon (S (sp_anon a)))); [eapply anon_undef; eauto|discriminate]|].
        apply kept_same; reflexivity.
      * destruct (tid_of a (LStr k)) as [t|] eqn:Ht; [|discriminate]. inversion Hs; subst. apply String.eqb_neq in E1.
        apply kept_define.
        -- eapply success_undef_L; eauto. congruence.
        -- intros i ->. exfalso. eapply tid_str_noobj; eauto.
    + cbn [tid_of] in Hs. rewrite labOf_touch in Hs. destruct (labOf a h) as [i|] eqn:Hh; [|discriminate]. cbn [option_map] in Hs.
      assert (a1 = specDefine (touch a (LObj h)) (TObj i) (c_size (g_code s))) as -> by congruence.
      eapply kept_trans; [exact Hold|apply (kept_touch a (LObj h))|]. apply kept_define.
      * rewrite defs_touch. eapply success_undef_L; eauto; [congruence|]. cbn [tid_of]. now rewrite Hh.
      * intros j E. inversion E; subst. exists h. now rewrite labOf_touch.
  - destruct (_ && _); [discriminate|]. destruct e as [x|].
    { assert (a1 = a) as -> by (destruct x; congruence). apply kept_refl. }
    destruct Hex as [[_ Hex]|(x & ? & _)]; [|discriminate].
    destruct (labOf a d) as [i|] eqn:Hi; [|discriminate]. destruct (labOf a s0) as [j|] eqn:Hj; [|discriminate].
    destruct (sp_defs a (TObj j)) as [off|] eqn:Ho; [|discriminate].
    match goal with H : (if ?b then _ else _) = _ |- _ => destruct b; [|discriminate] end. inversion Hs; subst.
    apply kept_define; auto.
    + destruct (sp_defs a (TObj i)) as [o|] eqn:Hd; auto. cbn [exec] in Hex. rewrite (assign_redef s a d s0 i j off o) in Hex; auto. discriminate.
    + intros k E. inversion E; subst. eauto.
  - inversion Hs; subst. apply kept_same; reflexivity.
  - destruct e; inversion Hs; subst; apply kept_same; reflexivity.
  - inversion Hs; subst. constructor; cbn [sp_defs sp_refs]; auto.
    + intros r Hr. exists r. split; auto. apply same_ref_refl.
    + intros i H1 H2 H3. split; auto. intros h'. unfold labOf. cbn [sp_lab assoc]. destruct (Nat.eqb h' h); [|apply H2].
      intros E. inversion E; subst i. cbn [old] in H1. lia.
    + intros i. unfold old. cbn [sp_nlab sp_epoch]. destruct i; lia.
  - destruct (labOf a s0) as [i|] eqn:Hi; [|discriminate]. destruct (isDef a i); [|discriminate]. inversion Hs; subst.
    constructor; cbn [set_lab sp_defs sp_refs]; auto.
    + intros r Hr. exists r. split; auto. apply same_ref_refl.
    + intros j H1 H2 H3. split; auto. intros h'. unfold labOf. cbn [set_lab sp_lab assoc]. destruct (Nat.eqb h' d); [|apply H2].
      intros E. inversion E; subst j. now apply (H2 s0).
  - destruct e as [x|]; [inversion Hs; subst; apply kept_refl|].
    destruct (labOf a s0) as [i|] eqn:Hi; [|discriminate]. destruct (isDef a i); [|discriminate]. inversion Hs; subst.
    constructor; cbn [set_lab sp_defs sp_refs]; auto.
    + intros r Hr. exists r. split; auto. apply same_ref_refl.
    + intros j H1 H2 H3. split; auto. intros h'. unfold labOf. cbn [set_lab sp_lab assoc]. destruct (Nat.eqb h' d).
      * intros E. inversion E; subst j. now apply (H2 s0).
      * intros E. apply assoc_erase_some in E. now apply (H2 h').
  - destruct (labOf a h) as [i|] eqn:Hi; [|discriminate]. inversion Hs; subst. clear Hs.
    assert (forall j h', (forall h, labOf a h <> Some j) -> labOf (set_lab a (erase Nat.eqb h (sp_lab a))) h' <> Some j) as HL.
    { intros j h' H2 E. unfold labOf in E. cbn [set_lab sp_lab] in E. apply assoc_erase_some in E. now apply (H2 h'). }
    destruct (countId i (erase Nat.eqb h (sp_lab a))) eqn:Ec.
    + constructor; cbn [set_lab set_defs sp_defs sp_refs]; auto.
      * intros t o Ho. destruct (TId_eqb (TObj i) t) eqn:Et.
        -- apply TId_eqb_ok in Et. subst t. right. exists i. split; auto. split.
           ++ intros h' E. change (labOf (set_lab a (erase Nat.eqb h (sp_lab a))) h' = Some i) in E.
              apply countId_pos in E. cbn [set_lab sp_lab] in E. lia.
           ++ cbn [set_defs sp_defs]. apply updT_same.
        -- left. rewrite updT_other; auto. intros E. apply TId_eqb_ok in E. congruence.
      * intros r Hr. exists r. split; auto. apply same_ref_refl.
      * intros j H1 H2 H3. split; [intros h'; now apply HL|]. unfold updT. destruct (TId_eqb _ _); auto.
    + constructor; cbn [set_lab sp_defs sp_refs]; auto.
      * intros r Hr. exists r. split; auto. apply same_ref_refl.
  - congruence.
  - destruct e as [x|]; [destruct x; inversion Hs; subst; apply kept_refl|]. inversion Hs; subst. apply kept_same; reflexivity.
  - inversion Hs; subst; apply kept_refl.
  - inversion Hs; subst; apply kept_refl.
  - inversion Hs; subst; apply kept_refl.
Qed.

Theorem history_kept os s a s' a' : Inv s a -> shistory s a os s' a' -> no_reset os -> kept a a'.
Proof.
  intros HI H. revert HI. induction H as [s a|s a o s1 a1 os s2 a2 Hl Hid He Hs Hh IH|s a o e s1 a1 os s2 a2 Hl Hid He Hs Hh IH]; intros HI Hnr.
  - apply kept_refl.
  - eapply kept_trans; [intros i; eapply Inv_def_old; eauto| |].
    + eapply kept_step; eauto. intros ->. apply Hnr. now left.
    + apply IH; [|intros X; apply Hnr; now right]. eapply (history_inv [o]); [exact HI|]. eapply SH_done; eauto. constructor.
  - eapply kept_trans; [intros i; eapply Inv_def_old; eauto| |].
    + eapply kept_step; eauto. intros ->. apply Hnr. now left.
    + apply IH; [|intros X; apply Hnr; now right]. eapply (history_inv [o]); [exact HI|]. eapply SH_thrown; eauto. constructor.
Qed.

(* ---- a jump lands where its label is, now or later ---- *)
Definition jsize (p q : Z) : Z := if q - p =? 2 then 1 else 4.
Lemma addBranch_in a p q t d : exists r, In r (sp_refs (addBranch a p q t d)) /\
  r_pos r = q - jsize p q /\ r_size r = jsize p q /\ r_tid r = t /\ r_rel r = true /\ r_d r = d.
Proof.
  unfold addBranch, addRef, jsize. destruct (q - p =? 2); eexists; (split; [now left|]); cbn; auto.
Qed.
Lemma tid_of_touch a l l' : tid_of (touch a l') l = tid_of a l.
Proof.
  destruct l as [k|h]; cbn [tid_of]; [|now rewrite labOf_touch].
  destruct l' as [k'|h']; auto. unfold touch. destruct (labOf a h'); reflexivity.
Qed.

Theorem jmp_lands s a l ty sc lc lp s1 a1 os s2 a2 t o :
  Inv s a -> SI a ->
  exec (OpJmp l ty sc lc lp) s = Done s1 tt ->
  shistory s a [OpJmp l ty sc lc lp] s1 a1 ->
  tid_of a l = Some t ->
  shistory s1 a1 os s2 a2 -> no_reset os -> finished s2 a2 ->
  sp_defs a2 t = Some o ->
  let n := jsize (c_size (g_code s)) (c_size (g_code s1)) in
  branch_target (g_code s2) (c_size (g_code s1) - n) n = w64 (c_top (g_code s2) + o).
Proof.
  intros HI HS Hex Hsh Ht Hos Hnr Hf Hd n.
  assert (Inv s1 a1) as HI1 by (eapply history_inv; eauto).
  assert (SI a1) as HS1 by (eapply (history_SI _ s a _ _ HI); eauto).
  assert (Inv s2 a2) as HI2 by (eapply history_inv; eauto).
  assert (SI a2) as HS2 by (eapply (history_SI _ s1 a1 _ _ HI1); eauto).
  pose proof (history_kept os s1 a1 s2 a2 HI1 Hos Hnr) as K.
  assert (exists r, In r (sp_refs a1) /\ r_pos r = c_size (g_code s1) - n /\ r_size r = n /\ r_tid r = Some t /\ r_rel r = true /\ r_d r = 0) as (r & Hr & E1 & E2 & E3 & E4 & E5).
  { inversion Hsh as [|? ? ? s1' a1' ? ? ? L1 L2 L3 L4 L5|? ? ? e s1' a1' ? ? ? L1 L2 L3 L4 L5]; subst; [|congruence].
    assert (s1' = s1) by congruence. subst s1'. inversion L5; subst. cbn [spec_step] in L4.
    destruct (_ && _); [discriminate|]. rewrite tid_of_touch, Ht in L4. destruct (_ <=? maxCode); [|discriminate].
    match type of L4 with Some ?x = _ => assert (a1 = x) as -> by congruence end. apply addBranch_in. }
  destruct (kp_ref _ _ K r Hr) as (r' & Hr' & S1 & S2 & S3 & S4 & S5).
  assert (r_tid r' = Some t) as Ht' by congruence.
  destruct (HS2 r' t Hr' Ht') as [Hv|(i & -> & _ & Hn)]; [|congruence]. rewrite Hd in Hv.
  pose proof (rel_target s2 a2 r' t o HI2 Hf Hr' Ht' ltac:(congruence) Hv) as T.
  rewrite S1, S2, S5, E1, E2, E5, Z.add_0_r in T. exact T.
Qed.
