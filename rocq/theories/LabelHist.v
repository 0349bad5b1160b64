(* The label invariant holds after every history of calls. *)
From Coq Require Import ZArith List Bool String Arith Lia ZifyBool Permutation.
From Verif Require Import Base Types Emit EmitFacts Encode State Code Label Gen Wp CodeFacts SpecLabel LabelFacts LabelInv LabelEmit LabelDefine LabelStep LabelStep2 LabelStep3 LabelReady.
Import ListNotations.
Open Scope Z_scope.

(* calls that add code or definitions *)
Definition emitting (o : op) : bool :=
  match o with OpEmit _ | OpJmp _ _ _ _ _ | OpJmpAbs _ _ _ _ _ | OpL _ | OpAssign _ _ => true | _ => false end.

Lemma step_ok o s a :
  Inv s a -> legal a o (env_of s) (c_size (g_code s)) -> ids_left s o ->
  (emitting o = true -> isAutoGrowC (g_code s) && sp_ready a = false) ->
  wp (exec o) s
    (fun s' _ => forall a', spec_step a o None (env_of s) (c_size (g_code s)) (c_size (g_code s')) = Some a' -> Inv s' a')
    (fun s' e => forall a', spec_step a o (Some e) (env_of s) (c_size (g_code s)) (c_size (g_code s')) = Some a' -> Inv s' a').
Proof.
  intros HI Hleg Hid Hnf. unfold ids_left in Hid.
  assert (env_autoGrow (env_of s) = isAutoGrowC (g_code s)) as Hea by reflexivity.
  destruct o as [m|l ty sc lc lp|addr ty sc lc lp|l|d s0| | |h|d s0|d s0|h| | |b|e|e]; cbn [exec legal mentions emitting spec_step] in *.
  - specialize (Hnf eq_refl). rewrite Hea, Hnf.
    eapply wp_mono; [eapply (wp_runE m s a); eauto| |]; cbn beta.
    + destruct (m (env_of s) (c_size (g_code s))) as [its r]. cbn [fst]. intros s' [] H a' E. inversion E; subst. exact H.
    + destruct (m (env_of s) (c_size (g_code s))) as [its r]. cbn [fst]. intros s' e H a' E. inversion E; subst. exact H.
  - specialize (Hnf eq_refl). rewrite Hea, Hnf.
    eapply wp_mono; [eapply (wp_opJmp l ty sc lc lp s (touch a l))| |]; cbn beta.
    + now apply Inv_touch.
    + now rewrite ready_touch.
    + now apply alive_ref_touch.
    + apply touched_ref_touch.
    + lia.
    + intros s' [] (t & Ht & H) a'. rewrite Ht. destruct (c_size (g_code s') <=? maxCode) eqn:E; [|discriminate].
      intros E'; inversion E'; subst. apply H. lia.
    + intros s' e H a' E. inversion E; subst. exact H.
  - specialize (Hnf eq_refl). rewrite Hea, Hnf.
    eapply wp_mono; [eapply (wp_opJmpAbs addr ty sc lc lp s a); auto| |]; cbn beta.
    + intros s' [] H a' E. inversion E; subst. exact H.
    + intros s' e H a' E. inversion E; subst. exact H.
  - specialize (Hnf eq_refl). rewrite Hea, Hnf. destruct l as [k|h].
    + cbn [touch]. eapply wp_mono; [eapply (wp_L_str k s a); auto| |]; cbn beta.
      * intros s' [] H a'. destruct (String.eqb k "@@"%string).
        -- intros E; inversion E; subst. exact H.
        -- destruct H as (t & -> & H). intros E; inversion E; subst. exact H.
      * intros s' e [([-> | ->] & H)|[-> | ->]] a' E; inversion E; subst; exact H.
    + eapply wp_mono; [eapply (wp_L_obj h s (touch a (LObj h)))| |]; cbn beta.
      * now apply Inv_touch.
      * now rewrite ready_touch.
      * cbn [alive_ref] in Hleg. unfold alive in *. now rewrite labOf_touch.
      * apply touched_ref_touch.
      * lia.
      * intros s' [] (t & -> & H) a' E. inversion E; subst. exact H.
      * intros s' e [(-> & H)|[-> | ->]] a' E; inversion E; subst; exact H.
  - specialize (Hnf eq_refl). rewrite Hea, Hnf. destruct Hleg as [Hd Hs0].
    eapply wp_mono; [eapply (wp_assign d s0 s a); auto| |]; cbn beta.
    + intros s' [] H a'. destruct (labOf a d) as [i|]; [|discriminate]. destruct (labOf a s0) as [j|]; [|discriminate].
      destruct (sp_defs a (TObj j)) as [off|] eqn:Hj; [|discriminate].
      match goal with |- (if ?b then _ else _) = _ -> _ => destruct b eqn:E; [|discriminate] end. intros E'; inversion E'; subst. eapply H; eauto.
    + intros s' e [([-> | ->] & H)|[-> | ->]] a' E; inversion E; subst; exact H.
  - eapply wp_mono; [eapply (wp_inLocal s a); auto| |]; cbn beta; [|intros s' e []].
    intros s' [] H a' E. inversion E; subst. exact H.
  - eapply wp_mono; [eapply (wp_outLocal s a); auto| |]; cbn beta.
    + intros s' [] H a' E. inversion E; subst. exact H.
    + intros s' e H a' E. inversion E; subst. exact H.
  - eapply wp_mono; [eapply (wp_newLabel h s a); auto| |]; cbn beta; [|intros s' e []].
    intros s' [] H a' E. inversion E; subst. exact H.
  - destruct Hleg as [Hd Hs0]. eapply wp_mono; [eapply (wp_copyLabel d s0 s a); auto| |]; cbn beta; [|intros s' e []].
    intros s' [] H a'. destruct (labOf a s0) as [i|]; [|discriminate]. destruct (isDef a i) eqn:Hi; [|discriminate].
    intros E; inversion E; subst. apply H; auto.
  - destruct Hleg as [Hd Hs0]. eapply wp_mono; [eapply (wp_copyAssign d s0 s a); auto| |]; cbn beta.
    + intros s' [] H a'. destruct (labOf a s0) as [i|]; [|discriminate]. destruct (isDef a i) eqn:Hi; [|discriminate].
      intros E; inversion E; subst. apply H; auto.
    + intros s' e H a' E. inversion E; subst. exact H.
  - eapply wp_mono; [eapply (wp_destroy h s a); auto| |]; cbn beta; [|intros s' e []].
    intros s' [] H a'. destruct (labOf a h) as [i|]; [|discriminate]. intros E; inversion E; subst. apply (H i eq_refl).
  - eapply wp_mono; [eapply (wp_reset s a); auto| |]; cbn beta; [|intros s' e []].
    intros s' [] H a'. destruct (forallb _ _); [|discriminate]. intros E; inversion E; subst. exact (H eq_refl).
  - eapply wp_mono; [eapply (wp_ready s a); auto| |]; cbn beta.
    + intros s' [] [H _] a' E. inversion E; subst. exact H.
    + intros s' e [(-> & ->)|[-> | ->]] a' E; inversion E; subst; exact HI.
  - apply wp_put. intros a' E. inversion E; subst. eapply Inv_frame; eauto.
  - unfold setDefaultEncoding. apply wp_fnS. destruct e; try (apply wp_put; intros a' E; inversion E; subst; eapply Inv_frame; eauto);
      (apply wp_throw; split; [apply HI|]; intros a' E; inversion E; subst; exact HI).
  - unfold setDefaultEncodingAVX10. apply wp_fnS. destruct e; try (apply wp_put; intros a' E; inversion E; subst; eapply Inv_frame; eauto);
      (apply wp_throw; split; [apply HI|]; intros a' E; inversion E; subst; exact HI).
Qed.

Lemma spec_step_frozen a o e env p q a' :
  spec_step a o e env p q = Some a' -> emitting o = true -> env_autoGrow env && sp_ready a = false.
Proof.
  destruct o; cbn [emitting spec_step]; try discriminate; intros H _; destruct (env_autoGrow env && sp_ready a); auto; discriminate.
Qed.

Theorem history_inv os s a s' a' : Inv s a -> shistory s a os s' a' -> Inv s' a'.
Proof.
  intros HI H. revert HI. induction H as [s a|s a o s1 a1 os s2 a2 Hl Hid He Hs Hh IH|s a o e s1 a1 os s2 a2 Hl Hid He Hs Hh IH]; intros HI; auto.
  - apply IH. pose proof (step_ok o s a HI Hl Hid (spec_step_frozen _ _ _ _ _ _ _ Hs)) as W. eapply (wp_done _ _ _ _ _ _ W He). exact Hs.
  - apply IH. pose proof (step_ok o s a HI Hl Hid (spec_step_frozen _ _ _ _ _ _ _ Hs)) as W. eapply (wp_thrown _ _ _ _ _ _ W He). exact Hs.
Qed.

(* a new generator; maxSize is a size_t *)
Theorem init_inv maxSize u or s :
  0 <= maxSize < 18446744073709551616 -> alloc_bounded or -> init maxSize u or false = Done s tt -> Inv s spec0.
Proof.
  intros Hm Hb Hi. unfold init in Hi. destruct (ctorCode maxSize u or false) as [c e] eqn:E.
  assert (e = None) as -> by (destruct e; [discriminate|auto]).
  inversion Hi; subst s; clear Hi.
  assert (code_wf c /\ c_size c = 0 /\ c_infos c = [] /\ c_called c = false) as (W & Z1 & Z2 & Z3).
  { unfold ctorCode in E. destruct u as [| | |p m].
    4: { inversion E; subst. split; [|auto]. constructor; cbn; try discriminate; lia. }
    all: destruct (o_alloc or 0%nat (Z.max maxSize 1)) as [[p m]|] eqn:Ea.
    1,3,5: assert (Z.max maxSize 1 < 281474976710656) by
        (destruct (Z_lt_le_dec (Z.max maxSize 1) 281474976710656) as [|Hge]; auto; rewrite (Hb _ _ Hge) in Ea; discriminate);
      inversion E; subst; split; [|auto]; constructor; cbn; lia.
    all: inversion E; subst; assert (maxSize = 0) by (destruct (0 <? maxSize) eqn:E0; [discriminate|lia]); subst; split; [|auto]; constructor; cbn; lia. }
  split; [split; [reflexivity|split; [exact W|exact Hb]]|].
  exists [], (fun _ => 0), 0. cbn [g_code g_lm g_labels].
  constructor; auto.
  - constructor; auto.
    + cbn. lia.
    + lia.
    + rewrite Z2. constructor.
    + rewrite Z3. now rewrite andb_false_r.
  - constructor; cbn; auto.
  - constructor; cbn; auto.
    + intros m. split; [congruence|lia].
    + constructor; [intros []|constructor].
    + discriminate.
  - constructor; cbn; auto; try lia; try (intros; exfalso; auto; fail).
    + intros h i. discriminate.
    + constructor.
    + intros h. split; [intros []|]. intros (i & _ & H). discriminate.
    + constructor.
  - constructor.
  - intros t o H. discriminate.
Qed.
