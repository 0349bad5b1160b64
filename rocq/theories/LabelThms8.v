(* Whole programs: a reference followed, or preceded, by the definition of its label. *)
From Coq Require Import ZArith List Bool String Arith Lia ZifyBool.
From Verif Require Import Base Types Emit EmitFacts Encode State Code Label Gen Wp CodeFacts Append SpecMem SpecLabel LabelFacts LabelInv LabelEmit LabelDefine LabelStep LabelStep2 LabelStep3 LabelReady LabelHist LabelThms LabelThms2 LabelThms3 LabelThms4 Stable LabelThms5 Grow LabelThms6 LabelThms7.
Import ListNotations.
Open Scope Z_scope.

(* ---- a resolved reference stays resolved ---- *)
Lemma refs_touch a l : sp_refs (touch a l) = sp_refs a.
Proof. destruct l as [k|h]; auto. unfold touch. now destruct (labOf a h). Qed.
Lemma refs_touch_items its : forall a, sp_refs (touch_items a its) = sp_refs a.
Proof. induction its as [|[b|l rel d|e] its IH]; intros a; cbn [touch_items]; auto. rewrite IH. apply refs_touch. Qed.
Lemma in_resolve t o r v l : In r l -> r_val r = Some v -> In r (map (resolve1 t o) l).
Proof. intros H Hv. apply in_map_iff. exists r. split; auto. unfold resolve1, unresolved. now rewrite Hv. Qed.
Lemma in_addBranch a p q t d r : In r (sp_refs a) -> In r (sp_refs (addBranch a p q t d)).
Proof. intros H. unfold addBranch. destruct (_ =? 2); now right. Qed.
Lemma resolved_step o a e env p q a1 r v : o <> OpReset -> spec_step a o e env p q = Some a1 ->
  In r (sp_refs a) -> r_val r = Some v -> In r (sp_refs a1).
Proof.
  intros Hn Hs Hr Hv. destruct o as [m|l ty sc lc lp|addr ty sc lc lp|l|d s0| | |h|d s0|d s0|h| | |b|en|en]; cbn [spec_step] in Hs.
  - destruct (_ && _); [discriminate|]. destruct (m _ _) as [its x]. match type of Hs with Some ?y = _ => assert (a1 = y) as -> by congruence end.
    apply items_keep. now rewrite refs_touch_items.
  - destruct (_ && _); [discriminate|]. destruct e; [assert (a1 = touch a l) as -> by congruence; now rewrite refs_touch|].
    destruct (tid_of _ l); [|discriminate]. destruct (_ <=? maxCode); [|discriminate].
    match type of Hs with Some ?y = _ => assert (a1 = y) as -> by congruence end. apply in_addBranch. now rewrite refs_touch.
  - destruct (_ && _); [discriminate|]. destruct e; match type of Hs with Some ?y = _ => assert (a1 = y) as -> by congruence end; auto using in_addBranch.
  - destruct (_ && _); [discriminate|]. destruct e as [x|]; [assert (a1 = touch a l) as -> by (destruct x; congruence); now rewrite refs_touch|].
    destruct l as [k|h].
    + destruct (String.eqb k "@@"); [|destruct (tid_of _ _); [|discriminate]];
        match type of Hs with Some ?y = _ => assert (a1 = y) as -> by congruence end; cbn [set_anon specDefine set_refs sp_refs]; eapply in_resolve; eauto.
    + destruct (tid_of _ _); [|discriminate]. match type of Hs with Some ?y = _ => assert (a1 = y) as -> by congruence end.
      unfold specDefine. cbn [set_refs sp_refs]. eapply in_resolve; eauto. now rewrite refs_touch.
  - destruct (_ && _); [discriminate|]. destruct e as [x|]; [assert (a1 = a) as -> by (destruct x; congruence); auto|].
    destruct (labOf a d); [|discriminate]. destruct (labOf a s0); [|discriminate]. destruct (sp_defs a _); [|discriminate].
    match type of Hs with (if ?b then _ else _) = _ => destruct b; [|discriminate] end.
    match type of Hs with Some ?y = _ => assert (a1 = y) as -> by congruence end. cbn [specDefine set_refs sp_refs]. eapply in_resolve; eauto.
  - inversion Hs; subst; auto.
  - destruct e; inversion Hs; subst; auto.
  - inversion Hs; subst; auto.
  - destruct (labOf a s0); [|discriminate]. destruct (isDef a i); inversion Hs; subst; auto.
  - destruct e; [inversion Hs; subst; auto|]. destruct (labOf a s0); [|discriminate]. destruct (isDef a i); inversion Hs; subst; auto.
  - destruct (labOf a h); [|discriminate]. destruct (countId _ _); inversion Hs; subst; auto.
  - congruence.
  - destruct e as [x|]; [destruct x|]; inversion Hs; subst; auto.
  - inversion Hs; subst; auto.
  - inversion Hs; subst; auto.
  - inversion Hs; subst; auto.
Qed.
Lemma history_resolved os s a s' a' r v : shistory s a os s' a' -> no_reset os -> In r (sp_refs a) -> r_val r = Some v -> In r (sp_refs a').
Proof.
  induction 1 as [s a|s a o s1 a1 os s2 a2 Hl Hid He Hs Hh IH|s a o e s1 a1 os s2 a2 Hl Hid He Hs Hh IH]; intros Hnr Hr Hv; auto.
  - apply IH; auto; [intros X; apply Hnr; now right|]. eapply resolved_step; eauto. intros ->. apply Hnr. now left.
  - apply IH; auto; [intros X; apply Hnr; now right|]. eapply resolved_step; eauto. intros ->. apply Hnr. now left.
Qed.

(* ---- references, resolved at some later moment ---- *)
(* a reference r0 emitted before, and label t at o by now *)
Lemma ref_resolved a a2 r0 t o : kept a a2 -> SI a2 -> In r0 (sp_refs a) -> r_tid r0 = Some t -> sp_defs a2 t = Some o ->
  exists r, In r (sp_refs a2) /\ same_ref r0 r /\ r_val r = Some o.
Proof.
  intros K HS Hr Ht Hd. destruct (kp_ref _ _ K _ Hr) as (r & Hr' & S). exists r. split; auto. split; auto.
  assert (r_tid r = Some t) as Ht' by (destruct S as (_ & _ & S & _); congruence).
  destruct (HS r t Hr' Ht') as [Hv|(i & -> & _ & Hn)]; congruence.
Qed.
Theorem jump_lands s a l ty sc lc lp s1 a1 os s2 a2 t o os' s3 a3 :
  run s a -> exec (OpJmp l ty sc lc lp) s = Done s1 tt -> shistory s a [OpJmp l ty sc lc lp] s1 a1 -> tid_of a l = Some t ->
  shistory s1 a1 os s2 a2 -> no_reset os -> sp_defs a2 t = Some o ->
  shistory s2 a2 os' s3 a3 -> no_reset os' -> finished s3 a3 ->
  let n := jsize (c_size (g_code s)) (c_size (g_code s1)) in
  branch_target (g_code s3) (c_size (g_code s1) - n) n = w64 (c_top (g_code s3) + o).
Proof.
  intros HR Hex Hsh Ht Hos Hnr Hd Hos' Hnr' Hf n.
  pose proof (run_more _ _ _ _ _ HR Hsh) as R1. pose proof (run_more _ _ _ _ _ R1 Hos) as R2. pose proof (run_more _ _ _ _ _ R2 Hos') as R3.
  assert (exists r, In r (sp_refs a1) /\ r_pos r = c_size (g_code s1) - n /\ r_size r = n /\ r_tid r = Some t /\ r_rel r = true /\ r_d r = 0) as (r & Hr & E1 & E2 & E3 & E4 & E5).
  { inversion Hsh as [|? ? ? s1' a1' ? ? ? L1 L2 L3 L4 L5|? ? ? e s1' a1' ? ? ? L1 L2 L3 L4 L5]; subst; [|congruence].
    assert (s1' = s1) by congruence. subst s1'. inversion L5; subst. cbn [spec_step] in L4.
    destruct (_ && _); [discriminate|]. rewrite tid_of_touch, Ht in L4. destruct (_ <=? maxCode); [|discriminate].
    match type of L4 with Some ?x = _ => assert (a1 = x) as -> by congruence end. apply addBranch_in. }
  pose proof (history_kept os s1 a1 s2 a2 (run_inv _ _ R1) Hos Hnr) as K.
  destruct (ref_resolved a1 a2 r t o K (run_SI _ _ R2) Hr E3 Hd) as (r' & Hr' & (S1 & S2 & S3 & S4 & S5) & Hv).
  pose proof (history_resolved _ _ _ _ _ _ _ Hos' Hnr' Hr' Hv) as Hr3.
  pose proof (rel_target s3 a3 r' t o (run_inv _ _ R3) Hf Hr3 ltac:(congruence) ltac:(congruence) Hv) as T.
  rewrite S1, S2, S5, E1, E2, E5, Z.add_0_r in T. exact T.
Qed.
Theorem field_lands s a m s1 a1 pre l (rel : bool) d post r os s2 a2 t o os' s3 a3 :
  run s a -> exec (OpEmit m) s = Done s1 tt -> shistory s a [OpEmit m] s1 a1 ->
  m (env_of s) (c_size (g_code s)) = (map IDb pre ++ IPutL l rel d :: post, r) -> tid_of a l = Some t ->
  shistory s1 a1 os s2 a2 -> no_reset os -> sp_defs a2 t = Some o ->
  shistory s2 a2 os' s3 a3 -> no_reset os' -> finished s3 a3 ->
  let p := c_size (g_code s) + Z.of_nat (List.length pre) in
  if rel then branch_target (g_code s3) p 4 = w64 (c_top (g_code s3) + o + d)
  else read_u64 (g_code s3) p = w64 (c_top (g_code s3) + o).
Proof.
  intros HR Hex Hsh Hm Ht Hos Hnr Hd Hos' Hnr' Hf p.
  pose proof (run_more _ _ _ _ _ HR Hsh) as R1. pose proof (run_more _ _ _ _ _ R1 Hos) as R2. pose proof (run_more _ _ _ _ _ R2 Hos') as R3.
  destruct (emit_ref s a m s1 a1 pre l rel d post r t (run_inv _ _ HR) Hex Hsh Hm Ht) as (v & Hr). fold p in Hr.
  pose proof (history_kept os s1 a1 s2 a2 (run_inv _ _ R1) Hos Hnr) as K.
  destruct (ref_resolved a1 a2 _ t o K (run_SI _ _ R2) Hr eq_refl Hd) as (r' & Hr' & (S1 & S2 & S3 & S4 & S5) & Hv).
  cbn [r_pos r_size r_tid r_rel r_d] in *.
  pose proof (history_resolved _ _ _ _ _ _ _ Hos' Hnr' Hr' Hv) as Hr3.
  destruct rel.
  - pose proof (rel_target s3 a3 r' t o (run_inv _ _ R3) Hf Hr3 S3 S4 Hv) as T. rewrite S1, S2, S5 in T. exact T.
  - pose proof (abs_value s3 a3 r' t o (run_inv _ _ R3) Hf Hr3 S3 S4 Hv) as T. rewrite S1 in T. exact T.
Qed.

(* ---- what L() and assignL() do to the table ---- *)
Definition ltid (a : Spec) (l : LabelRef) : option TId :=
  match l with LStr k => if String.eqb k "@@" then Some (TAnon (S (sp_anon a))) else tid_of a l | LObj _ => tid_of a l end.
Lemma L_defines s a l s1 a1 t : exec (OpL l) s = Done s1 tt -> shistory s a [OpL l] s1 a1 -> ltid a l = Some t ->
  sp_defs a1 t = Some (c_size (g_code s)).
Proof.
  intros Hex Hsh Ht.
  inversion Hsh as [|? ? ? s1' a1' ? ? ? L1 L2 L3 L4 L5|? ? ? e s1' a1' ? ? ? L1 L2 L3 L4 L5]; subst; [|congruence].
  assert (s1' = s1) by congruence. subst s1'. inversion L5; subst. cbn [spec_step] in L4. destruct (_ && _); [discriminate|].
  destruct l as [k|h]; cbn [ltid] in Ht.
  - destruct (String.eqb k "@@").
    + match type of L4 with Some ?y = _ => assert (a1 = y) as -> by congruence end. assert (t = TAnon (S (sp_anon a))) as -> by congruence. apply updT_same.
    + change (touch a (LStr k)) with a in L4. rewrite Ht in L4. match type of L4 with Some ?y = _ => assert (a1 = y) as -> by congruence end. apply updT_same.
  - rewrite tid_of_touch, Ht in L4. match type of L4 with Some ?y = _ => assert (a1 = y) as -> by congruence end. apply updT_same.
Qed.
Lemma assign_defines s a d s0 s1 a1 i j o : exec (OpAssign d s0) s = Done s1 tt -> shistory s a [OpAssign d s0] s1 a1 ->
  labOf a d = Some i -> labOf a s0 = Some j -> sp_defs a (TObj j) = Some o -> sp_defs a1 (TObj i) = Some o.
Proof.
  intros Hex Hsh Hi Hj Ho.
  inversion Hsh as [|? ? ? s1' a1' ? ? ? L1 L2 L3 L4 L5|? ? ? e s1' a1' ? ? ? L1 L2 L3 L4 L5]; subst; [|congruence].
  assert (s1' = s1) by congruence. subst s1'. inversion L5; subst. cbn [spec_step] in L4. destruct (_ && _); [discriminate|].
  rewrite Hi, Hj, Ho in L4. match type of L4 with (if ?b then _ else _) = _ => destruct b; [|discriminate] end.
  match type of L4 with Some ?y = _ => assert (a1 = y) as -> by congruence end. apply updT_same.
Qed.

(* ---- programs ---- *)
Lemma no_reset_app os os' : no_reset os -> no_reset os' -> no_reset (os ++ os').
Proof. unfold no_reset. intros H1 H2 H. apply in_app_or in H as [H|H]; auto. Qed.
Lemma no_reset1 o : o <> OpReset -> no_reset [o].
Proof. intros H [E|[]]. auto. Qed.
(* jmp label; ...; L(label); ... *)
Theorem forward_jump s a l ty sc lc lp s1 a1 os s2 a2 l' s3 a3 os' s4 a4 t :
  run s a -> exec (OpJmp l ty sc lc lp) s = Done s1 tt -> shistory s a [OpJmp l ty sc lc lp] s1 a1 -> tid_of a l = Some t ->
  shistory s1 a1 os s2 a2 -> no_reset os ->
  exec (OpL l') s2 = Done s3 tt -> shistory s2 a2 [OpL l'] s3 a3 -> ltid a2 l' = Some t ->
  shistory s3 a3 os' s4 a4 -> no_reset os' -> finished s4 a4 ->
  let n := jsize (c_size (g_code s)) (c_size (g_code s1)) in
  branch_target (g_code s4) (c_size (g_code s1) - n) n = w64 (c_top (g_code s4) + c_size (g_code s2)).
Proof.
  intros HR Hex Hsh Ht Hos Hnr HexL HshL Ht' Hos' Hnr' Hf.
  eapply (jump_lands s a l ty sc lc lp s1 a1 (os ++ [OpL l']) s3 a3 t); eauto.
  - eapply shist_app; eauto.
  - apply no_reset_app; auto. apply no_reset1. discriminate.
  - eapply L_defines; eauto.
Qed.
(* L(label); ...; jmp label; ... where the label is still alive at the jump *)
Theorem backward_jump s a l' s1 a1 os s2 a2 l ty sc lc lp s3 a3 os' s4 a4 t :
  run s a -> exec (OpL l') s = Done s1 tt -> shistory s a [OpL l'] s1 a1 -> ltid a l' = Some t ->
  shistory s1 a1 os s2 a2 -> no_reset os ->
  exec (OpJmp l ty sc lc lp) s2 = Done s3 tt -> shistory s2 a2 [OpJmp l ty sc lc lp] s3 a3 -> tid_of a2 l = Some t ->
  shistory s3 a3 os' s4 a4 -> no_reset os' -> finished s4 a4 ->
  let n := jsize (c_size (g_code s2)) (c_size (g_code s3)) in
  branch_target (g_code s4) (c_size (g_code s3) - n) n = w64 (c_top (g_code s4) + c_size (g_code s)).
Proof.
  intros HR Hex Hsh Ht Hos Hnr HexJ HshJ Ht' Hos' Hnr' Hf.
  pose proof (run_more _ _ _ _ _ HR Hsh) as R1. pose proof (run_more _ _ _ _ _ R1 Hos) as R2. pose proof (run_more _ _ _ _ _ R2 HshJ) as R3.
  pose proof (L_defines _ _ _ _ _ _ Hex Hsh Ht) as Hd.
  pose proof (history_kept os s1 a1 s2 a2 (run_inv _ _ R1) Hos Hnr) as K.
  destruct (kp_def _ _ K _ _ Hd) as [Hd2|(i & -> & Hg & _)].
  - eapply (jump_lands s2 a2 l ty sc lc lp s3 a3 [] s3 a3 t); eauto; [constructor|intros []|].
    pose proof (history_kept _ s2 a2 s3 a3 (run_inv _ _ R2) HshJ ltac:(apply no_reset1; discriminate)) as K2.
    destruct (kp_def _ _ K2 _ _ Hd2) as [|(i & -> & Hg & _)]; auto. exfalso.
    destruct l as [k|h]; [now apply tid_str_noobj in Ht'|]. cbn [tid_of] in Ht'. destruct (labOf a2 h) as [i'|] eqn:Hh; [|discriminate]. cbn in Ht'. inversion Ht'; subst i'.
    apply (Hg h). inversion HshJ as [|? ? ? s1' a1' ? ? ? L1 L2 L3 L4 L5|? ? ? e s1' a1' ? ? ? L1 L2 L3 L4 L5]; subst; [|congruence].
    inversion L5; subst. cbn [spec_step] in L4. destruct (_ && _); [discriminate|]. destruct (tid_of _ _); [|discriminate]. destruct (_ <=? maxCode); [|discriminate].
    match type of L4 with Some ?y = _ => assert (a3 = y) as -> by congruence end. unfold addBranch. destruct (_ =? 2); change (labOf (touch a2 (LObj h)) h = Some i); now rewrite labOf_touch.
  - exfalso. destruct l as [k|h]; [now apply tid_str_noobj in Ht'|]. cbn [tid_of] in Ht'. destruct (labOf a2 h) as [i'|] eqn:Hh; [|discriminate].
    cbn in Ht'. inversion Ht'; subst i'. now apply Hg in Hh.
Qed.
(* jmp dst; ...; assignL(dst, src); ... *)
Theorem assigned_jump s a l ty sc lc lp s1 a1 os s2 a2 d s0 i j o s3 a3 os' s4 a4 :
  run s a -> exec (OpJmp l ty sc lc lp) s = Done s1 tt -> shistory s a [OpJmp l ty sc lc lp] s1 a1 -> tid_of a l = Some (TObj i) ->
  shistory s1 a1 os s2 a2 -> no_reset os ->
  exec (OpAssign d s0) s2 = Done s3 tt -> shistory s2 a2 [OpAssign d s0] s3 a3 ->
  labOf a2 d = Some i -> labOf a2 s0 = Some j -> sp_defs a2 (TObj j) = Some o ->
  shistory s3 a3 os' s4 a4 -> no_reset os' -> finished s4 a4 ->
  let n := jsize (c_size (g_code s)) (c_size (g_code s1)) in
  branch_target (g_code s4) (c_size (g_code s1) - n) n = w64 (c_top (g_code s4) + o).
Proof.
  intros HR Hex Hsh Ht Hos Hnr HexA HshA Hi Hj Ho Hos' Hnr' Hf.
  eapply (jump_lands s a l ty sc lc lp s1 a1 (os ++ [OpAssign d s0]) s3 a3 (TObj i)); eauto.
  - eapply shist_app; eauto.
  - apply no_reset_app; auto. apply no_reset1. discriminate.
  - eapply assign_defines; eauto.
Qed.

(* ---- "@@" ---- *)
Definition no_at (os : list op) : Prop := ~ In (OpL (LStr "@@"%string)) os.
Lemma anon_touch a l : sp_anon (touch a l) = sp_anon a.
Proof. destruct l as [k|h]; auto. unfold touch. now destruct (labOf a h). Qed.
Lemma anon_step o a e env p q a1 : o <> OpReset -> o <> OpL (LStr "@@"%string) -> spec_step a o e env p q = Some a1 -> sp_anon a1 = sp_anon a.
Proof.
  intros Hn Hn2 Hs.
  assert (forall its b, sp_anon (touch_items b its) = sp_anon b) as HT.
  { induction its as [|[b|l rel d|x] its IH]; intros b0; cbn [touch_items]; auto. rewrite IH. apply anon_touch. }
  assert (forall its b p q, sp_anon (spec_items b its p q) = sp_anon b) as HI.
  { induction its as [|[b|l rel d|x] its IH]; intros b0 p0 q0; cbn [spec_items]; auto.
    - destruct (p0 + 1 <=? q0); auto.
    - destruct (_ <=? q0); auto. destruct (tid_of b0 l); auto. now rewrite IH. }
  assert (forall b p q t d, sp_anon (addBranch b p q t d) = sp_anon b) as HB by (intros; unfold addBranch; destruct (_ =? 2); reflexivity).
  destruct o as [m|l ty sc lc lp|addr ty sc lc lp|l|d s0| | |h|d s0|d s0|h| | |b|en|en]; cbn [spec_step] in Hs.
  - destruct (_ && _); [discriminate|]. destruct (m _ _) as [its x]. match type of Hs with Some ?y = _ => assert (a1 = y) as -> by congruence end. now rewrite HI, HT.
  - destruct (_ && _); [discriminate|]. destruct e; [assert (a1 = touch a l) as -> by congruence; apply anon_touch|].
    destruct (tid_of _ l); [|discriminate]. destruct (_ <=? maxCode); [|discriminate].
    match type of Hs with Some ?y = _ => assert (a1 = y) as -> by congruence end. rewrite HB. apply anon_touch.
  - destruct (_ && _); [discriminate|]. destruct e; match type of Hs with Some ?y = _ => assert (a1 = y) as -> by congruence end; auto.
  - destruct (_ && _); [discriminate|]. destruct e as [x|]; [assert (a1 = touch a l) as -> by (destruct x; congruence); apply anon_touch|].
    destruct l as [k|h].
    + destruct (String.eqb k "@@") eqn:E; [apply String.eqb_eq in E; subst; congruence|]. destruct (tid_of _ _); [|discriminate].
      match type of Hs with Some ?y = _ => assert (a1 = y) as -> by congruence end. reflexivity.
    + destruct (tid_of _ _); [|discriminate]. match type of Hs with Some ?y = _ => assert (a1 = y) as -> by congruence end.
      change (sp_anon (touch a (LObj h)) = sp_anon a). apply anon_touch.
  - destruct (_ && _); [discriminate|]. destruct e as [x|]; [assert (a1 = a) as -> by (destruct x; congruence); auto|].
    destruct (labOf a d); [|discriminate]. destruct (labOf a s0); [|discriminate]. destruct (sp_defs a _); [|discriminate].
    match type of Hs with (if ?b then _ else _) = _ => destruct b; [|discriminate] end.
    match type of Hs with Some ?y = _ => assert (a1 = y) as -> by congruence end. reflexivity.
  - inversion Hs; subst; auto.
  - destruct e; inversion Hs; subst; auto.
  - inversion Hs; subst; auto.
  - destruct (labOf a s0); [|discriminate]. destruct (isDef a i); inversion Hs; subst; auto.
  - destruct e; [inversion Hs; subst; auto|]. destruct (labOf a s0); [|discriminate]. destruct (isDef a i); inversion Hs; subst; auto.
  - destruct (labOf a h); [|discriminate]. destruct (countId _ _); inversion Hs; subst; auto.
  - congruence.
  - destruct e as [x|]; [destruct x|]; inversion Hs; subst; auto.
  - inversion Hs; subst; auto.
  - inversion Hs; subst; auto.
  - inversion Hs; subst; auto.
Qed.
Lemma anon_history os s a s' a' : shistory s a os s' a' -> no_reset os -> no_at os -> sp_anon a' = sp_anon a.
Proof.
  induction 1 as [s a|s a o s1 a1 os s2 a2 Hl Hid He Hs Hh IH|s a o e s1 a1 os s2 a2 Hl Hid He Hs Hh IH]; intros Hnr Hna; auto.
  - rewrite IH; [|intros X; apply Hnr; now right|intros X; apply Hna; now right].
    eapply anon_step; eauto; [intros ->; apply Hnr; now left|intros ->; apply Hna; now left].
  - rewrite IH; [|intros X; apply Hnr; now right|intros X; apply Hna; now right].
    eapply anon_step; eauto; [intros ->; apply Hnr; now left|intros ->; apply Hna; now left].
Qed.
Definition AT : LabelRef := LStr "@@"%string.
Theorem jump_f s a ty sc lc lp s1 a1 os s2 a2 s3 a3 os' s4 a4 :
  run s a -> exec (OpJmp (LStr "@f"%string) ty sc lc lp) s = Done s1 tt -> shistory s a [OpJmp (LStr "@f"%string) ty sc lc lp] s1 a1 ->
  shistory s1 a1 os s2 a2 -> no_reset os -> no_at os ->
  exec (OpL AT) s2 = Done s3 tt -> shistory s2 a2 [OpL AT] s3 a3 ->
  shistory s3 a3 os' s4 a4 -> no_reset os' -> finished s4 a4 ->
  let n := jsize (c_size (g_code s)) (c_size (g_code s1)) in
  branch_target (g_code s4) (c_size (g_code s1) - n) n = w64 (c_top (g_code s4) + c_size (g_code s2)).
Proof.
  intros HR Hex Hsh Hos Hnr Hna HexL HshL Hos' Hnr' Hf.
  eapply (forward_jump s a (LStr "@f"%string) ty sc lc lp s1 a1 os s2 a2 AT s3 a3); eauto; [reflexivity|].
  cbn [ltid AT]. cbn. do 2 f_equal. f_equal. rewrite (anon_history _ _ _ _ _ Hos Hnr Hna). eapply (anon_history _ _ _ _ _ Hsh).
  - apply no_reset1. discriminate.
  - intros [X|[]]; discriminate.
Qed.
Theorem jump_b s a s1 a1 os s2 a2 ty sc lc lp s3 a3 os' s4 a4 :
  run s a -> exec (OpL AT) s = Done s1 tt -> shistory s a [OpL AT] s1 a1 ->
  shistory s1 a1 os s2 a2 -> no_reset os -> no_at os ->
  exec (OpJmp (LStr "@b"%string) ty sc lc lp) s2 = Done s3 tt -> shistory s2 a2 [OpJmp (LStr "@b"%string) ty sc lc lp] s3 a3 ->
  shistory s3 a3 os' s4 a4 -> no_reset os' -> finished s4 a4 ->
  let n := jsize (c_size (g_code s2)) (c_size (g_code s3)) in
  branch_target (g_code s4) (c_size (g_code s3) - n) n = w64 (c_top (g_code s4) + c_size (g_code s)).
Proof.
  intros HR Hex Hsh Hos Hnr Hna HexJ HshJ Hos' Hnr' Hf.
  assert (sp_anon a1 = S (sp_anon a)) as E.
  { inversion Hsh as [|? ? ? s1' a1' ? ? ? L1 L2 L3 L4 L5|? ? ? e s1' a1' ? ? ? L1 L2 L3 L4 L5]; subst; [|congruence].
    inversion L5; subst. cbn [spec_step] in L4. destruct (_ && _); [discriminate|]. cbn in L4. inversion L4; subst. reflexivity. }
  eapply (backward_jump s a AT s1 a1 os s2 a2 (LStr "@b"%string)); eauto; [reflexivity|].
  cbn. rewrite (anon_history _ _ _ _ _ Hos Hnr Hna), E. reflexivity.
Qed.
(* "@b" with no "@@" before it *)
Theorem jump_b_none s a ty sc lc lp : run s a -> isAutoGrowC (g_code s) && sp_ready a = false -> sp_anon a = O -> ty <> T_FAR ->
  match exec (OpJmp (LStr "@b"%string) ty sc lc lp) s with
  | Done _ _ => False | Thrown s1 e => (bufErr e \/ e = ERR_LABEL_IS_NOT_FOUND) /\ c_size (g_code s1) = c_size (g_code s) | UB => False end.
Proof.
  intros HR Hf H0 Hty. pose proof (run_inv _ _ HR) as HI. pose proof HI as (Hok & _). cbn [exec]. unfold opJmp, fnS.
  destruct (LabelType_beq ty T_FAR) eqn:E; [destruct ty; discriminate || congruence|]. clear E.
  unfold mbind at 1. pose proof (growIf_inv s a HI Hf) as H1. pose proof (errs_growIf s Hok) as X1. pose proof (wp_growIfNearFull s Hok) as X2. unfold wp in H1, X2.
  destruct (growIfNearFull s) as [s1 []|s1 e|]; [| |contradiction].
  - destruct H1 as (HI1 & Hs1 & _). pose proof HI1 as ((Hn1 & _) & g & gid & bnd & HI0). destruct HI0, iv_name.
    assert (forall k, sIn k (ss_def (lm_front (g_lm s1))) = match assoc String.eqb k (ss_def (lm_front (g_lm s1))) with Some _ => true | None => false end) as HS by reflexivity.
    rewrite H0 in *. cbn in ni_f, ni_b.
    assert (sp_defs a (TAnon 0) = None) as Hz. { destruct (sp_defs a (TAnon 0)) eqn:Ez; auto. exfalso. assert (1 <= 0 <= 0)%nat; [|lia]. apply ni_anon. congruence. }
    unfold mbind at 1. cbn [getOffsetL]. unfold mbind at 1, getOffsetS, fnS, mbind, get. cbn [String.eqb]. 
    rewrite !HS, ni_f, ni_b, Hz. cbn. rewrite Hn1. cbn. rewrite Hn1. auto.
  - destruct H1 as ((Hn1 & _) & _). rewrite Hn1. split; auto. destruct X2 as (c' & -> & _ & _ & Hs). exact Hs.
Qed.

(* ---- the bytes of a branch ---- *)
Lemma branch_bytes l ty sc lc lp s a t s1 :
  run s a -> isAutoGrowC (g_code s) && sp_ready a = false -> alive_ref a l -> lm_nextId (g_lm s) < 2147483647 ->
  tid_of a l = Some t -> c_size (g_code s) <= maxCode ->
  opJmp l ty sc lc lp s = Done s1 tt ->
  let short := takes_short (sp_defs a t) (g_jmpNear s) ty (c_size (g_code s)) in
  c_size (g_code s1) = c_size (g_code s) + (if short then 2 else if lp =? 0 then 5 else 6)
  /\ mem_has (c_mem (g_code s1)) (c_size (g_code s)) (if short then [w8 sc] else if lp =? 0 then [w8 lc] else [w8 lp; w8 lc]).
Proof.
  intros HR Hf Ha Hn Ht Hm Hex short. pose proof (appends_opJmp l ty sc lc lp s a t (run_inv _ _ HR) Hf Ha Hn Ht Hm) as H.
  unfold appends in H. rewrite Hex in H. destruct H as (H & _). unfold jmp_pat in H. fold short in H.
  unfold apps, short_pat, long_pat in H. destruct short; [|destruct (lp =? 0)]; cbn in H; cbn; intuition lia.
Qed.

(* ---- definitions ---- *)
Lemma L_reserved s a k : run s a -> k = "@b"%string \/ k = "@f"%string -> exec (OpL (LStr k)) s = Thrown s ERR_BAD_LABEL_STR.
Proof.
  intros HR Hk. destruct (run_inv _ _ HR) as ((Hn & _) & _). cbn [exec]. unfold defineSlabel, fnS.
  destruct Hk as [-> | ->]; cbn; now rewrite Hn.
Qed.
Lemma def_stays s a l s1 a1 t os s2 a2 : run s a -> exec (OpL l) s = Done s1 tt -> shistory s a [OpL l] s1 a1 -> ltid a l = Some t ->
  shistory s1 a1 os s2 a2 -> no_reset os ->
  sp_defs a2 t = Some (c_size (g_code s)) \/ (exists h, l = LObj h) /\ gone a2 t.
Proof.
  intros HR Hex Hsh Ht Hos Hnr. pose proof (run_more _ _ _ _ _ HR Hsh) as R1.
  pose proof (history_kept os s1 a1 s2 a2 (run_inv _ _ R1) Hos Hnr) as K.
  destruct (kp_def _ _ K _ _ (L_defines _ _ _ _ _ _ Hex Hsh Ht)) as [H|H]; auto. right. split; auto.
  destruct l as [k|h]; eauto. exfalso. destruct H as (i & -> & _). cbn [ltid] in Ht. destruct (String.eqb k "@@"); [discriminate|]. now apply tid_str_noobj in Ht.
Qed.

(* ---- local scopes ---- *)
Lemma local_name a k : isLocalStr k = true -> tid_of a (LStr k) = Some (TLocal (hd O (sp_scopes a)) k).
Proof.
  intros H. cbn [tid_of]. destruct (String.eqb k "@b") eqn:E; [apply String.eqb_eq in E; subst; discriminate|].
  destruct (String.eqb k "@f") eqn:E2; [apply String.eqb_eq in E2; subst; discriminate|]. now rewrite H.
Qed.
Lemma global_name a k : isLocalStr k = false -> k <> "@b"%string -> k <> "@f"%string -> tid_of a (LStr k) = Some (TGlobal k).
Proof. intros H H1 H2. cbn [tid_of]. apply String.eqb_neq in H1, H2. now rewrite H1, H2, H. Qed.
Lemma inLocal_fresh s a s1 a1 : run s a -> exec OpInLocal s = Done s1 tt -> shistory s a [OpInLocal] s1 a1 ->
  exists j, sp_scopes a1 = j :: sp_scopes a /\ ~ In j (sp_scopes a) /\ forall k, sp_defs a1 (TLocal j k) = None.
Proof.
  intros HR Hex Hsh. destruct (run_inv _ _ HR) as (_ & g & gid & bnd & HI). destruct HI, iv_name.
  inversion Hsh as [|? ? ? s1' a1' ? ? ? L1 L2 L3 L4 L5|? ? ? e s1' a1' ? ? ? L1 L2 L3 L4 L5]; subst; [|congruence].
  inversion L5; subst. cbn [spec_step] in L4. match type of L4 with Some ?y = _ => assert (a1 = y) as -> by congruence end.
  exists (sp_nscope a). split; [reflexivity|]. split.
  - rewrite Forall_forall in ni_lt. intros H. apply ni_lt in H. lia.
  - intros k. apply ni_new. auto.
Qed.

(* ---- copies ---- *)
Lemma step1 s a o s1 a1 : exec o s = Done s1 tt -> shistory s a [o] s1 a1 ->
  legal a o (env_of s) (c_size (g_code s)) /\ spec_step a o None (env_of s) (c_size (g_code s)) (c_size (g_code s1)) = Some a1.
Proof.
  intros Hex Hsh. inversion Hsh as [|? ? ? s1' a1' ? ? ? L1 L2 L3 L4 L5|? ? ? e s1' a1' ? ? ? L1 L2 L3 L4 L5]; subst; [|congruence].
  inversion L5; subst. auto.
Qed.
Lemma labOf_erase h h' l : h <> h' -> assoc Nat.eqb h' (erase Nat.eqb h l) = assoc (V:=ident) Nat.eqb h' l.
Proof. intros H. rewrite assoc_erase_if. destruct (Nat.eqb h' h) eqn:E; auto. apply Nat.eqb_eq in E. congruence. Qed.
Lemma copy_same s a d s0 s1 a1 : run s a -> exec (OpCopy d s0) s = Done s1 tt -> shistory s a [OpCopy d s0] s1 a1 ->
  tid_of a1 (LObj d) = tid_of a (LObj s0) /\ tid_of a1 (LObj s0) = tid_of a (LObj s0) /\ sp_defs a1 = sp_defs a
  /\ exists v, getAddress d s1 = Done s1 v /\ getAddress s0 s1 = Done s1 v.
Proof.
  intros HR Hex Hsh. pose proof (run_inv _ _ (run_more _ _ _ _ _ HR Hsh)) as I1. destruct (step1 _ _ _ _ _ Hex Hsh) as (Hl & Hs).
  cbn [spec_step] in Hs. destruct (labOf a s0) as [i|] eqn:Hi; [|discriminate]. destruct (isDef a i); [|discriminate].
  match type of Hs with Some ?y = _ => assert (a1 = y) as -> by congruence end. destruct Hl as (Hd & _).
  assert (d <> s0) as Hne by (intros ->; congruence).
  assert (labOf (set_lab a ((d, i) :: sp_lab a)) d = Some i) as H1. { unfold labOf. cbn. now rewrite Nat.eqb_refl. }
  assert (labOf (set_lab a ((d, i) :: sp_lab a)) s0 = Some i) as H2. { unfold labOf. cbn. destruct (Nat.eqb s0 d) eqn:E; [apply Nat.eqb_eq in E; congruence|]. exact Hi. }
  cbn [tid_of]. rewrite H1, H2, Hi. repeat (split; [reflexivity|]). eexists. split; eapply getAddress_exact; eauto.
Qed.
Lemma copyAssign_same s a d s0 s1 a1 : run s a -> exec (OpCopyAssign d s0) s = Done s1 tt -> shistory s a [OpCopyAssign d s0] s1 a1 -> d <> s0 ->
  tid_of a1 (LObj d) = tid_of a (LObj s0) /\ tid_of a1 (LObj s0) = tid_of a (LObj s0) /\ sp_defs a1 = sp_defs a
  /\ exists v, getAddress d s1 = Done s1 v /\ getAddress s0 s1 = Done s1 v.
Proof.
  intros HR Hex Hsh Hne. pose proof (run_inv _ _ (run_more _ _ _ _ _ HR Hsh)) as I1. destruct (step1 _ _ _ _ _ Hex Hsh) as (Hl & Hs).
  cbn [spec_step] in Hs. destruct (labOf a s0) as [i|] eqn:Hi; [|discriminate]. destruct (isDef a i); [|discriminate].
  match type of Hs with Some ?y = _ => assert (a1 = y) as -> by congruence end.
  assert (labOf (set_lab a ((d, i) :: erase Nat.eqb d (sp_lab a))) d = Some i) as H1. { unfold labOf. cbn. now rewrite Nat.eqb_refl. }
  assert (labOf (set_lab a ((d, i) :: erase Nat.eqb d (sp_lab a))) s0 = Some i) as H2.
  { unfold labOf. cbn. destruct (Nat.eqb s0 d) eqn:E; [apply Nat.eqb_eq in E; congruence|]. rewrite labOf_erase by auto. exact Hi. }
  cbn [tid_of]. rewrite H1, H2, Hi. repeat (split; [reflexivity|]). eexists. split; eapply getAddress_exact; eauto.
Qed.
Lemma lab_nodup s a : run s a -> NoDup (map fst (sp_lab a)).
Proof. intros HR. destruct (run_inv _ _ HR) as (_ & g & gid & bnd & HI). destruct HI, iv_obj. assumption. Qed.
Lemma destroy_one s a h h' i s1 a1 : run s a -> exec (OpDestroy h) s = Done s1 tt -> shistory s a [OpDestroy h] s1 a1 ->
  labOf a h = Some i -> h' <> h -> labOf a h' = Some i -> sp_defs a1 = sp_defs a /\ labOf a1 h' = Some i
  /\ getAddress h' s1 = Done s1 (match sp_defs a (TObj i) with
                           | Some o => if isAutoGrowC (g_code s1) && negb (sp_ready a) then 0 else w64 (c_top (g_code s1) + o)
                           | None => 0 end).
Proof.
  intros HR Hex Hsh Hi Hne Hi'. pose proof (run_inv _ _ (run_more _ _ _ _ _ HR Hsh)) as I1. destruct (step1 _ _ _ _ _ Hex Hsh) as (Hl & Hs).
  cbn [spec_step] in Hs. rewrite Hi in Hs.
  assert (labOf (set_lab a (erase Nat.eqb h (sp_lab a))) h' = Some i) as H1. { unfold labOf. cbn. rewrite labOf_erase by auto. exact Hi'. }
  pose proof (countId_pos _ _ _ H1) as Hc. cbn [sp_lab set_lab] in Hc. destruct (countId i (erase Nat.eqb h (sp_lab a))); [lia|].
  match type of Hs with Some ?y = _ => assert (a1 = y) as -> by congruence end.
  split; [reflexivity|]. split; [exact H1|]. exact (getAddress_exact _ _ _ _ I1 H1).
Qed.
Lemma destroy_last s a h i s1 a1 : run s a -> exec (OpDestroy h) s = Done s1 tt -> shistory s a [OpDestroy h] s1 a1 ->
  labOf a h = Some i -> (forall h', h' <> h -> labOf a h' <> Some i) -> sp_defs a1 (TObj i) = None.
Proof.
  intros HR Hex Hsh Hi Hall. destruct (step1 _ _ _ _ _ Hex Hsh) as (Hl & Hs). cbn [spec_step] in Hs. rewrite Hi in Hs.
  assert (countId i (erase Nat.eqb h (sp_lab a)) = O) as Hc.
  { unfold countId. match goal with |- List.length ?x = _ => destruct x as [|[h' j] l] eqn:E; [reflexivity|] end. exfalso.
    match type of E with ?x = _ => assert (In (h', j) x) as F by (rewrite E; now left) end.
    apply filter_In in F as [F1 F2]. cbn in F2. apply ident_eqb_ok in F2. subst j. unfold erase in F1. apply filter_In in F1 as [F1 F2]. cbn in F2.
    apply negb_true_iff, Nat.eqb_neq in F2. apply (Hall h'); auto. apply In_labOf; auto. eapply lab_nodup; eauto. }
  rewrite Hc in Hs. match type of Hs with Some ?y = _ => assert (a1 = y) as -> by congruence end. apply updT_same.
Qed.
