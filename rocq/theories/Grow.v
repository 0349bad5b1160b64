(* The same program run with an AutoGrow buffer and with a fixed buffer builds the same code. *)
From Coq Require Import ZArith List Bool String Arith Lia ZifyBool Permutation.
From Verif Require Import Base Types Emit EmitFacts Encode State Code Label Gen Wp CodeFacts Append SpecMem SpecLabel LabelFacts LabelInv LabelEmit LabelDefine LabelStep LabelStep2 LabelStep3 LabelReady LabelHist LabelThms LabelThms2 LabelThms3 LabelThms4 Stable LabelThms5.
Import ListNotations.
Open Scope Z_scope.

(* environments that differ only in the kind and address of the buffer *)
Definition same_env (e e' : Env) : Prop :=
  env_noexc e = env_noexc e' /\ env_jmpNear e = env_jmpNear e' /\ env_enc0 e = env_enc0 e' /\ env_enc1 e = env_enc1 e'.
(* an instruction whose bytes do not depend on where the buffer is *)
Definition relocatable {A} (m : E A) : Prop := forall e e' p, same_env e e' -> m e p = m e' p.
(* programs that mean the same in both modes: AutoGrow accepts only near branches to absolute
   addresses, so those must ask for T_NEAR *)
Definition portable (o : op) : Prop :=
  match o with OpEmit m => relocatable m | OpJmpAbs _ ty _ _ _ => ty = T_NEAR | _ => True end.

Definition tids_ok (a : Spec) (its : list item) : Prop :=
  Forall (fun i => match i with IPutL l _ _ => tid_of a l <> None | _ => True end) its.
Lemma exec_cons it its s s' : exec_items (it :: its) s = Done s' tt ->
  exists s1, exec_item it s = Done s1 tt /\ exec_items its s1 = Done s' tt.
Proof. cbn [exec_items]. unfold mbind. destruct (exec_item it s) as [s1 []|s1 e|]; try discriminate. intros H. exists s1. auto. Qed.
Lemma tids_addRef a p n t rel d its : tids_ok (addRef a p n t rel d) its -> tids_ok a its.
Proof. unfold tids_ok. intros H. eapply Forall_impl; [|exact H]. intros i Hi. destruct i; auto. Qed.
Lemma items_tids its : forall s a s',
  Inv s a -> isAutoGrowC (g_code s) && sp_ready a = false -> alive_items a its -> touched_items a its ->
  lm_nextId (g_lm s) + nput its <= 2147483647 -> exec_items its s = Done s' tt -> tids_ok a its.
Proof.
  induction its as [|it its IH]; intros s a s' HI Hnf Hal Hto Hid He; [constructor|].
  inversion Hal as [|? ? Hal1 Hal2]; subst. inversion Hto as [|? ? Hto1 Hto2]; subst. pose proof (nput_nonneg its) as Hnp.
  apply exec_cons in He as (s1 & E1 & E2). destruct it as [b|l rel d|e]; cbn [exec_item nput] in *.
  - constructor; auto. pose proof HI as (Hok & g & gid & bnd & HI0).
    destruct (wp_done _ _ _ _ _ _ (wp_dbM b s Hok) E1) as (c1 & -> & E & W & Hs & Hm).
    apply (IH _ a _) in E2; auto.
    + split; [apply ok_set_code; auto|]. exists g, gid, bnd. eapply Inv0_ext; eauto.
    + cbn [g_code set_code]. rewrite (ext_auto _ _ E). exact Hnf.
  - destruct (wp_done _ _ _ _ _ _ (wp_putL l rel d s a HI Hnf Hal1 Hto1 ltac:(lia)) E1) as (Hs & (Hc1 & Hc2) & Hnx & t & Ht & HI1).
    constructor; [congruence|]. apply (IH _ _ _ HI1) in E2; auto.
    + rewrite Hc1. exact Hnf.
    + lia.
  - constructor; auto. inversion E1; subst s1. apply (IH _ a) in E2; auto; unfold setError; destruct (g_err s); auto.
Qed.

Definition inField (a : Spec) (k : Z) : Prop := exists r, In r (sp_refs a) /\ in_field r k.
Fixpoint none_in (F : Z -> Prop) (i : Z) (p : pat) : Prop :=
  match p with [] => True | b :: p' => match b with None => F i | Some _ => True end /\ none_in F (i + 1) p' end.
Lemma none_in_app F p1 : forall i p2, none_in F i p1 -> none_in F (i + Z.of_nat (List.length p1)) p2 -> none_in F i (p1 ++ p2).
Proof.
  induction p1 as [|b p1 IH]; intros i p2 H1 H2; cbn [app none_in List.length] in *.
  - now rewrite Z.add_0_r in H2.
  - split; [apply H1|]. apply IH; [apply H1|]. now replace (i + 1 + Z.of_nat (List.length p1)) with (i + Z.of_nat (S (List.length p1))) by lia.
Qed.
Lemma none_in_rep (F : Z -> Prop) n : forall i, (forall k, i <= k < i + Z.of_nat n -> F k) -> none_in F i (repeat None n).
Proof.
  induction n as [|n IH]; intros i H; cbn [repeat none_in]; auto. split; [apply H; lia|]. apply IH. intros. apply H. lia.
Qed.
Lemma pat_agree (F : Z -> Prop) m m' p : forall i, mem_pat m i p -> mem_pat m' i p -> none_in F i p ->
  forall k, i <= k < i + Z.of_nat (List.length p) -> ~ F k -> m k = m' k.
Proof.
  induction p as [|b p IH]; intros i H1 H2 H3 k Hk Hf; cbn [List.length mem_pat none_in] in *; [lia|].
  destruct H1 as [H1 H1'], H2 as [H2 H2'], H3 as [H3 H3']. destruct (Z.eq_dec k i) as [->|].
  - destruct b; [congruence|contradiction].
  - apply (IH (i + 1)); auto. lia.
Qed.
Lemma inField_items its : forall a p q k, inField a k -> inField (spec_items a its p q) k.
Proof.
  induction its as [|[b|l rel d|e] its IH]; intros a p q k H; cbn [spec_items]; auto.
  - destruct (p + 1 <=? q); auto.
  - destruct (_ <=? q); auto. destruct (tid_of a l); auto. apply IH. destruct H as (r & H1 & H2). exists r. split; auto. now right.
Qed.
Lemma none_items its : forall a p q, tids_ok a its -> p + Z.of_nat (List.length (pat_items its)) <= q ->
  none_in (inField (spec_items a its p q)) p (pat_items its).
Proof.
  induction its as [|it its IH]; intros a p q Ht Hq; [exact I|]. inversion Ht as [|? ? Ht1 Ht2]; subst.
  change (pat_items (it :: its)) with (pat_item it ++ pat_items its) in *. rewrite app_length in Hq.
  destruct it as [b|l rel d|e]; cbn [pat_item spec_items] in *.
  - cbn [List.length] in Hq. replace (p + 1 <=? q) with true by lia. cbn [app none_in]. split; auto. apply IH; auto. lia.
  - rewrite repeat_length in Hq. assert (Z.of_nat (putSize rel) = if rel then 4 else 8) as Hn by (destruct rel; reflexivity).
    set (n := if rel then 4 else 8) in *. replace (p + n <=? q) with true by lia. destruct (tid_of a l) as [t|]; [|congruence].
    apply none_in_app.
    + apply none_in_rep. intros k Hk. apply inField_items. exists (mkRef p n (Some t) rel d (sp_defs a t)). split; [now left|].
      unfold in_field. cbn [r_pos r_size]. lia.
    + rewrite repeat_length, Hn. apply IH; [|lia]. unfold tids_ok. eapply Forall_impl; [|exact Ht2]. intros i Hi. destruct i; auto.
  - cbn [app]. apply IH; auto.
Qed.
Lemma tids_touch_items its : forall a its', tids_ok (touch_items a its') its <-> tids_ok a its.
Proof.
  intros a its'. revert a. induction its' as [|[b|l rel d|e] its' IH]; intros a; cbn [touch_items]; try reflexivity; auto.
  rewrite IH. unfold tids_ok. rewrite !Forall_forall. split; intros H i Hi; specialize (H i Hi); destruct i; auto; rewrite tid_of_touch in *; auto.
Qed.
Lemma none_branch a p q t d sc lc lp pt : pt = short_pat sc \/ pt = long_pat lp lc -> q = p + Z.of_nat (List.length pt) ->
  none_in (inField (addBranch a p q t d)) p pt.
Proof.
  intros [-> | ->] Hq.
  - cbn in Hq. unfold addBranch. replace (q - p =? 2) with true by lia. cbn [short_pat none_in]. split; auto. split; auto.
    eexists. split; [now left|]. unfold in_field. cbn. lia.
  - pose proof (long_len lp lc) as L. unfold long_pat in *. apply none_in_app.
    { destruct (lp =? 0); cbn; auto. }
    cbn [app none_in]. split; auto. unfold addBranch. rewrite !app_length, repeat_length in *.
    set (n := Z.of_nat (List.length (if lp =? 0 then [] else [Some (w8 lp)]))) in *. cbn [List.length] in *.
    replace (q - p =? 2) with false by (destruct (lp =? 0); cbn in *; lia).
    apply (none_in_rep _ 4). intros k Hk. eexists. split; [now left|]. unfold in_field. cbn [r_pos r_size]. lia.
Qed.

Record lock (s t : St) (a : Spec) : Prop := mkLock {
  lk_size : c_size (g_code s) = c_size (g_code t);
  lk_mem : forall k, 0 <= k < c_size (g_code s) -> ~ inField a k -> c_mem (g_code s) k = c_mem (g_code t) k;
  lk_near : g_jmpNear s = g_jmpNear t;
  lk_enc0 : g_enc0 s = g_enc0 t;
  lk_enc1 : g_enc1 s = g_enc1 t }.
Lemma kept_inField a a' k : kept a a' -> inField a k -> inField a' k.
Proof.
  intros K (r & Hr & Hf). destruct (kp_ref _ _ K r Hr) as (r' & Hr' & E1 & E2 & _). exists r'. split; auto. unfold in_field in *. now rewrite E1, E2.
Qed.
Lemma open_inField s a k : open_at s a k -> inField a k.
Proof. intros (r & H1 & _ & H2). exists r. auto. Qed.
Lemma lock_apps s t a a' s1 t1 p : code_wf (g_code s) -> lock s t a -> kept a a' -> none_in (inField a') (c_size (g_code s)) p ->
  apps (g_code s) (g_code s1) p -> apps (g_code t) (g_code t1) p -> keepcfg s s1 -> keepcfg t t1 -> lock s1 t1 a'.
Proof.
  intros W [] K Hn (G1 & S1 & M1) (G2 & S2 & M2) (_ & _ & A1 & A2 & A3) (_ & _ & B1 & B2 & B3).
  constructor; try congruence. intros k Hk Hf. destruct (Z_lt_le_dec k (c_size (g_code s))).
  - rewrite (gw_mem _ _ G1), (gw_mem _ _ G2) by lia. apply lk_mem0; [lia|]. intros X. apply Hf. eapply kept_inField; eauto.
  - rewrite <- lk_size0 in M2. eapply (pat_agree (inField a')); eauto. lia.
Qed.
Lemma lock_chg s t a a' s1 t1 : Inv s a -> lock s t a -> kept a a' ->
  chg (open_at s a) (g_code s) (g_code s1) -> chg (open_at t a) (g_code t) (g_code t1) -> keepcfg s s1 -> keepcfg t t1 -> lock s1 t1 a'.
Proof.
  intros HI [] K (_ & S1 & _ & _ & _ & M1) (_ & S2 & _ & _ & _ & M2) (_ & _ & A1 & A2 & A3) (_ & _ & B1 & B2 & B3).
  constructor; try congruence. intros k Hk Hf.
  assert (~ inField a k) as Hf' by (intros X; apply Hf; eapply kept_inField; eauto).
  rewrite M1, M2; [apply lk_mem0; auto; lia| |]; intros X; apply Hf'; eapply open_inField; eauto.
Qed.

(* the label table does not depend on the buffer *)
Lemma spec_step_indep o a e env env' p q a1 a2 : same_env env env' -> portable o ->
  spec_step a o e env p q = Some a1 -> spec_step a o e env' p q = Some a2 -> a2 = a1.
Proof.
  intros HE HP. destruct o as [m|l ty sc lc lp|addr ty sc lc lp|l|d s0| | |h|d s0|d s0|h| | |b|en|en]; cbn [spec_step portable] in *; try congruence.
  - destruct (_ && _); [discriminate|]. destruct (_ && _); [intros; destruct (m env p); discriminate|]. rewrite (HP env env' p HE). congruence.
  - destruct (_ && _); [discriminate|]. destruct (_ && _); [discriminate|]. congruence.
  - destruct (_ && _); [discriminate|]. destruct (_ && _); [discriminate|]. congruence.
  - destruct (_ && _); [discriminate|]. destruct (_ && _); [discriminate|]. congruence.
  - destruct (_ && _); [discriminate|]. destruct (_ && _); [discriminate|]. destruct e as [x|]; [congruence|].
    destruct (labOf a d); [|discriminate]. destruct (labOf a s0); [|discriminate]. destruct (sp_defs a _); [|discriminate].
    intros H1 H2. repeat match goal with H : (if ?b then _ else _) = _ |- _ => destruct b; try discriminate end. congruence.
Qed.

Lemma reset_keeps s a s' : Inv s a -> reset s = Done s' tt -> c_size (g_code s') = 0 /\ g_jmpNear s' = g_jmpNear s /\ g_enc0 s' = g_enc0 s /\ g_enc1 s' = g_enc1 s.
Proof.
  intros HI E.
  assert (wp reset s (fun s' _ => c_size (g_code s') = 0 /\ g_jmpNear s' = g_jmpNear s /\ g_enc0 s' = g_enc0 s /\ g_enc1 s' = g_enc1 s) (fun _ _ => False)) as W.
  { destruct HI as (_ & g & gid & bnd & HI). destruct HI, iv_obj. unfold reset, resetSize, with_code, lmReset, with_lm, resetLabelPtrList.
    apply wp_bind, wp_put, wp_bind, wp_put, wp_bind, wp_put, wp_bind, wp_get, wp_bind.
    cbn [g_lm set_lm set_code set_err lm_ptrs]. apply wp_clearAll.
    - intros h Hh. apply oi_ptrs in Hh as (i & H1 & _). specialize (oi_lab h). rewrite H1 in oi_lab. apply oi_lab.
    - intros lbl Hlbl. apply wp_put. cbn. auto. }
  eapply (wp_done _ _ _ _ _ _ W E).
Qed.

Lemma lock_step o s t a s1 t1 a1 b1 : Inv s a -> Inv t a -> lock s t a -> portable o ->
  legal a o (env_of s) (c_size (g_code s)) -> ids_left s o -> ids_left t o ->
  exec o s = Done s1 tt -> exec o t = Done t1 tt ->
  spec_step a o None (env_of s) (c_size (g_code s)) (c_size (g_code s1)) = Some a1 ->
  spec_step a o None (env_of t) (c_size (g_code t)) (c_size (g_code t1)) = Some b1 ->
  b1 = a1 /\ lock s1 t1 a1.
Proof.
  intros HI HJ HL HP Hleg Hids Hidt Es Et Ss St1.
  assert (same_env (env_of s) (env_of t)) as HE.
  { pose proof HL as []. destruct HI as ((N1 & _) & _), HJ as ((N2 & _) & _). unfold same_env, env_of. cbn. repeat split; congruence. }
  pose proof (lk_size _ _ _ HL) as Hsz. pose proof HI as ((Hn & W & Hb) & _).
  destruct (emits o) eqn:Hem; [|destruct (sets o) eqn:Hset].
  - assert (o <> OpReset) as Hnr by (intros ->; discriminate).
    assert (kept a a1) as K by (eapply (kept_step o s a None s1 a1); eauto).
    assert (exists p, none_in (inField a1) (c_size (g_code s)) p /\ appends (exec o) s p /\ appends (exec o) t p /\
      (c_size (g_code t1) = c_size (g_code s1) -> b1 = a1)) as (p & P1 & P2 & P3 & P4).
    { destruct o as [m|l ty sc lc lp|addr ty sc lc lp|l|d s0| | |h|d s0|d s0|h| | |b|en|en]; try discriminate; cbn [exec] in *.
      - cbn [portable legal] in *. unfold ids_left in *. cbn [mentions] in *.
        pose proof (HP _ _ (c_size (g_code s)) HE) as HM.
        pose proof (appends_runE m s (proj1 HI)) as A1. pose proof (appends_runE m t (proj1 HJ)) as A2. rewrite <- Hsz, <- HM in A2.
        exists (pat_items (fst (m (env_of s) (c_size (g_code s))))). split; [|split; [exact A1|split; [exact A2|]]].
        + pose proof A1 as A1'. unfold appends in A1'. rewrite Es in A1'. destruct A1' as ((_ & A1' & _) & _).
          cbn [spec_step] in Ss. destruct (_ && _) eqn:Hfz in Ss; [discriminate|].
          assert (tids_ok (touch_items a (fst (m (env_of s) (c_size (g_code s))))) (fst (m (env_of s) (c_size (g_code s))))) as HT.
          { unfold runE in Es. destruct (m (env_of s) (c_size (g_code s))) as [its r]. cbn [fst] in *. unfold mbind in Es.
            destruct (exec_items its s) as [s2 []|s2 e|] eqn:E2; try discriminate.
            eapply (items_tids its s); [| | | | |exact E2].
            - apply Inv_touch_items; auto.
            - rewrite ready_touch_items. exact Hfz.
            - unfold alive_items in *. eapply Forall_impl; [|exact Hleg]. intros i Hi. destruct i; auto. now apply alive_touch_items.
            - apply touched_touch_items.
            - exact Hids. }
          destruct (m (env_of s) (c_size (g_code s))) as [its r]. cbn [fst] in *. inversion Ss; subst a1. apply none_items; [exact HT|lia].
        + intros Eq. rewrite Eq, <- Hsz in St1. eapply (spec_step_indep (OpEmit m)); eauto.
      - cbn [spec_step] in Ss, St1. destruct (env_autoGrow (env_of s) && sp_ready a) eqn:Hf1; [discriminate|]. destruct (env_autoGrow (env_of t) && sp_ready a) eqn:Hf2; [discriminate|].
        rewrite tid_of_touch in Ss, St1. destruct (tid_of a l) as [tt0|] eqn:Ht; [|discriminate].
        destruct (_ <=? maxCode) eqn:Hm1; [|discriminate]. destruct (c_size (g_code t1) <=? maxCode) eqn:Hm2; [|discriminate].
        unfold ids_left in *. cbn [mentions legal] in *.
        destruct (jmp_size l ty sc lc lp s s1 (proj1 HI) Es). destruct (jmp_size l ty sc lc lp t t1 (proj1 HJ) Et).
        pose proof (appends_opJmp l ty sc lc lp s a tt0 HI Hf1 Hleg ltac:(lia) Ht ltac:(lia)) as A1.
        pose proof (appends_opJmp l ty sc lc lp t a tt0 HJ Hf2 Hleg ltac:(lia) Ht ltac:(lia)) as A2.
        rewrite <- Hsz, <- (lk_near _ _ _ HL) in A2.
        eexists. split; [|split; [exact A1|split; [exact A2|]]].
        + pose proof A1 as A1'. unfold appends in A1'. rewrite Es in A1'. destruct A1' as ((_ & A1' & _) & _).
          match type of Ss with Some ?x = _ => assert (a1 = x) as -> by congruence end.
          apply (none_branch _ _ _ _ _ sc lc lp); [|exact A1']. unfold jmp_pat. destruct (takes_short _ _ _ _); auto.
        + intros Eq. rewrite Eq, <- Hsz in St1. congruence.
      - cbn [portable] in HP. subst ty.
        destruct (appends_opJmpAbs addr T_NEAR sc lc lp s (proj1 HI)) as (p1 & _ & E1 & A1). rewrite (E1 (or_introl eq_refl)) in A1.
        destruct (appends_opJmpAbs addr T_NEAR sc lc lp t (proj1 HJ)) as (p2 & _ & E2 & A2). rewrite (E2 (or_introl eq_refl)) in A2.
        cbn [spec_step] in Ss, St1. destruct (env_autoGrow (env_of s) && sp_ready a); [discriminate|]. destruct (env_autoGrow (env_of t) && sp_ready a); [discriminate|].
        exists (long_pat lp lc). split; [|split; [exact A1|split; [exact A2|]]].
        + pose proof A1 as A1'. unfold appends in A1'. rewrite Es in A1'. destruct A1' as ((_ & A1' & _) & _).
          match type of Ss with Some ?x = _ => assert (a1 = x) as -> by congruence end.
          apply (none_branch _ _ _ _ _ sc lc lp); auto.
        + intros Eq. rewrite Eq, <- Hsz in St1. congruence. }
    unfold appends in P2, P3. rewrite Es in P2. rewrite Et in P3. destruct P2 as (P2 & _ & C2), P3 as (P3 & _ & C3).
    split.
    + apply P4. destruct P2 as (_ & E2 & _), P3 as (_ & E3 & _). lia.
    + eapply lock_apps; eauto.
  - assert (b1 = a1) as -> by (destruct o; try discriminate; cbn [spec_step] in *; congruence). split; auto.
    pose proof HL as [].
    destruct o; try discriminate; cbn [exec spec_step] in *; inversion Ss; subst a1.
    + unfold put in *. inversion Es; inversion Et; subst. constructor; cbn; auto.
    + assert (s1 = set_enc s e (g_enc1 s) /\ t1 = set_enc t e (g_enc1 t)) as [-> ->].
      { unfold setDefaultEncoding, fnS in *. destruct e; cbn in *; try (split; congruence); destruct HI as ((Hn1 & _) & _), HJ as ((Hn2 & _) & _); rewrite ?Hn1, ?Hn2 in *; discriminate. }
      constructor; cbn; auto.
    + assert (s1 = set_enc s (g_enc0 s) e /\ t1 = set_enc t (g_enc0 t) e) as [-> ->].
      { unfold setDefaultEncodingAVX10, fnS in *. destruct e; cbn in *; try (split; congruence); destruct HI as ((Hn1 & _) & _), HJ as ((Hn2 & _) & _); rewrite ?Hn1, ?Hn2 in *; discriminate. }
      constructor; cbn; auto.
  - destruct (match o with OpReset => true | _ => false end) eqn:Hr.
    + destruct o; try discriminate. clear Hr. cbn [exec] in *. destruct (reset_keeps _ _ _ HI Es) as (R1 & R2 & R3 & R4). destruct (reset_keeps _ _ _ HJ Et) as (R5 & R6 & R7 & R8).
      cbn [spec_step] in *. destruct (forallb _ _); [|discriminate]. split; [congruence|]. destruct HL. constructor; try congruence. intros k Hk. lia.
    + assert (o <> OpReset) as Hnr by (intros ->; discriminate).
      pose proof (exec_changes o s a HI Hem Hset Hnr) as C1. pose proof (exec_changes o t a HJ Hem Hset Hnr) as C2.
      unfold changes in C1, C2. rewrite Es in C1. rewrite Et in C2. destruct C1 as [C1 K1], C2 as [C2 K2].
      assert (kept a a1) as K by (eapply (kept_step o s a None s1 a1); eauto).
      split; [|eapply (lock_chg s t a a1 s1 t1); eauto].
      assert (c_size (g_code t1) = c_size (g_code s1)) as Eq by (destruct C1 as (_ & E1 & _), C2 as (_ & E2 & _); lia).
      rewrite Eq, <- Hsz in St1. eapply (spec_step_indep o a None (env_of s) (env_of t)); eauto.
Qed.

(* histories in which every call succeeds *)
Inductive shist_ok : St -> Spec -> list op -> St -> Spec -> Prop :=
| SO_nil s a : shist_ok s a [] s a
| SO_cons s a o s1 a1 os s2 a2 :
    legal a o (env_of s) (c_size (g_code s)) -> ids_left s o -> exec o s = Done s1 tt ->
    spec_step a o None (env_of s) (c_size (g_code s)) (c_size (g_code s1)) = Some a1 ->
    shist_ok s1 a1 os s2 a2 -> shist_ok s a (o :: os) s2 a2.
Lemma shist_ok_h s a os s' a' : shist_ok s a os s' a' -> shistory s a os s' a'.
Proof. induction 1; [constructor|]. eapply SH_done; eauto. Qed.

Lemma lock_history os : forall s t a s1 t1 a1 b1, Inv s a -> Inv t a -> lock s t a -> Forall portable os ->
  shist_ok s a os s1 a1 -> shist_ok t a os t1 b1 -> b1 = a1 /\ lock s1 t1 a1 /\ Inv s1 a1 /\ Inv t1 a1.
Proof.
  induction os as [|o os IH]; intros s t a s1 t1 a1 b1 HI HJ HL HP Hs Ht.
  - inversion Hs; inversion Ht; subst. auto.
  - inversion Hs as [|? ? ? s2 a2 ? ? ? L1 L2 L3 L4 L5]; subst. inversion Ht as [|? ? ? t2 b2 ? ? ? M1 M2 M3 M4 M5]; subst. inversion HP; subst.
    destruct (lock_step o s t a s2 t2 a2 b2) as [-> HL2]; auto.
    apply (IH s2 t2 a2); auto.
    + eapply (history_inv [o]); [exact HI|]. eapply SH_done; eauto. constructor.
    + eapply (history_inv [o]); [exact HJ|]. eapply SH_done; eauto. constructor.
Qed.

(* in the finished code: equal bytes, except absolute fields, which hold the same position relative
   to their own buffer *)
Lemma field_rel_agree s t a r o k : Inv s a -> Inv t a -> finished s a -> finished t a -> In r (sp_refs a) ->
  r_tid r <> None -> r_rel r = true -> r_val r = Some o -> in_field r k -> c_mem (g_code s) k = c_mem (g_code t) k.
Proof.
  intros HI HJ F1 F2 Hr Ht Hrel Hv Hk. destruct (field_of _ _ _ _ HI F1 Hr Hv) as (_ & _ & A). destruct (field_of _ _ _ _ HJ F2 Hr Hv) as (_ & _ & B).
  unfold field, want in A, B. destruct (r_tid r); [|congruence]. rewrite Hrel in A, B.
  set (bs := le_bytes (o + r_d r - (r_pos r + r_size r)) (Z.to_nat (r_size r))) in *.
  assert (Z.of_nat (List.length bs) = r_size r) as L by (unfold bs; rewrite le_bytes_length; unfold in_field in Hk; lia). clearbody bs.
  unfold in_field in Hk. rewrite <- L in Hk. revert A B Hk. generalize (r_pos r). clear. induction bs as [|b bs IH]; intros p A B Hk; cbn [mem_has List.length] in *; [lia|].
  destruct A as [A1 A2], B as [B1 B2]. destruct (Z.eq_dec k p) as [->|]; [congruence|]. apply (IH (p + 1)); auto. lia.
Qed.

(* ---- AutoGrow never reports a full buffer ---- *)
Definition nb {A} (m : M A) : Prop := forall s, ok_st s -> isAutoGrowC (g_code s) = true ->
  match m s with
  | Done s' _ => ok_st s' /\ isAutoGrowC (g_code s') = true
  | Thrown s' e => ok_st s' /\ e <> ERR_CODE_IS_TOO_BIG
  | UB => True end.
Lemma nb_app {A} (m : M A) : (forall s, ok_st s -> exists p, appends m s p) ->
  (forall s s' e, ok_st s -> isAutoGrowC (g_code s) = true -> m s = Thrown s' e -> e <> ERR_CODE_IS_TOO_BIG) -> nb m.
Proof.
  intros H1 H2 s Hok Ha. destruct (H1 s Hok) as (p & H). unfold appends in H. destruct (m s) as [s' a|s' e|] eqn:E; auto.
  - destruct H as ((G & _) & Hok' & _). split; auto. now rewrite (grew_auto _ _ G).
  - destruct H as (_ & Hok' & _). split; auto. exact (H2 s s' e Hok Ha E).
Qed.
Lemma nb_bind {A B} (m : M A) (k : A -> M B) : nb m -> (forall a, nb (k a)) -> nb (mbind m k).
Proof.
  intros Hm Hk s Hok Ha. specialize (Hm s Hok Ha). unfold mbind. destruct (m s) as [s1 a|s1 e|]; auto. destruct Hm. now apply Hk.
Qed.
Lemma nb_ret {A} (a : A) : nb (mret a).
Proof. intros s Hok Ha. cbn. auto. Qed.
Lemma nb_get {A} (f : St -> A) : nb (get f).
Proof. intros s Hok Ha. cbn. auto. Qed.
Lemma nb_throw {A} e : e <> ERR_CODE_IS_TOO_BIG -> nb (@mthrow A e).
Proof. intros H s Hok Ha. cbn. auto. Qed.
Lemma nb_fnS {A} (d : A) m : nb m -> nb (fnS d m).
Proof.
  intros H s Hok Ha. specialize (H s Hok Ha). unfold fnS. destruct (m s) as [s1 a|s1 e|] eqn:E; auto.
  destruct H as [Hok1 He]. pose proof Hok1 as (Hn & _). rewrite Hn. auto.
Qed.
Lemma nb_dbM b : nb (dbM b).
Proof.
  apply nb_app; [intros s Hok; eexists; now apply appends_dbM|]. intros s s' e Hok Ha E.
  destruct (wp_thrown _ _ _ _ _ _ (wp_dbM b s Hok) E) as (H & _). unfold db_err in H. rewrite Ha in H. subst. discriminate.
Qed.
Lemma nb_dbsM l : nb (dbsM l).
Proof. induction l; cbn [dbsM]; [apply nb_ret|]. apply nb_bind; auto using nb_dbM. Qed.
Lemma nb_dbnM v n : nb (dbnM v n).
Proof. unfold dbnM. apply nb_fnS. destruct (8 <? n); [apply nb_throw; discriminate|apply nb_dbsM]. Qed.
Lemma nb_grow : nb growMemory.
Proof.
  intros s Hok Ha. pose proof Hok as (Hn & W & Hb). pose proof (wp_growMemory s W Ha Hn Hb) as H. unfold wp in H.
  pose proof (appends_grow s Hok Ha) as A. unfold appends in A.
  destruct (growMemory s) as [s' []|s' e|]; auto.
  - destruct A as ((G & _) & Hok' & _). split; auto. now rewrite (grew_auto _ _ G).
  - destruct A as (_ & Hok' & _). split; auto. destruct H as (-> & _). discriminate.
Qed.
Lemma nb_growIf : nb growIfNearFull.
Proof. unfold growIfNearFull. apply nb_bind; auto using nb_get. intros c. destruct (_ && _); auto using nb_grow, nb_ret. Qed.
Lemma nb_verify x : nb (verifyInInt32M x).
Proof. unfold verifyInInt32M. apply nb_fnS. destruct (IsInInt32 x); [apply nb_ret|apply nb_throw; discriminate]. Qed.
Lemma nb_quiet f : (forall s, g_code (f s) = g_code s) -> (forall s, g_noexc (f s) = g_noexc s) -> (forall s, g_or (f s) = g_or s) -> nb (put f).
Proof. intros H1 H2 H3 s (A & B & C) Ha. cbn. unfold ok_st. rewrite H1, H2, H3. auto. Qed.
Lemma nb_save off v n m : nb (save off v n m).
Proof. apply nb_app; [intros s Hok; eexists; now apply appends_save|]. intros s s' e Hok Ha E. discriminate. Qed.
Lemma nb_labelOf h : nb (labelOf h).
Proof. intros s Hok Ha. unfold labelOf. destruct (l_alive _); auto. Qed.
Lemma nb_getIdM h : nb (getIdM h).
Proof.
  unfold getIdM. apply nb_bind; auto using nb_labelOf. intros o. destruct (l_id o =? 0); auto using nb_ret. apply nb_bind; auto using nb_get.
  intros n. destruct (n =? 2147483647); [intros s Hok Ha; exact I|]. apply nb_bind; [now apply nb_quiet|]. intros. apply nb_ret.
Qed.
Lemma nb_getOffsetL l : nb (getOffsetL l).
Proof.
  destruct l as [k|h]; cbn [getOffsetL].
  - apply nb_bind; [|intros [o k']; apply nb_ret]. unfold getOffsetS. apply nb_fnS, nb_bind; auto using nb_get. intros lm.
    apply nb_bind; [|intros; apply nb_ret]. repeat match goal with |- nb (if ?b then _ else _) => destruct b end; first [apply nb_ret|apply nb_throw; discriminate].
  - apply nb_bind; [|intros; apply nb_ret]. unfold getOffsetC. apply nb_bind; auto using nb_getIdM. intros. apply nb_bind; auto using nb_get. intros. apply nb_ret.
Qed.
Lemma nb_addUndefL l j : nb (addUndefL l j).
Proof.
  destruct l as [k|h]; cbn [addUndefL]; [now apply nb_quiet|]. unfold addUndefC. apply nb_bind; auto using nb_labelOf. intros. now apply nb_quiet.
Qed.
Lemma nb_putL l rel d : nb (putL_inner l rel d).
Proof.
  unfold putL_inner. apply nb_bind; auto using nb_growIf. intros _. apply nb_bind; auto using nb_getOffsetL. intros [o l'].
  apply nb_bind; auto using nb_get. intros c. destruct o as [off|].
  - destruct rel; [apply nb_bind; auto using nb_verify, nb_dbnM|]. destruct (isAutoGrowC c); auto using nb_dbnM.
    apply nb_bind; auto using nb_dbnM. intros _. apply nb_bind; auto using nb_get, nb_save.
  - apply nb_bind; auto using nb_dbnM. intros _. apply nb_bind; auto using nb_get, nb_addUndefL.
Qed.
Lemma nb_items l : nb (exec_items l).
Proof.
  induction l as [|i l IH]; cbn [exec_items]; [apply nb_ret|]. apply nb_bind; auto. destruct i; cbn [exec_item]; auto using nb_dbM, nb_putL.
  apply nb_quiet; intros s; unfold setError; destruct (g_err s); reflexivity.
Qed.
Lemma nb_runE m : (forall env p, snd (m env p) <> Err ERR_CODE_IS_TOO_BIG) -> nb (@runE unit m).
Proof.
  intros Hm s Hok Ha. unfold runE. specialize (Hm (env_of s) (c_size (g_code s))). destruct (m (env_of s) (c_size (g_code s))) as [its r]. cbn [snd] in Hm.
  apply (nb_bind (exec_items its)); auto using nb_items. intros _. destruct r; [apply nb_ret|]. apply nb_throw. congruence.
Qed.
Lemma nb_makeJmp d ty sc lc lp : nb (runE (makeJmp d ty sc lc lp)).
Proof.
  intros s Hok Ha. unfold runE. rewrite (makeJmp_items (env_of s)) by apply Hok.
  destruct (negb (LabelType_beq ty T_NEAR) && _); [|destruct (LabelType_beq ty T_SHORT)];
    (apply (nb_bind (exec_items _)); auto using nb_items); intros _; first [apply nb_ret|apply nb_throw; discriminate].
Qed.
Lemma nb_dbIf b : nb (dbIf b).
Proof. unfold dbIf. destruct (negb _); auto using nb_dbM, nb_ret. Qed.
Lemma nb_exec o : emits o = true -> (match o with OpEmit m => forall env p, snd (m env p) <> Err ERR_CODE_IS_TOO_BIG | _ => True end) -> nb (exec o).
Proof.
  intros He Hm. destruct o; try discriminate; cbn [exec].
  - now apply nb_runE.
  - unfold opJmp. apply nb_fnS. destruct (LabelType_beq _ T_FAR); [apply nb_throw; discriminate|].
    apply nb_bind; auto using nb_growIf. intros _. apply nb_bind; auto using nb_getOffsetL. intros [o l']. apply nb_bind; auto using nb_get. intros c.
    destruct o; [apply nb_bind; auto using nb_verify, nb_makeJmp|]. apply nb_bind; auto using nb_get. intros jn. apply nb_bind.
    + destruct (isNEAR jn _); repeat (apply nb_bind; [auto using nb_dbIf, nb_dbM, nb_dbnM|intros _]); apply nb_ret.
    + intros n. apply nb_bind; auto using nb_get, nb_addUndefL.
  - unfold opJmpAbs. apply nb_fnS. destruct (LabelType_beq _ T_FAR); [apply nb_throw; discriminate|]. apply nb_bind; auto using nb_get. intros c.
    destruct (isAutoGrowC c).
    + apply nb_bind; auto using nb_get. intros jn. destruct (negb _); [apply nb_throw; discriminate|]. apply nb_bind; [destruct (nearFull c); auto using nb_grow, nb_ret|].
      intros _. repeat (apply nb_bind; [auto using nb_dbIf, nb_dbM, nb_dbnM, nb_get|intros]). apply nb_save.
    + apply nb_bind; auto using nb_verify, nb_makeJmp.
Qed.

(* ---- instructions that are relocatable ---- *)
Lemma reloc_ret {A} (a : A) : relocatable (ret a).
Proof. intros e e' p H. reflexivity. Qed.
Lemma reloc_throw {A} x : relocatable (@throw A x).
Proof. intros e e' p H. reflexivity. Qed.
Lemma reloc_bind {A B} (m : E A) (f : A -> E B) : relocatable m -> (forall a, relocatable (f a)) -> relocatable (bind m f).
Proof.
  intros Hm Hf e e' p H. unfold bind. rewrite (Hm e e' p H). destruct (m e' p) as [l [a|x]]; auto. now rewrite (Hf a e e' _ H).
Qed.
Lemma reloc_fn {A} (d : A) m : relocatable m -> relocatable (fn d m).
Proof. intros Hm e e' p H. unfold fn. rewrite (Hm e e' p H). destruct H as (-> & _). reflexivity. Qed.
