(* The bytes of branches: short and near forms, errors, absolute targets. *)
From Coq Require Import ZArith List Bool String Arith Lia ZifyBool Permutation.
From Verif Require Import Base Types Emit EmitFacts Encode State Code Label Gen Wp CodeFacts Append SpecMem SpecLabel LabelFacts LabelInv LabelEmit LabelDefine LabelStep LabelStep2 LabelStep3 LabelReady LabelHist LabelThms LabelThms2 LabelThms3.
Import ListNotations.
Open Scope Z_scope.

(* in the range of a 1-byte displacement *)
Definition in8 (d : Z) : bool := (-128 <=? d) && (d <=? 127).
Lemma IsInDisp8_in8 x : -2147483648 <= x < 2147483648 -> IsInDisp8 (w32 x) = in8 x.
Proof.
  intros H. unfold IsInDisp8, in8. assert (w32 (w32 x) = w32 x) as -> by (unfold w32; now rewrite Z.mod_mod by lia).
  destruct (Z_lt_le_dec x 0).
  - rewrite (w32_eqm x (x + 4294967296) (-1)) by lia. unfold w32. rewrite Z.mod_small by lia. lia.
  - unfold w32. rewrite Z.mod_small by lia. lia.
Qed.

Lemma in8_back o p : 0 <= o <= p -> p <= 2147483392 -> IsInDisp8 (w32 (o - p - 2)) = in8 (o - (p + 2)).
Proof. intros H1 H2. rewrite IsInDisp8_in8 by lia. f_equal. lia. Qed.

(* the long form: optional prefix, opcode, 4-byte field *)
Definition long_pat (lp lc : Z) : pat :=
  (if lp =? 0 then [] else [Some (w8 lp)]) ++ [Some (w8 lc)] ++ repeat None 4.
Definition short_pat (sc : Z) : pat := [Some (w8 sc); None].
(* whether a branch at position p to a label takes the 2-byte form; [def]: the position of the
   label if it is already defined *)
Definition takes_short (def : option Z) (jmpNear : bool) (ty : LabelType) (p : Z) : bool :=
  match def with
  | Some o => negb (LabelType_beq ty T_NEAR) && in8 (o - (p + 2))
  | None => negb (isNEAR jmpNear ty)
  end.
Definition jmp_pat (def : option Z) (jmpNear : bool) (ty : LabelType) (p sc lc lp : Z) : pat :=
  if takes_short def jmpNear ty p then short_pat sc else long_pat lp lc.

Lemma long_weak lp lc v : pat_weak (map Some (map w8 (map w8 (longBytes lp lc v)))) (long_pat lp lc).
Proof.
  unfold longBytes, long_pat. rewrite !map_app, !map_w8_le. apply Forall2_app.
  - destruct (lp =? 0); cbn; [constructor|]. rewrite w8_idem. apply pat_weak_refl.
  - cbn [map app]. rewrite w8_idem. apply pat_weak_cons, pat_weak_none. now rewrite map_length, le_bytes_length.
Qed.
Lemma short_weak sc d : pat_weak (map Some (map w8 (map w8 [sc; d]))) (short_pat sc).
Proof. cbn [map]. rewrite !w8_idem. apply pat_weak_cons. constructor; auto. Qed.
Lemma appends_dbIf b s : ok_st s -> appends (dbIf b) s (if b =? 0 then [] else [Some (w8 b)]).
Proof. intros H. unfold dbIf. destruct (b =? 0); cbn [negb]; [now apply appends_ret|now apply appends_dbM]. Qed.
Lemma appends_long {A} lp lc v (k : M A) s :
  ok_st s -> (forall s', ok_st s' -> appends k s' []) ->
  appends (mbind (dbIf lp) (fun _ => mbind (dbM lc) (fun _ => mbind (dbnM v 4) (fun _ => k)))) s (long_pat lp lc).
Proof.
  intros Hok Hk. unfold long_pat. apply appends_bind; auto using appends_dbIf. intros s1 _ _ H1 _ _.
  apply appends_bind; auto using appends_dbM. intros s2 _ _ H2 _ _.
  rewrite <- (app_nil_r (repeat None 4)). apply appends_bind; auto.
  eapply appends_none; [apply (appends_dbnM v 4); auto; lia|]. now rewrite map_length, le_bytes_length.
Qed.

Lemma growIf_inv s a : Inv s a -> isAutoGrowC (g_code s) && sp_ready a = false ->
  wp growIfNearFull s
    (fun s' _ => Inv s' a /\ c_size (g_code s') = c_size (g_code s) /\ isAutoGrowC (g_code s') = isAutoGrowC (g_code s) /\ g_lm s' = g_lm s /\ g_jmpNear s' = g_jmpNear s)
    (fun s' _ => Inv s' a).
Proof.
  intros HI Hf. pose proof HI as (Hok & g & gid & bnd & HI0). eapply wp_mono; [now apply wp_growIfNearFull| |].
  - intros s' _ (c' & -> & E & W & Hs). cbn [g_code set_code g_lm g_jmpNear]. rewrite (ext_auto _ _ E). split; [|auto].
    split; [now apply ok_set_code|]. exists g, gid, bnd. eapply Inv0_ext; eauto.
  - intros s' _ (c' & -> & E & W & Hs). split; [now apply ok_set_code|]. exists g, gid, bnd. eapply Inv0_ext; eauto.
Qed.
Lemma getOffset_inv s a l : Inv s a -> alive_ref a l -> lm_nextId (g_lm s) < 2147483647 ->
  wp (getOffsetL l) s
    (fun s' x => exists t, tid_of a l = Some t /\ fst x = sp_defs a t /\ g_code s' = g_code s /\ g_jmpNear s' = g_jmpNear s)
    (fun s' _ => tid_of a l = None).
Proof.
  intros HI Hal Hid. apply (Inv_touch s a l) in HI. destruct HI as (Hok & g & gid & bnd & HI0).
  eapply (wp_getOffsetL l s (touch a l)); eauto.
  - now apply alive_ref_touch.
  - apply touched_ref_touch.
  - intros lm' lbl' gid' t l' _ _ Ht _. rewrite tid_of_touch in Ht. exists t. cbn [fst set_labels set_lm g_code g_jmpNear].
    now rewrite defs_touch.
  - intros e He. now rewrite tid_of_touch in He.
Qed.

Lemma appends_opJmp l ty sc lc lp s a t :
  Inv s a -> isAutoGrowC (g_code s) && sp_ready a = false -> alive_ref a l -> lm_nextId (g_lm s) < 2147483647 ->
  tid_of a l = Some t -> c_size (g_code s) <= maxCode ->
  appends (opJmp l ty sc lc lp) s (jmp_pat (sp_defs a t) (g_jmpNear s) ty (c_size (g_code s)) sc lc lp).
Proof.
  intros HI Hf Hal Hid Ht Hmax. pose proof HI as (Hok & _). unfold opJmp. apply appends_fnS.
  destruct (LabelType_beq ty T_FAR); [now apply appends_throw|].
  apply appends_bind0; auto using appends_growIf. intros s1 u E1 Hok1 A1 K1.
  destruct (wp_done _ _ _ _ _ _ (growIf_inv s a HI Hf) E1) as (HI1 & Hs1 & Ha1 & Hl1 & Hj1).
  apply appends_bind0; auto using appends_getOffsetL. intros s2 [o l'] E2 Hok2 A2 K2.
  rewrite <- Hl1 in Hid.
  destruct (wp_done _ _ _ _ _ _ (getOffset_inv s1 a l HI1 Hal Hid) E2) as (t' & Ht' & Ho & Hc2 & Hj2).
  assert (t' = t) by congruence. subst t'. cbn [fst] in Ho. subst o.
  apply appends_bind0; auto using appends_get. intros s3 c E3 Hok3 _ _. inversion E3; subst s3 c. clear E3.
  unfold jmp_pat. destruct (sp_defs a t) as [o|] eqn:Hd; cbn [takes_short].
  - assert (0 <= o <= c_size (g_code s)) as Hor.
    { destruct HI as (_ & g & gid & bnd & HI0). destruct HI0. apply (iv_def t); auto. }
    rewrite Hc2, Hs1. unfold maxCode in Hmax.
    apply appends_bind0; [auto|now apply appends_verify|]. intros s3 d E3 Hok3' _ _.
    assert (IsInInt32 (w64 (o - c_size (g_code s))) = true /\ d = w32 (o - c_size (g_code s))) as (_ & ->).
    { unfold verifyInInt32M, fnS in E3. destruct (IsInInt32 _); cbn in E3.
      - inversion E3. rewrite w32_w64. auto.
      - destruct (g_noexc s2) eqn:En; [destruct Hok2; congruence|discriminate]. }
    pose proof (appends_runE (makeJmp (w32 (o - c_size (g_code s))) ty sc lc lp) s3 Hok3') as HA.
    rewrite (makeJmp_items (env_of s3)) in HA by apply Hok3'.
    rewrite w32_sub, in8_back in HA by assumption.
    destruct (negb (LabelType_beq ty T_NEAR) && in8 (o - (c_size (g_code s) + 2))) eqn:Hsh.
    + cbn [fst] in HA. rewrite pat_items_db in HA. eapply appends_weak; [exact HA|apply short_weak].
    + destruct (LabelType_beq ty T_SHORT) eqn:Hty.
      * unfold appends, runE in HA |- *. rewrite (makeJmp_items (env_of s3)) in HA |- * by apply Hok3'.
        rewrite w32_sub, in8_back in HA |- * by assumption.
        rewrite Hsh, Hty in HA |- *. exact HA.
      * cbn [fst] in HA. rewrite pat_items_db in HA. eapply appends_weak; [exact HA|apply long_weak].
  - apply appends_bind0; auto using appends_get. intros s3 jn E3 Hok4 _ _. inversion E3; subst s3 jn. clear E3.
    rewrite Hj2, Hj1.
    assert (forall p m, appends m s2 p -> appends (mbind m (fun n => mbind (get g_code) (fun c => addUndefL l' (mkJmp (c_size c) n LasIs 0)))) s2 p) as K.
    { intros p m Hm. rewrite <- (app_nil_r p). apply appends_bind; auto. intros s3 n _ Hok3' _ _.
      apply appends_bind0; auto using appends_get. intros. now apply appends_addUndefL. }
    apply K. destruct (isNEAR (g_jmpNear s) ty); cbn [negb].
    + apply appends_long; auto. intros. now apply appends_ret.
    + change (short_pat sc) with ([Some (w8 sc)] ++ [None] ++ []). apply appends_bind; auto using appends_dbM.
      intros s3 _ _ Hok5 _ _. apply appends_bind; auto.
      * eapply (appends_none _ _ _ 1); [apply appends_dbM; auto|reflexivity].
      * intros. now apply appends_ret.
Qed.

(* ---- T_SHORT out of range ---- *)
Definition out_of_short (def : option Z) (p : Z) : bool :=
  match def with Some o => negb (in8 (o - (p + 2))) | None => false end.
Lemma opJmp_far l sc lc lp s : g_noexc s = false -> opJmp l T_FAR sc lc lp s = Thrown s ERR_NOT_SUPPORTED.
Proof. intros H. unfold opJmp, fnS. cbn. now rewrite H. Qed.

Lemma db_noTF {A} (m : M A) s (e : xerr) s' : ok_st s ->
  wp m s (fun _ _ => True) (fun s' e => db_err (isAutoGrowC (g_code s)) e) -> m s = Thrown s' e -> e <> ERR_LABEL_IS_TOO_FAR.
Proof. intros Hok H E. apply (wp_thrown _ _ _ _ _ _ H) in E. unfold db_err in E. destruct (isAutoGrowC _); subst; discriminate. Qed.

(* errors of the emission primitives *)
Definition errs {A} (m : M A) (P : xerr -> Prop) : Prop := forall s, ok_st s -> match m s with Thrown _ e => P e | _ => True end.
Definition bufErr (e : xerr) : Prop := e = ERR_CANT_ALLOC \/ e = ERR_CODE_IS_TOO_BIG.
Lemma db_err_buf b e : db_err b e -> bufErr e.
Proof. unfold db_err, bufErr. destruct b; auto. Qed.
Lemma errs_dbM b : errs (dbM b) bufErr.
Proof.
  intros s Hok. pose proof (wp_dbM b s Hok) as H. unfold wp in H. destruct (dbM b s); auto. destruct H as (H & _). eapply db_err_buf; eauto.
Qed.
Lemma errs_dbsM l : errs (dbsM l) bufErr.
Proof.
  intros s Hok. pose proof (wp_dbsM l s Hok) as H. unfold wp in H. destruct (dbsM l s); auto. destruct H as (H & _). eapply db_err_buf; eauto.
Qed.
Lemma errs_dbnM v n : 0 <= n <= 8 -> errs (dbnM v n) bufErr.
Proof.
  intros Hn s Hok. pose proof (wp_dbnM v n s Hok Hn) as H. unfold wp in H. destruct (dbnM v n s); auto. destruct H as (H & _). eapply db_err_buf; eauto.
Qed.
Lemma errs_dbIf b : errs (dbIf b) bufErr.
Proof. unfold dbIf. destruct (negb _); [apply errs_dbM|]. intros s _. exact I. Qed.
Lemma errs_growIf : errs growIfNearFull bufErr.
Proof.
  intros s Hok. pose proof Hok as (Hn & W & Hb). unfold growIfNearFull, mbind, get. cbn.
  destruct (isAutoGrowC (g_code s) && nearFull (g_code s)) eqn:E; [|exact I]. apply andb_true_iff in E as [Ha _].
  pose proof (wp_growMemory s W Ha Hn Hb) as H. unfold wp in H. destruct (growMemory s); auto. destruct H as (-> & _). now left.
Qed.

Lemma opJmp_outcome l ty sc lc lp s a t :
  Inv s a -> isAutoGrowC (g_code s) && sp_ready a = false -> alive_ref a l -> lm_nextId (g_lm s) < 2147483647 ->
  tid_of a l = Some t -> c_size (g_code s) <= maxCode -> ty <> T_FAR ->
  match opJmp l ty sc lc lp s with
  | Done _ _ => ~ (ty = T_SHORT /\ out_of_short (sp_defs a t) (c_size (g_code s)) = true)
  | Thrown _ e => bufErr e \/ e = ERR_LABEL_IS_TOO_FAR /\ ty = T_SHORT /\ out_of_short (sp_defs a t) (c_size (g_code s)) = true
  | UB => False
  end.
Proof.
  intros HI Hf Hal Hid Ht Hmax Hty. pose proof HI as (Hok & _).
  assert (forall A (m : M A) s' e, fnS tt (mbind m (fun _ => mret tt)) s' = Thrown s' e -> True) as _ by auto.
  pose proof (wp_noUB _ _ _ _ (wp_opJmp l ty sc lc lp s (touch a l) (Inv_touch s a l HI) ltac:(now rewrite ready_touch)
     ltac:(now apply alive_ref_touch) ltac:(apply touched_ref_touch) Hid)) as HnoUB.
  unfold opJmp, fnS in *. destruct (LabelType_beq ty T_FAR) eqn:E; [destruct ty; discriminate || congruence|]. clear E.
  unfold mbind at 1 in HnoUB. unfold mbind at 1.
  pose proof (growIf_inv s a HI Hf) as H1. pose proof (errs_growIf s Hok) as X1. unfold wp in H1.
  destruct (growIfNearFull s) as [s1 []|s1 e|]; [|destruct H1 as ((Hn & _) & _); rewrite Hn; auto|contradiction].
  destruct H1 as (HI1 & Hs1 & Ha1 & Hl1 & Hj1). rewrite <- Hl1 in Hid.
  unfold mbind at 1 in HnoUB. unfold mbind at 1.
  pose proof (getOffset_inv s1 a l HI1 Hal Hid) as H2. unfold wp in H2. pose proof (appends_getOffsetL l s1 ltac:(apply HI1)) as A2.
  unfold appends in A2.
  destruct (getOffsetL l s1) as [s2 [o l']|s2 e|]; [|congruence|contradiction].
  destruct H2 as (t' & Ht' & Ho & Hc2 & Hj2). assert (t' = t) by congruence. subst t'. cbn [fst] in Ho. subst o.
  destruct A2 as (_ & Hok2 & _).
  unfold mbind at 1 in HnoUB. unfold mbind at 1. cbn [get] in *.
  assert (g_noexc s2 = false) as Hn2 by apply Hok2.
  destruct (sp_defs a t) as [o|] eqn:Hd; cbn [out_of_short].
  - assert (0 <= o <= c_size (g_code s)) as Hor.
    { destruct HI as (_ & g & gid & bnd & HI0). destruct HI0. apply (iv_def t); auto. }
    rewrite Hc2, Hs1 in *. unfold maxCode in Hmax. unfold mbind in *. unfold verifyInInt32M, fnS in *.
    rewrite IsInInt32_conv in * by (rewrite s64_w64, s64_small; lia). cbn [mret] in *. unfold runE, mbind in *.
    rewrite (makeJmp_items (env_of s2)) in * by apply Hn2. rewrite w32_w64, w32_sub, in8_back in HnoUB |- * by assumption.
    destruct (negb (LabelType_beq ty T_NEAR) && in8 (o - (c_size (g_code s) + 2))) eqn:Hsh.
    + rewrite exec_items_db in *. pose proof (errs_dbsM (map w8 [sc; w32 (o - c_size (g_code s)) - 2]) s2 Hok2) as X.
      pose proof (appends_dbsM (map w8 [sc; w32 (o - c_size (g_code s)) - 2]) s2 Hok2) as A. unfold appends in A.
      apply andb_true_iff in Hsh as [_ Hsh]. rewrite Hsh. cbn [negb].
      destruct (dbsM _ s2) as [s3 x|s3 e|]; cbn [mret] in *; [intros (_ & ?); discriminate| |congruence].
      destruct A as (_ & (An & _) & _). rewrite An. auto.
    + destruct (LabelType_beq ty T_SHORT) eqn:Hsty.
      * cbn [exec_items mret mthrow]. rewrite Hn2. right. destruct ty; try discriminate. cbn in Hsh. rewrite Hsh. auto.
      * rewrite exec_items_db in *.
        match goal with |- context [dbsM ?l s2] => pose proof (errs_dbsM l s2 Hok2) as X; pose proof (appends_dbsM l s2 Hok2) as A end. unfold appends in A.
        destruct (dbsM _ s2) as [s3 x|s3 e|]; cbn [mret] in *; [intros (-> & ?); discriminate| |congruence].
        destruct A as (_ & (An & _) & _). rewrite An. auto.
  - unfold mbind at 1 in HnoUB. unfold mbind at 1. cbn [get] in *.
    match goal with |- context [mbind ?m ?k s2] => set (mm := m) in *; set (kk := k) in * end.
    assert (errs mm bufErr) as XM.
    { unfold mm. assert (forall A B (m : M A) (k : A -> M B) p, (forall s, ok_st s -> appends m s p) -> errs m bufErr -> (forall a, errs (k a) bufErr) -> errs (mbind m k) bufErr) as EB.
      { intros A B m k p Hp Hm Hk s0 H0. specialize (Hm s0 H0). specialize (Hp s0 H0). unfold mbind, appends in *. destruct (m s0) as [s1' x|s1' e|]; auto. apply Hk. apply Hp. }
      destruct (isNEAR (g_jmpNear s2) ty).
      - eapply EB; [intros; now apply appends_dbIf|apply errs_dbIf|]. intros _. eapply EB; [intros; now apply appends_dbM|apply errs_dbM|].
        intros _. eapply EB; [intros; apply appends_dbnM; auto; lia|apply errs_dbnM; lia|]. intros _ s0 _. exact I.
      - eapply EB; [intros; now apply appends_dbM|apply errs_dbM|]. intros _. eapply EB; [intros; now apply appends_dbM|apply errs_dbM|]. intros _ s0 _. exact I. }
    specialize (XM s2 Hok2).
    assert (exists p, appends mm s2 p) as (p & A).
    { unfold mm. destruct (isNEAR (g_jmpNear s2) ty); eexists.
      - apply (appends_long lp lc 0); auto. intros. now apply appends_ret.
      - apply appends_bind; auto using appends_dbM. intros. apply appends_bind; auto using appends_dbM. intros. now apply appends_ret. }
    unfold appends in A. unfold mbind in *. destruct (mm s2) as [s3 x|s3 e|].
    + unfold kk, mbind, get in *. destruct l' as [k|h]; cbn [addUndefL] in *.
      * cbn. intros (_ & ?); discriminate.
      * unfold addUndefC, labelOf, mbind in *. destruct (l_alive (g_labels s3 h)); cbn in *; [intros (_ & ?); discriminate|congruence].
    + destruct A as (_ & (An & _) & _). rewrite An. auto.
    + congruence.
Qed.

(* ---- absolute jumps ---- *)
Lemma appends_opJmpAbs addr ty sc lc lp s : ok_st s ->
  exists p, (p = short_pat sc \/ p = long_pat lp lc) /\ (ty = T_NEAR \/ isAutoGrowC (g_code s) = true -> p = long_pat lp lc) /\
  appends (opJmpAbs addr ty sc lc lp) s p.
Proof.
  intros Hok. unfold opJmpAbs. destruct (LabelType_beq ty T_FAR).
  { exists (long_pat lp lc). split; auto. split; auto. apply appends_fnS. now apply appends_throw. }
  destruct (isAutoGrowC (g_code s)) eqn:Ha.
  - exists (long_pat lp lc). split; auto. split; auto. apply appends_fnS.
    apply appends_bind0; auto using appends_get. intros s1 c E _ _ _. inversion E; subst s1 c. rewrite Ha.
    apply appends_bind0; auto using appends_get. intros s1 c E1 _ _ _. inversion E1; subst s1 c.
    destruct (negb _); [now apply appends_throw|]. apply appends_bind0; auto.
    { destruct (nearFull (g_code s)); [now apply appends_grow|now apply appends_ret]. }
    intros s2 _ _ Hok2 _ _. apply appends_long; auto. intros s3 Hok3. apply appends_bind0; auto using appends_get. intros. now apply appends_save.
  - set (p0 := if negb (LabelType_beq ty T_NEAR) && IsInDisp8 (w32 (w32 (w64 (addr - w64 (c_top (g_code s) + c_size (g_code s)))) - 2)) then short_pat sc else long_pat lp lc).
    exists p0. split; [unfold p0; destruct (_ && _); auto|]. split; [intros [-> | H]; [reflexivity|discriminate]|].
    apply appends_fnS. apply appends_bind0; auto using appends_get. intros s1 c E _ _ _. inversion E; subst s1 c. rewrite Ha.
    apply appends_bind0; [auto|now apply appends_verify|]. intros s3 d E3 Hok3 _ _.
    assert (d = w32 (w64 (addr - w64 (c_top (g_code s) + c_size (g_code s))))) as ->.
    { unfold verifyInInt32M, fnS in E3. destruct (IsInInt32 _); cbn in E3.
      - now inversion E3.
      - destruct (g_noexc s) eqn:En; [destruct Hok; congruence|discriminate]. }
    set (d := w32 (w64 (addr - w64 (c_top (g_code s) + c_size (g_code s))))) in *.
    pose proof (appends_runE (makeJmp d ty sc lc lp) s3 Hok3) as HA.
    rewrite (makeJmp_items (env_of s3)) in HA by apply Hok3. unfold p0.
    destruct (negb (LabelType_beq ty T_NEAR) && IsInDisp8 (w32 (d - 2))) eqn:Hsh.
    + cbn [fst] in HA. rewrite pat_items_db in HA. eapply appends_weak; [exact HA|apply short_weak].
    + destruct (LabelType_beq ty T_SHORT) eqn:Hty.
      * unfold appends, runE in HA |- *. rewrite (makeJmp_items (env_of s3)) in HA |- * by apply Hok3.
        rewrite Hsh, Hty in HA |- *. exact HA.
      * cbn [fst] in HA. rewrite pat_items_db in HA. eapply appends_weak; [exact HA|apply long_weak].
Qed.
