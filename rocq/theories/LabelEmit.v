(* Emission of label references, jumps and whole encoder calls preserves the label invariant. *)
From Coq Require Import ZArith List Bool String Arith Lia ZifyBool Permutation.
From Verif Require Import Base Types Emit EmitFacts Encode State Code Label Gen Wp CodeFacts SpecLabel LabelFacts LabelInv.
Import ListNotations.
Open Scope Z_scope.

Lemma w64_small x : 0 <= x < 18446744073709551616 -> w64 x = x.
Proof. intros H. unfold w64. now apply Z.mod_small. Qed.
Lemma s64_w64 x : s64 (w64 x) = s64 x.
Proof. unfold s64, w64. now rewrite Z.mod_mod by lia. Qed.
Lemma w64_range x : 0 <= w64 x < 18446744073709551616.
Proof. unfold w64. apply Z.mod_pos_bound. lia. Qed.
Lemma s64_small x : -9223372036854775808 <= x < 9223372036854775808 -> s64 x = x.
Proof.
  intros H. unfold s64. destruct (Z_lt_le_dec x 0).
  - assert (w64 x = x + 18446744073709551616) as ->.
    { unfold w64. replace x with (x + 18446744073709551616 + (-1) * 18446744073709551616) at 1 by lia.
      rewrite Z.mod_add by lia. apply Z.mod_small. lia. }
    destruct (x + 18446744073709551616 <? 9223372036854775808) eqn:E; lia.
  - rewrite w64_small by lia. destruct (x <? 9223372036854775808) eqn:E; lia.
Qed.
Lemma IsInInt32_s64 x : IsInInt32 x = true -> -2147483648 <= s64 x < 2147483648.
Proof.
  unfold IsInInt32, s64. pose proof (w64_range x). destruct (w64 x <? 9223372036854775808) eqn:E; lia.
Qed.
Lemma IsInInt32_conv x : -2147483648 <= s64 x < 2147483648 -> IsInInt32 x = true.
Proof.
  unfold IsInInt32, s64. pose proof (w64_range x). destruct (w64 x <? 9223372036854775808) eqn:E; lia.
Qed.
Lemma w32_w64 x : w32 (w64 x) = w32 x.
Proof.
  unfold w32, w64. rewrite (Z.div_mod x 18446744073709551616) at 2 by lia.
  replace (18446744073709551616 * (x / 18446744073709551616) + x mod 18446744073709551616)
    with (x mod 18446744073709551616 + (x / 18446744073709551616 * 4294967296) * 4294967296) by lia.
  now rewrite Z.mod_add by lia.
Qed.
Lemma IsInDisp8_s64 x : IsInInt32 x = true -> IsInDisp8 (w32 (w64 x)) = true -> -128 <= s64 x < 128.
Proof.
  intros H1 H2. pose proof (IsInInt32_s64 _ H1) as H. rewrite w32_w64 in H2. unfold IsInDisp8 in H2.
  assert (w32 (w32 x) = w32 (s64 x)) as E.
  { unfold w32. rewrite Z.mod_mod by lia. unfold s64, w64.
    rewrite (Z.div_mod x 18446744073709551616) at 1 by lia.
    destruct (x mod 18446744073709551616 <? 9223372036854775808).
    - replace (18446744073709551616 * (x / 18446744073709551616) + x mod 18446744073709551616)
        with (x mod 18446744073709551616 + (x / 18446744073709551616 * 4294967296) * 4294967296) by lia.
      now rewrite Z.mod_add by lia.
    - replace (18446744073709551616 * (x / 18446744073709551616) + x mod 18446744073709551616)
        with (x mod 18446744073709551616 - 18446744073709551616 + (x / 18446744073709551616 * 4294967296 + 4294967296) * 4294967296) by lia.
      now rewrite Z.mod_add by lia. }
  rewrite E in H2. destruct (Z_lt_le_dec (s64 x) 0).
  - assert (w32 (s64 x) = s64 x + 4294967296) as E2.
    { unfold w32. replace (s64 x) with (s64 x + 4294967296 + (-1) * 4294967296) at 1 by lia.
      rewrite Z.mod_add by lia. apply Z.mod_small. lia. }
    lia.
  - assert (w32 (s64 x) = s64 x) as E2 by (unfold w32; apply Z.mod_small; lia). lia.
Qed.

Lemma ok_frame s lm lbl : ok_st s -> ok_st (set_labels (set_lm s lm) lbl).
Proof. intros H; exact H. Qed.

Lemma wp_growIfNearFull s :
  ok_st s ->
  wp growIfNearFull s
    (fun s' _ => exists c', s' = set_code s c' /\ ext (g_code s) c' /\ code_wf c' /\ c_size c' = c_size (g_code s))
    (fun s' _ => exists c', s' = set_code s c' /\ ext (g_code s) c' /\ code_wf c' /\ c_size c' = c_size (g_code s)).
Proof.
  intros (Hn & W & Hb). unfold growIfNearFull. apply wp_bind, wp_get.
  destruct (isAutoGrowC (g_code s)) eqn:Ha; cbn [andb].
  - destruct (nearFull (g_code s)).
    + eapply wp_mono; [apply wp_growMemory; auto| |].
      * intros s' _ (c' & H1 & H2 & H3 & H4 & _). exists c'. auto.
      * intros s' e (_ & c' & H1 & H2 & H3 & H4). exists c'. auto.
    + apply wp_ret. exists (g_code s). split; [symmetry; apply set_code_same|]. split; [apply ext_refl|]. auto.
  - apply wp_ret. exists (g_code s). split; [symmetry; apply set_code_same|]. split; [apply ext_refl|]. auto.
Qed.

Lemma wp_verifyInInt32M x s (Q : St -> Z -> Prop) (X : St -> xerr -> Prop) :
  g_noexc s = false -> (IsInInt32 x = true -> Q s (w32 x)) -> X s ERR_OFFSET_IS_TOO_BIG -> wp (verifyInInt32M x) s Q X.
Proof.
  intros Hn HQ HX. unfold verifyInInt32M. apply wp_fnS. destruct (IsInInt32 x).
  - apply wp_ret. auto.
  - apply wp_throw. auto.
Qed.

(* a step that only keeps code and settings apart from growth *)
Definition sameCfg (s s' : St) : Prop :=
  isAutoGrowC (g_code s') = isAutoGrowC (g_code s) /\ g_jmpNear s' = g_jmpNear s.

Lemma keyed_gid lbl a gid l t : keyed lbl a gid l t -> match Some t with Some (TObj i) => gid i <> 0 | _ => True end.
Proof. destruct t; cbn; intros H; try exact I. apply H. Qed.

Definition rsize (rel : bool) : Z := if rel then 4 else 8.

Lemma wp_putL l rel d s a :
  Inv s a -> isAutoGrowC (g_code s) && sp_ready a = false -> alive_ref a l -> touched_ref a l ->
  lm_nextId (g_lm s) < 2147483647 ->
  wp (putL_inner l rel d) s
    (fun s' _ => c_size (g_code s') = c_size (g_code s) + rsize rel /\ sameCfg s s' /\
       lm_nextId (g_lm s') <= lm_nextId (g_lm s) + 1 /\
       exists t, tid_of a l = Some t /\ Inv s' (addRef a (c_size (g_code s)) (rsize rel) (Some t) rel d))
    (fun s' _ => c_size (g_code s) <= c_size (g_code s') < c_size (g_code s) + rsize rel /\
       sameCfg s s' /\ Inv s' a).
Proof.
  intros (Hok & g & gid & bnd & HI) Hnf Hal Hto Hid.
  set (p := c_size (g_code s)) in *. set (n := rsize rel).
  assert (0 < n <= 8) as Hn8 by (unfold n, rsize; destruct rel; lia).
  unfold putL_inner. change (if rel then 4 else 8) with n.
  apply wp_bind. eapply wp_mono; [apply wp_growIfNearFull; exact Hok| |].
  2: { intros s' _ (c' & -> & E & W & Hs). split; [cbn [g_code set_code]; lia|]. split.
       - split; [cbn [g_code set_code]; apply (ext_auto _ _ E)|reflexivity].
       - split; [apply ok_set_code; auto|]. exists g, gid, bnd. eapply Inv0_ext; eauto. }
  intros s1 _ (c1 & -> & E1 & W1 & Hs1). fold p in Hs1.
  assert (Inv0 c1 (g_lm s) (g_labels s) a g gid bnd) as HI1 by (eapply Inv0_ext; eauto).
  pose proof (ext_auto _ _ E1) as Ha1.
  assert (isAutoGrowC c1 && sp_ready a = false) as Hnf1 by (rewrite Ha1; exact Hnf).
  assert (ok_st (set_code s c1)) as Hok1 by (apply ok_set_code; auto).
  apply wp_bind. eapply (wp_getOffsetL l (set_code s c1) a g gid bnd); eauto.
  2: { intros e _. cbn [g_code set_code]. split; [lia|]. split; [split; [exact Ha1|reflexivity]|].
       split; [exact Hok1|]. exists g, gid, bnd. exact HI1. }
  intros lm2 lbl2 gid2 t l' HI2 Hnx Htid Hk. cbn [g_code set_code g_lm] in *.
  apply wp_bind, wp_get. cbn [g_code set_code set_labels set_lm].
  set (s2 := set_labels (set_lm (set_code s c1) lm2) lbl2).
  assert (ok_st s2) as Hok2 by exact Hok1.
  assert (bnd <= p) as Hbp by (destruct HI1; destruct iv_ref; lia).
  (* the common tail: n bytes are written *)
  assert (forall v, 
    wp (dbnM v n) s2
      (fun s' _ => exists c', s' = set_code s2 c' /\ isAutoGrowC c' = isAutoGrowC (g_code s) /\ code_wf c' /\ c_size c' = p + n /\
           (isAutoGrowC c1 = false -> c_top c' = c_top c1) /\
           mem_has (c_mem c') p (le_bytes v (Z.to_nat n)) /\ Inv0 c' lm2 lbl2 a g gid2 bnd)
      (fun s' _ => p <= c_size (g_code s') < p + n /\ sameCfg s s' /\ Inv s' a)) as Hdb.
  { intros v. eapply wp_mono; [apply (wp_dbnM v n s2 Hok2); lia| |].
    - intros s' _ (c' & -> & E & W & Hs & Hm). exists c'. change (g_code s2) with c1 in *. rewrite Hs1 in *.
      split; [reflexivity|]. split; [rewrite (ext_auto _ _ E); exact Ha1|]. split; [exact W|]. split; [lia|].
      split; [intros Ha; apply (ex_fixed _ _ E Ha)|]. split; [exact Hm|]. eapply Inv0_ext; eauto.
    - intros s' e (_ & _ & c' & -> & E & W & Hs). change (g_code s2) with c1 in *.
      pose proof (ex_size _ _ E). cbn [g_code set_code]. split; [lia|]. split.
      + split; [cbn [g_code set_code]; rewrite (ext_auto _ _ E); exact Ha1|reflexivity].
      + split; [apply ok_set_code; auto|]. exists g, gid2, bnd. cbn [g_code set_code g_lm g_labels]. eapply Inv0_ext; eauto. }
  set (r := mkRef p n (Some t) rel d (sp_defs a t)).
  assert (shape r) as Hshape.
  { unfold shape, r, n, rsize. cbn [r_tid r_rel r_size]. destruct rel; repeat split; intros; try discriminate; auto. }
  assert (addRef a p n (Some t) rel d = set_refs a (r :: sp_refs a)) as Hadd by reflexivity.
  destruct (sp_defs a t) as [o|] eqn:Hdef.
  - destruct rel.
    + apply wp_bind, wp_verifyInInt32M; [apply Hok1| |].
      * intros Hin. eapply wp_mono; [apply Hdb| |].
        2: { intros s' e H; exact H. }
        intros s' _ (c' & -> & Hac & W & Hs & Htop & Hm & HI'). cbn [g_code set_code].
        split; [exact Hs|]. split; [split; [exact Hac|reflexivity]|]. split; [exact Hnx|].
        exists t. split; [exact Htid|]. split; [apply ok_set_code; auto|]. exists ((r, Writ) :: g), gid2, (p + n).
        rewrite Hadd. cbn [g_code set_code g_lm g_labels].
        eapply (Inv0_add_writ c' lm2 lbl2 a g gid2 bnd r (Some t) o); eauto.
        -- cbn [r r_pos r_size]. rewrite Hs. lia.
        -- apply (keyed_gid _ _ _ _ _ Hk).
        -- intros _ _. cbn [r r_size r_pos r_d]. unfold fits, n, rsize. cbn [Z.eqb Pos.eqb].
           rewrite <- (s64_w64 (o + d - (p + 4))). replace (o + d - (p + 4)) with (o + d - c_size c1 - n) by (unfold n, rsize; lia).
           rewrite s64_w64. rewrite <- s64_w64. apply IsInInt32_s64. exact Hin.
        -- unfold field, want, r. cbn [r_tid r_rel r_d r_pos r_size].
           rewrite le_bytes_w32, le_bytes_w64 in Hm by (unfold n, rsize; lia).
           replace (o + d - (p + n)) with (o + d - c_size c1 - n) by lia. exact Hm.
        -- intros _ _. split; [discriminate|reflexivity].
        -- discriminate.
      * change (g_code s2) with c1. split; [lia|]. split; [split; [exact Ha1|reflexivity]|].
        split; [exact Hok2|]. exists g, gid2, bnd. exact HI2.
    + destruct (isAutoGrowC c1) eqn:Hauto.
      * apply wp_bind. eapply wp_mono; [apply Hdb| |].
        2: { intros s' e H; exact H. }
        intros s' _ (c' & -> & Hac & W & Hs & Htop & Hm & HI'). apply wp_bind, wp_get. unfold save, with_code. apply wp_put.
        cbn [g_code set_code]. replace (w64 (c_size c' - n)) with p.
        2: { rewrite Hs. replace (p + n - n) with p by lia. symmetry. apply w64_small. destruct W. destruct Hok as (_ & W0 & _). destruct W0. lia. }
        change (mkAI p o n LaddTop) with (info_of r).
        split; [exact Hs|]. split; [split; [exact Hac|reflexivity]|]. split; [exact Hnx|].
        exists t. split; [exact Htid|]. split.
        -- split; [apply Hok2|]. split; [|apply Hok2]. cbn [g_code set_code]. eapply code_wf_same; [exact W|]. cbn. auto 10.
        -- exists ((r, Saved) :: g), gid2, (p + n). rewrite Hadd. cbn [g_code set_code g_lm g_labels].
           eapply (Inv0_add_saved c' lm2 lbl2 a g gid2 bnd r (Some t) o); eauto.
           ++ cbn [r r_pos r_size]. rewrite Hs. lia.
           ++ apply (keyed_gid _ _ _ _ _ Hk).
           ++ intros _ Hr. discriminate.
           ++ congruence.
      * eapply wp_mono; [apply Hdb| |].
        2: { intros s' e H; exact H. }
        intros s' _ (c' & -> & Hac & W & Hs & Htop & Hm & HI'). cbn [g_code set_code].
        split; [exact Hs|]. split; [split; [exact Hac|reflexivity]|]. split; [exact Hnx|].
        exists t. split; [exact Htid|]. split; [apply ok_set_code; auto|]. exists ((r, Writ) :: g), gid2, (p + n).
        rewrite Hadd. cbn [g_code set_code g_lm g_labels].
        eapply (Inv0_add_writ c' lm2 lbl2 a g gid2 bnd r (Some t) o); eauto.
        -- cbn [r r_pos r_size]. rewrite Hs. lia.
        -- apply (keyed_gid _ _ _ _ _ Hk).
        -- intros _ Hr. discriminate.
        -- unfold field, want, r. cbn [r_tid r_rel r_d r_pos r_size].
           rewrite le_bytes_w64 in Hm by (unfold n, rsize; lia). rewrite (Htop eq_refl). exact Hm.
        -- intros Hx. congruence.
        -- discriminate.
  - apply wp_bind. eapply wp_mono; [apply Hdb| |].
    2: { intros s' e H; exact H. }
    intros s' _ (c' & -> & Hac & W & Hs & Htop & Hm & HI'). apply wp_bind, wp_get. cbn [g_code set_code].
    rewrite Hs. change (isAutoGrowC c') with (isAutoGrowC (g_code (set_code s2 c'))).
    change (mkJmp (p + n) n _ d) with (jmp_of (isAutoGrowC (g_code (set_code s2 c'))) r).
    eapply (wp_addUndefL l' t (set_code s2 c') a g gid2 bnd r); eauto.
    + cbn [r r_pos r_size g_code set_code]. rewrite Hs. lia.
    + intros lm3 Hnx3 HI3. cbn [g_code set_code set_lm g_lm g_labels] in *.
      split; [exact Hs|]. split; [split; [exact Hac|reflexivity]|].
      split; [rewrite Hnx3; exact Hnx|]. exists t. split; [exact Htid|].
      split; [split; [apply Hok2|split; [exact W|apply Hok2]]|]. exists ((r, Pend) :: g), gid2, (p + n). rewrite Hadd. exact HI3.
Qed.

(* ---- a list of emission items ---- *)
Definition touched_items (a : Spec) (its : list item) : Prop :=
  Forall (fun i => match i with IPutL l _ _ => touched_ref a l | _ => True end) its.
Lemma nput_nonneg its : 0 <= nput its.
Proof. induction its as [|[] its IH]; cbn [nput]; lia. Qed.

Lemma wp_exec_items its : forall s a,
  Inv s a -> isAutoGrowC (g_code s) && sp_ready a = false -> alive_items a its -> touched_items a its ->
  lm_nextId (g_lm s) + nput its <= 2147483647 ->
  wp (exec_items its) s
    (fun s' _ => c_size (g_code s') = c_size (g_code s) + items_size its /\ sameCfg s s' /\
        Inv s' (spec_items a its (c_size (g_code s)) (c_size (g_code s'))))
    (fun s' _ => c_size (g_code s) <= c_size (g_code s') /\ sameCfg s s' /\
        Inv s' (spec_items a its (c_size (g_code s)) (c_size (g_code s')))).
Proof.
  induction its as [|it its IH]; intros s a HI Hnf Hal Hto Hid.
  - cbn [exec_items spec_items]. apply wp_ret. cbn [items_size]. split; [lia|]. split; [split; reflexivity|exact HI].
  - inversion Hal as [|? ? Hal1 Hal2]; subst. inversion Hto as [|? ? Hto1 Hto2]; subst.
    pose proof (nput_nonneg its) as Hnp.
    cbn [exec_items]. apply wp_bind. destruct it as [b|l rel d|e]; cbn [exec_item].
    + destruct HI as (Hok & g & gid & bnd & HI).
      eapply wp_mono; [apply wp_dbM; exact Hok| |].
      * intros s1 _ (c1 & -> & E & W & Hs & Hm).
        eapply wp_mono; [apply (IH (set_code s c1) a)| |]; auto.
        -- split; [apply ok_set_code; auto|]. exists g, gid, bnd. eapply Inv0_ext; eauto.
        -- cbn [g_code set_code]. rewrite (ext_auto _ _ E). exact Hnf.
        -- cbn [g_code set_code]. intros s' _ (H1 & (H2 & H3) & H4). cbn [items_size item_size]. split; [lia|].
           split; [split; [|exact H3]|].
           ++ rewrite H2. cbn [g_code set_code]. apply (ext_auto _ _ E).
           ++ cbn [spec_items]. pose proof (items_size_nonneg its).
              replace (c_size (g_code s) + 1 <=? c_size (g_code s')) with true by lia.
              rewrite Hs in H4. exact H4.
        -- cbn [g_code set_code]. intros s' _ (H1 & (H2 & H3) & H4). split; [lia|].
           split; [split; [|exact H3]|].
           ++ rewrite H2. cbn [g_code set_code]. apply (ext_auto _ _ E).
           ++ cbn [spec_items]. replace (c_size (g_code s) + 1 <=? c_size (g_code s')) with true by lia.
              rewrite Hs in H4. exact H4.
      * intros s1 e (_ & _ & c1 & -> & E & W & Hs). cbn [g_code set_code]. split; [lia|].
        split; [split; [apply (ext_auto _ _ E)|reflexivity]|]. cbn [spec_items].
        replace (c_size (g_code s) + 1 <=? c_size c1) with false by lia.
        split; [apply ok_set_code; auto|]. exists g, gid, bnd. eapply Inv0_ext; eauto.
    + cbn [nput] in Hid. eapply wp_mono; [apply (wp_putL l rel d s a HI Hnf Hal1 Hto1); lia| |].
      * intros s1 _ (Hs & (Hc1 & Hc2) & Hnx & t & Ht & HI1).
        assert (forall x, alive_items a x -> alive_items (addRef a (c_size (g_code s)) (rsize rel) (Some t) rel d) x) as Hx by auto.
        eapply wp_mono; [apply (IH s1 _ HI1)| |]; auto.
        -- rewrite Hc1. exact Hnf.
        -- lia.
        -- intros s' _ (H1 & (H2 & H3) & H4). cbn [items_size item_size]. change (if rel then 4 else 8) with (rsize rel).
           pose proof (items_size_nonneg its). split; [lia|].
           split; [split; congruence|]. cbn [spec_items]. change (if rel then 4 else 8) with (rsize rel).
           replace (c_size (g_code s) + rsize rel <=? c_size (g_code s')) with true by lia.
           rewrite Ht. rewrite <- Hs. exact H4.
        -- intros s' _ (H1 & (H2 & H3) & H4). 
           assert (0 < rsize rel) by (unfold rsize; destruct rel; lia). split; [lia|].
           split; [split; congruence|]. cbn [spec_items]. change (if rel then 4 else 8) with (rsize rel).
           replace (c_size (g_code s) + rsize rel <=? c_size (g_code s')) with true by lia.
           rewrite Ht. rewrite <- Hs. exact H4.
      * intros s1 e ((Hs1 & Hs2) & Hc & HI1). split; [exact Hs1|]. split; [exact Hc|].
        cbn [spec_items]. change (if rel then 4 else 8) with (rsize rel).
        replace (c_size (g_code s) + rsize rel <=? c_size (g_code s1)) with false by lia. exact HI1.
    + apply wp_put. eapply wp_mono; [apply (IH (setError s e) a)| |]; auto.
      * unfold setError. destruct (g_err s); exact HI.
      * unfold setError. destruct (g_err s); exact Hnf.
      * unfold setError. destruct (g_err s); exact Hid.
      * intros s' _ (H1 & H2 & H3). cbn [items_size item_size spec_items].
        unfold setError in *. destruct (g_err s); cbn [g_code set_err] in *; auto.
      * intros s' _ (H1 & H2 & H3). cbn [items_size item_size spec_items].
        unfold setError in *. destruct (g_err s); cbn [g_code set_err] in *; auto.
Qed.

(* ---- touching labels ---- *)
Lemma Inv_touch s a l : Inv s a -> Inv s (touch a l).
Proof.
  intros (Hok & g & gid & bnd & HI). split; [exact Hok|]. exists g, gid, bnd.
  destruct l as [k|h]; cbn [touch]; [exact HI|]. destruct (labOf a h) as [i|]; [|exact HI].
  destruct HI. constructor; auto.
  - destruct iv_pend. constructor; auto.
  - destruct iv_name. constructor; auto.
  - destruct iv_obj. constructor; auto. cbn [sp_touched]. intros j Hj. right. auto.
Qed.
Lemma labOf_touch a l h : labOf (touch a l) h = labOf a h.
Proof. destruct l as [k|h']; cbn [touch]; auto. destruct (labOf a h'); auto. Qed.
Lemma ready_touch a l : sp_ready (touch a l) = sp_ready a.
Proof. destruct l as [k|h']; cbn [touch]; auto. destruct (labOf a h'); auto. Qed.
Lemma touched_touch a l i : In i (sp_touched a) -> In i (sp_touched (touch a l)).
Proof. destruct l as [k|h']; cbn [touch]; auto. destruct (labOf a h'); auto. cbn. auto. Qed.
Lemma touched_ref_touch a l : touched_ref (touch a l) l.
Proof.
  destruct l as [k|h]; [exact I|]. cbn [touched_ref]. intros i. rewrite labOf_touch. cbn [touch].
  destruct (labOf a h) as [j|]; [|discriminate]. intros E; inversion E; subst. now left.
Qed.
Lemma alive_ref_touch a l l' : alive_ref a l' -> alive_ref (touch a l) l'.
Proof. destruct l'; cbn [alive_ref]; auto. unfold alive. now rewrite labOf_touch. Qed.
Lemma touched_ref_mono a l l' : touched_ref a l' -> touched_ref (touch a l) l'.
Proof. destruct l'; cbn [touched_ref]; auto. intros H i. rewrite labOf_touch. intros Hi. apply touched_touch. auto. Qed.

Lemma Inv_touch_items its : forall s a, Inv s a -> Inv s (touch_items a its).
Proof. induction its as [|[] its IH]; cbn [touch_items]; intros s a H; auto. apply IH, Inv_touch, H. Qed.
Lemma ready_touch_items its : forall a, sp_ready (touch_items a its) = sp_ready a.
Proof. induction its as [|[] its IH]; cbn [touch_items]; intros a; auto. rewrite IH. apply ready_touch. Qed.
Lemma alive_touch_items its : forall a l, alive_ref a l -> alive_ref (touch_items a its) l.
Proof. induction its as [|[] its IH]; cbn [touch_items]; intros a l H; auto. apply IH, alive_ref_touch, H. Qed.
Lemma touched_mono_items its : forall a l, touched_ref a l -> touched_ref (touch_items a its) l.
Proof. induction its as [|[] its IH]; cbn [touch_items]; intros a l H; auto. apply IH, touched_ref_mono, H. Qed.
Lemma touched_touch_items its : forall a, touched_items (touch_items a its) its.
Proof.
  induction its as [|[] its IH]; cbn [touch_items]; intros a; constructor; auto; try apply IH.
  apply touched_mono_items, touched_ref_touch.
Qed.

Lemma wp_runE m s a :
  Inv s a -> isAutoGrowC (g_code s) && sp_ready a = false ->
  alive_items a (fst (m (env_of s) (c_size (g_code s)))) ->
  lm_nextId (g_lm s) + nput (fst (m (env_of s) (c_size (g_code s)))) <= 2147483647 ->
  let its := fst (m (env_of s) (c_size (g_code s))) in
  wp (@runE unit m) s
    (fun s' _ => Inv s' (spec_items (touch_items a its) its (c_size (g_code s)) (c_size (g_code s'))))
    (fun s' _ => Inv s' (spec_items (touch_items a its) its (c_size (g_code s)) (c_size (g_code s')))).
Proof.
  intros HI Hnf Hal Hid its. unfold wp, runE. unfold its. destruct (m (env_of s) (c_size (g_code s))) as [l r] eqn:E.
  cbn [fst] in *. apply (wp_bind (exec_items l)).
  eapply wp_mono; [apply (wp_exec_items l s (touch_items a l))| |]; auto.
  - now apply Inv_touch_items.
  - now rewrite ready_touch_items.
  - unfold alive_items in *. eapply Forall_impl; [|exact Hal]. intros i Hi. destruct i; auto. now apply alive_touch_items.
  - apply touched_touch_items.
  - intros s' _ (_ & _ & H). destruct r; [apply wp_ret|apply wp_throw]; exact H.
  - intros s' _ (_ & _ & H). exact H.
Qed.

(* ---- branches ---- *)
Definition longBytes (lp lc v : Z) : list Z := (if lp =? 0 then [] else [lp]) ++ [lc] ++ le_bytes v 4.
Lemma exec_items_db l : forall s, exec_items (map IDb l) s = dbsM l s.
Proof.
  induction l as [|b l IH]; intros s; cbn [map exec_items dbsM exec_item]; auto.
  unfold mbind. destruct (dbM b s); auto.
Qed.
Lemma w8_w32 x : w8 (w32 x) = w8 x.
Proof. unfold w8, w32. symmetry. apply Znumtheory.Zmod_div_mod; try lia. exists 16777216. lia. Qed.
Lemma makeJmp_items env pos d ty sc lc lp : env_noexc env = false ->
  makeJmp d ty sc lc lp env pos =
    if negb (LabelType_beq ty T_NEAR) && IsInDisp8 (w32 (d - 2)) then (map IDb (map w8 [sc; d - 2]), Ok tt)
    else if LabelType_beq ty T_SHORT then ([], Err ERR_LABEL_IS_TOO_FAR)
    else (map IDb (map w8 (longBytes lp lc (d - ((if lp =? 0 then 1 else 2) + 4)))), Ok tt).
Proof.
  intros Hn. unfold makeJmp, fn. 
  destruct (negb (LabelType_beq ty T_NEAR) && IsInDisp8 (w32 (d - 2))).
  - unfold bind, db, emit. cbn [app map]. now rewrite w8_w32.
  - destruct (LabelType_beq ty T_SHORT).
    + unfold throw. now rewrite Hn.
    + set (n := (if lp =? 0 then 1 else 2) + 4). set (v := w32 (d - n)).
      assert (forall p, dd v env p = (map IDb (le_bytes (d - n) 4), Ok tt)) as Hdd.
      { intros p. unfold dd, dbn, fn, bind. change (8 <? 4) with false. cbn [app].
        change (Z.to_nat 4) with 4%nat. rewrite le_bytes_w64, le_bytes_w32 by lia. unfold v. rewrite le_bytes_w32 by lia.
        cbn [le_bytes dbs]. unfold bind, db, emit, ret. cbn [app map]. now rewrite !w8_idem. }
      unfold longBytes. rewrite !map_app, map_w8_le.
      destruct (lp =? 0); cbn [negb]; unfold bind, db, emit, ret; cbn [app map]; rewrite Hdd; reflexivity.
Qed.

Lemma wp_longBytes lp lc v (k : M unit) s (Q : St -> unit -> Prop) (X : St -> xerr -> Prop) :
  ok_st s ->
  (forall c', ext (g_code s) c' -> code_wf c' -> c_size c' = c_size (g_code s) + (if lp =? 0 then 5 else 6) ->
     mem_has (c_mem c') (c_size c' - 4) (le_bytes v 4) -> wp k (set_code s c') Q X) ->
  (forall c' e, ext (g_code s) c' -> code_wf c' -> X (set_code s c') e) ->
  wp (mbind (dbIf lp) (fun _ => mbind (dbM lc) (fun _ => mbind (dbnM v 4) (fun _ => k)))) s Q X.
Proof.
  intros Hok HQ HX. apply wp_bind.
  assert (forall c1 q, ext (g_code s) c1 -> code_wf c1 -> c_size c1 = q -> q + 5 = c_size (g_code s) + (if lp =? 0 then 5 else 6) ->
    wp (mbind (dbM lc) (fun _ => mbind (dbnM v 4) (fun _ => k))) (set_code s c1) Q X) as K.
  { intros c1 q E1 W1 Hs1 Hq. apply wp_bind.
    assert (ok_st (set_code s c1)) as Hok1 by (apply ok_set_code; auto).
    eapply wp_mono; [apply wp_dbM; exact Hok1| |].
    - cbn [g_code set_code]. intros s' _ (c2 & -> & E2 & W2 & Hs2 & _). apply wp_bind.
      assert (ok_st (set_code (set_code s c1) c2)) as Hok2 by (apply ok_set_code; auto).
      eapply wp_mono; [apply wp_dbnM; [exact Hok2|lia]| |].
      + cbn [g_code set_code]. intros s' _ (c3 & -> & E3 & W3 & Hs3 & Hm).
        apply HQ; auto.
        * eapply ext_trans; [exact E1|]. eapply ext_trans; eauto.
        * lia.
        * replace (c_size c3 - 4) with (c_size c2) by lia. exact Hm.
      + cbn [g_code set_code]. intros s' e (_ & _ & c3 & -> & E3 & W3 & _). apply HX; auto.
        eapply ext_trans; [exact E1|]. eapply ext_trans; eauto.
    - cbn [g_code set_code]. intros s' e (_ & _ & c2 & -> & E2 & W2 & _). apply HX; auto.
      eapply ext_trans; eauto. }
  unfold dbIf. destruct (lp =? 0) eqn:El; cbn [negb].
  - apply wp_ret. rewrite <- (set_code_same s) at 1. apply (K _ (c_size (g_code s))); auto; try lia.
    + apply ext_refl.
    + apply Hok.
  - eapply wp_mono; [apply wp_dbM; exact Hok| |].
    + intros s' _ (c1 & -> & E1 & W1 & Hs1 & _). apply (K _ (c_size (g_code s) + 1)); auto; lia.
    + intros s' e (_ & _ & c1 & -> & E1 & W1 & _). apply HX; auto.
Qed.

(* the encoder makeJmp, run from a state of size p, leaves the field at the end *)
Lemma wp_makeJmp d ty sc lc lp s (Q : St -> unit -> Prop) (X : St -> xerr -> Prop) :
  ok_st s ->
  (forall c' n v, ext (g_code s) c' -> code_wf c' -> 
     (n = 1 /\ c_size c' = c_size (g_code s) + 2 /\ v = d - 2 /\ IsInDisp8 (w32 (d - 2)) = true \/
      n = 4 /\ c_size c' = c_size (g_code s) + (if lp =? 0 then 5 else 6) /\ v = d - (if lp =? 0 then 5 else 6)) ->
     mem_has (c_mem c') (c_size c' - n) (le_bytes v (Z.to_nat n)) -> Q (set_code s c') tt) ->
  (forall c' e, ext (g_code s) c' -> code_wf c' -> X (set_code s c') e) ->
  wp (runE (makeJmp d ty sc lc lp)) s Q X.
Proof.
  intros Hok HQ HX. unfold wp, runE.
  rewrite (makeJmp_items (env_of s) (c_size (g_code s)) d ty sc lc lp) by (apply Hok).
  destruct (negb (LabelType_beq ty T_NEAR) && IsInDisp8 (w32 (d - 2))) eqn:Hs.
  - change (wp (mbind (exec_items (map IDb (map w8 [sc; d - 2]))) (fun _ => mret tt)) s Q X).
    apply wp_bind. unfold wp. rewrite exec_items_db. change (wp (dbsM (map w8 [sc; d - 2])) s (fun s' _ => wp (mret tt) s' Q X) X).
    eapply wp_mono; [apply wp_dbsM; exact Hok| |].
    + intros s' _ (c' & -> & E & W & Hsz & Hm). apply wp_ret. apply (HQ c' 1 (d - 2)); auto.
      * left. cbn [map List.length] in Hsz. repeat split; try lia.
      * cbn [map mem_has] in Hm. rewrite !w8_idem in Hm. cbn [map List.length] in Hsz.
        change (Z.to_nat 1) with 1%nat. cbn [le_bytes mem_has]. split; [|exact I].
        replace (c_size c' - 1) with (c_size (g_code s) + 1) by lia. apply Hm.
    + intros s' e (_ & _ & c' & -> & E & W & _). auto.
  - destruct (LabelType_beq ty T_SHORT).
    + cbn [exec_items mbind mret mthrow]. specialize (HX (g_code s) ERR_LABEL_IS_TOO_FAR (ext_refl _) ltac:(apply Hok)).
      rewrite set_code_same in HX. exact HX.
    + set (v := d - ((if lp =? 0 then 1 else 2) + 4)). set (l := longBytes lp lc v).
      change (wp (mbind (exec_items (map IDb (map w8 l))) (fun _ => mret tt)) s Q X).
      apply wp_bind. unfold wp. rewrite exec_items_db. change (wp (dbsM (map w8 l)) s (fun s' _ => wp (mret tt) s' Q X) X).
      eapply wp_mono; [apply wp_dbsM; exact Hok| |].
      * intros s' _ (c' & -> & E & W & Hsz & Hm). rewrite map_length in Hsz. rewrite map_map in Hm.
        rewrite (map_ext (fun x => w8 (w8 x)) w8) in Hm by (intros; apply w8_idem).
        unfold l, longBytes in Hm, Hsz. rewrite !app_length, le_bytes_length in Hsz. rewrite !map_app, map_w8_le in Hm.
        rewrite !mem_has_app in Hm. rewrite !map_length in Hm. destruct Hm as (_ & _ & Hm).
        apply wp_ret. apply (HQ c' 4 v); auto.
        -- right. unfold v. destruct (lp =? 0); cbn [List.length] in Hsz; repeat split; lia.
        -- change (Z.to_nat 4) with 4%nat.
           match type of Hm with mem_has _ ?x _ => replace (c_size c' - 4) with x; [exact Hm|] end.
           destruct (lp =? 0); cbn [List.length] in *; lia.
      * intros s' e (_ & _ & c' & -> & E & W & _). auto.
Qed.

Lemma addBranch_eq a p q t d n : q - p = (if n =? 1 then 2 else q - p) -> (n = 1 \/ n = 4 /\ q - p <> 2) ->
  addBranch a p q t d = addRef a (q - n) n t true d.
Proof.
  intros H [-> | (-> & H1)]; unfold addBranch.
  - cbn [Z.eqb Pos.eqb] in H. rewrite H. reflexivity.
  - now replace (q - p =? 2) with false by lia.
Qed.

Lemma w32_eqm a b k : a = b + k * 4294967296 -> w32 a = w32 b.
Proof. intros ->. unfold w32. now rewrite Z.mod_add by lia. Qed.
Lemma w32_sub x y : w32 (w32 x - y) = w32 (x - y).
Proof. unfold w32. now rewrite Zminus_mod_idemp_l. Qed.
Lemma le_bytes_sub32 x y n : (n <= 4)%nat -> le_bytes (w32 x - y) n = le_bytes (x - y) n.
Proof. intros H. rewrite <- (le_bytes_w32 (w32 x - y)), w32_sub, le_bytes_w32; auto. Qed.

Lemma wp_opJmp l ty sc lc lp s a :
  Inv s a -> isAutoGrowC (g_code s) && sp_ready a = false -> alive_ref a l -> touched_ref a l ->
  lm_nextId (g_lm s) < 2147483647 ->
  wp (opJmp l ty sc lc lp) s
    (fun s' _ => exists t, tid_of a l = Some t /\
       (c_size (g_code s') <= maxCode -> Inv s' (addBranch a (c_size (g_code s)) (c_size (g_code s')) (Some t) 0)))
    (fun s' _ => Inv s' a).
Proof.
  intros (Hok & g & gid & bnd & HI) Hnf Hal Hto Hid. set (p := c_size (g_code s)).
  assert (Inv s a) as HInv by (split; [exact Hok|exists g, gid, bnd; exact HI]).
  unfold opJmp. apply wp_fnS. destruct (LabelType_beq ty T_FAR).
  { apply wp_throw. split; [apply Hok|exact HInv]. }
  apply wp_bind. eapply wp_mono; [apply wp_growIfNearFull; exact Hok| |].
  2: { intros s' _ (c' & -> & E & W & Hs). split; [apply Hok|].
       split; [apply ok_set_code; auto|]. exists g, gid, bnd. eapply Inv0_ext; eauto. }
  intros s1 _ (c1 & -> & E1 & W1 & Hs1). fold p in Hs1.
  assert (Inv0 c1 (g_lm s) (g_labels s) a g gid bnd) as HI1 by (eapply Inv0_ext; eauto).
  pose proof (ext_auto _ _ E1) as Ha1.
  assert (isAutoGrowC c1 && sp_ready a = false) as Hnf1 by (rewrite Ha1; exact Hnf).
  assert (ok_st (set_code s c1)) as Hok1 by (apply ok_set_code; auto).
  apply wp_bind. eapply (wp_getOffsetL l (set_code s c1) a g gid bnd); eauto.
  2: { intros e _. split; [apply Hok|]. split; [exact Hok1|]. exists g, gid, bnd. exact HI1. }
  intros lm2 lbl2 gid2 t l' HI2 Hnx Htid Hk. cbn [g_code set_code g_lm] in *.
  apply wp_bind, wp_get. cbn [g_code set_code set_labels set_lm].
  set (s2 := set_labels (set_lm (set_code s c1) lm2) lbl2).
  assert (ok_st s2) as Hok2 by exact Hok1.
  assert (bnd <= p) as Hbp by (destruct HI1; destruct iv_ref; lia).
  assert (Inv s2 a) as HInv2 by (split; [exact Hok2|]; exists g, gid2, bnd; exact HI2).
  assert (forall c' (e : xerr), ext c1 c' -> code_wf c' -> g_noexc (set_code s2 c') = false /\ Inv (set_code s2 c') a) as HX.
  { intros c' e E W. split; [apply Hok|]. split; [apply ok_set_code; auto|]. exists g, gid2, bnd. eapply Inv0_ext; eauto. }
  destruct (sp_defs a t) as [o|] eqn:Hdef.
  - apply wp_bind, wp_verifyInInt32M; [apply Hok| |split; [apply Hok|exact HInv2]].
    intros Hin. apply wp_makeJmp; [exact Hok2| |exact HX].
    change (g_code s2) with c1. intros c' n v E W Hcase Hm. exists t. split; [exact Htid|]. cbn [g_code set_code].
    intros Hmax. unfold maxCode in Hmax.
    assert (n = 1 \/ n = 4) as Hn by (destruct Hcase as [(-> & _)|(-> & _)]; auto).
    assert (c_size c' >= p + 2) as Hq by (destruct (lp =? 0); lia).
    rewrite (addBranch_eq a p (c_size c') (Some t) 0 n).
    2: { destruct (lp =? 0); destruct Hcase as [(-> & H)|(-> & H)]; cbn [Z.eqb Pos.eqb]; lia. }
    2: { destruct (lp =? 0); destruct Hcase as [(-> & H)|(-> & H)]; lia. }
    assert (0 <= o <= c_size c1) as Ho by (destruct HI1; apply (iv_def t); exact Hdef).
    set (r := mkRef (c_size c' - n) n (Some t) true 0 (sp_defs a t)).
    split; [apply ok_set_code; auto|]. exists ((r, Writ) :: g), gid2, (c_size c' - n + n).
    change (addRef a (c_size c' - n) n (Some t) true 0) with (set_refs a (r :: sp_refs a)). cbn [g_code set_code g_lm g_labels].
    eapply (Inv0_add_writ c' lm2 lbl2 a g gid2 bnd r (Some t) o); eauto.
    + eapply Inv0_ext; eauto.
    + cbn [r r_pos]. destruct (lp =? 0); lia.
    + cbn [r r_pos r_size]. lia.
    + apply (keyed_gid _ _ _ _ _ Hk).
    + unfold shape, r; cbn [r_tid r_rel r_size]. repeat split; intros; try discriminate; auto.
    + intros _ _. unfold r. cbn [r_size r_pos r_d]. rewrite s64_small by lia. unfold fits.
      destruct Hcase as [(-> & Hsz & -> & Hd8)|(-> & Hsz & ->)]; cbn [Z.eqb Pos.eqb].
      * clear Hm. rewrite w32_w64, w32_sub in Hd8.
        assert (IsInDisp8 (w32 (w64 (o - c_size c1 - 2))) = true) as Hd8' by (rewrite w32_w64; exact Hd8).
        apply IsInDisp8_s64 in Hd8'; [|apply IsInInt32_conv; rewrite s64_small; lia].
        rewrite s64_small in Hd8' by lia. lia.
      * destruct (lp =? 0); lia.
    + unfold field, want, r. cbn [r_tid r_rel r_d r_pos r_size].
      replace (o + 0 - (c_size c' - n + n)) with (o - c_size c') by lia.
      destruct Hcase as [(-> & Hsz & -> & Hd8)|(-> & Hsz & ->)].
      * rewrite w32_w64, le_bytes_sub32 in Hm by lia. rewrite Hsz in *.
        replace (o - (c_size c1 + 2)) with (o - c_size c1 - 2) by lia. exact Hm.
      * rewrite w32_w64, le_bytes_sub32 in Hm by lia.
        replace (o - c_size c') with (o - c_size c1 - (if lp =? 0 then 5 else 6)) by lia. exact Hm.
    + intros _ _. split; [discriminate|reflexivity].
    + discriminate.
  - apply wp_bind, wp_get. change (g_jmpNear s2) with (g_jmpNear s).
    assert (forall c' n, (n = 1 \/ n = 4) -> ext c1 c' -> code_wf c' -> c_size c' = (if n =? 1 then p + 2 else if lp =? 0 then p + 5 else p + 6) ->
      wp (mbind (get g_code) (fun c => addUndefL l' (mkJmp (c_size c) n LasIs 0))) (set_code s2 c')
       (fun s' _ => exists t, tid_of a l = Some t /\
          (c_size (g_code s') <= maxCode -> Inv s' (addBranch a p (c_size (g_code s')) (Some t) 0)))
       (fun s' e => g_noexc s' = false /\ Inv s' a)) as K.
    { intros c' n Hn E W Hsz. apply wp_bind, wp_get. cbn [g_code set_code].
      assert (0 <= p) as Hp0 by (destruct Hok as (_ & W0 & _); destruct W0; auto).
      set (r := mkRef (c_size c' - n) n (Some t) true 0 (sp_defs a t)).
      replace (mkJmp (c_size c') n LasIs 0) with (jmp_of (isAutoGrowC (g_code (set_code s2 c'))) r)
        by (unfold jmp_of, r; cbn [r_pos r_size r_rel r_d]; f_equal; lia).
      eapply (wp_addUndefL l' t (set_code s2 c') a g gid2 bnd r); eauto.
      - cbn [g_code set_code]. eapply Inv0_ext; eauto.
      - cbn [r r_pos]. destruct Hn; subst n; cbn [Z.eqb Pos.eqb] in Hsz; destruct (lp =? 0); lia.
      - cbn [r r_pos r_size g_code set_code]. lia.
      - unfold shape, r; cbn [r_tid r_rel r_size]. repeat split; intros; try discriminate; auto.
      - intros lm3 Hnx3 HI3. exists t. split; [exact Htid|]. intros _. cbn [g_code set_code set_lm g_lm g_labels] in *.
        rewrite (addBranch_eq a p (c_size c') (Some t) 0 n).
        2: { destruct Hn; subst n; cbn [Z.eqb Pos.eqb] in *; destruct (lp =? 0); lia. }
        2: { destruct Hn; subst n; cbn [Z.eqb Pos.eqb] in *; destruct (lp =? 0); lia. }
        split; [split; [apply Hok2|split; [exact W|apply Hok2]]|]. exists ((r, Pend) :: g), gid2, (c_size c' - n + n). exact HI3. }
    apply wp_bind. destruct (isNEAR (g_jmpNear s) ty).
    + apply (wp_bind (dbIf lp)). 
      assert (wp (mbind (dbIf lp) (fun _ => mbind (dbM lc) (fun _ => mbind (dbnM 0 4) (fun _ => mret tt)))) s2
          (fun s' _ => exists c', s' = set_code s2 c' /\ ext c1 c' /\ code_wf c' /\ c_size c' = (if lp =? 0 then p + 5 else p + 6))
          (fun s' e => g_noexc s' = false /\ Inv s' a)) as KL.
      { apply wp_longBytes; [exact Hok2| |exact HX]. change (g_code s2) with c1.
        intros c' E W Hsz _. apply wp_ret. exists c'. do 3 (split; [auto|]). destruct (lp =? 0); lia. }
      unfold wp, mbind in KL |- *. destruct (dbIf lp s2) as [s3 x|s3 e|]; [|exact KL|contradiction].
      destruct (dbM lc s3) as [s4 x4|s4 e|]; [|exact KL|contradiction].
      destruct (dbnM 0 4 s4) as [s5 x5|s5 e|]; [|exact KL|contradiction]. cbn [mret] in KL |- *.
      destruct KL as (c' & -> & E & W & Hsz). apply (K c' 4); auto.
    + apply (wp_bind (dbM sc)). eapply wp_mono; [apply wp_dbM; exact Hok2| |].
      * change (g_code s2) with c1. intros s' _ (c2 & -> & E2 & W2 & Hs2 & _). apply (wp_bind (dbM 0)).
        assert (ok_st (set_code s2 c2)) as Hok3 by (apply ok_set_code; auto).
        eapply wp_mono; [apply wp_dbM; exact Hok3| |].
        -- cbn [g_code set_code]. intros s' _ (c3 & -> & E3 & W3 & Hs3 & _). apply wp_ret.
           change (set_code (set_code s2 c2) c3) with (set_code s2 c3). apply (K c3 1); auto.
           ++ eapply ext_trans; eauto.
           ++ cbn [Z.eqb Pos.eqb]. lia.
        -- cbn [g_code set_code]. intros s' e (_ & _ & c3 & -> & E3 & W3 & _).
           change (set_code (set_code s2 c2) c3) with (set_code s2 c3). apply (HX c3 e); auto. eapply ext_trans; eauto.
      * change (g_code s2) with c1. intros s' e (_ & _ & c2 & -> & E2 & W2 & _). apply (HX c2 e); auto.
Qed.

Lemma wp_opJmpAbs addr ty sc lc lp s a :
  Inv s a -> isAutoGrowC (g_code s) && sp_ready a = false ->
  wp (opJmpAbs addr ty sc lc lp) s
    (fun s' _ => Inv s' (addBranch a (c_size (g_code s)) (c_size (g_code s')) None addr))
    (fun s' _ => Inv s' a).
Proof.
  intros (Hok & g & gid & bnd & HI) Hnf. set (p := c_size (g_code s)).
  assert (Inv s a) as HInv by (split; [exact Hok|exists g, gid, bnd; exact HI]).
  assert (bnd <= p) as Hbp by (destruct HI; destruct iv_ref; auto).
  unfold opJmpAbs. apply wp_fnS. destruct (LabelType_beq ty T_FAR).
  { apply wp_throw. split; [apply Hok|exact HInv]. }
  apply wp_bind, wp_get.
  assert (forall c' (e : xerr), ext (g_code s) c' -> code_wf c' -> g_noexc (set_code s c') = false /\ Inv (set_code s c') a) as HX.
  { intros c' e E W. split; [apply Hok|]. split; [apply ok_set_code; auto|]. exists g, gid, bnd. eapply Inv0_ext; eauto. }
  destruct (isAutoGrowC (g_code s)) eqn:Ha.
  - apply wp_bind, wp_get. destruct (negb (isNEAR (g_jmpNear s) ty)).
    { apply wp_throw. split; [apply Hok|exact HInv]. }
    apply wp_bind.
    assert (wp (if nearFull (g_code s) then growMemory else mret tt) s
       (fun s' _ => exists c', s' = set_code s c' /\ ext (g_code s) c' /\ code_wf c' /\ c_size c' = p)
       (fun s' e => exists c', s' = set_code s c' /\ ext (g_code s) c' /\ code_wf c')) as G.
    { destruct (nearFull (g_code s)).
      - eapply wp_mono; [apply wp_growMemory; auto; apply Hok| |].
        + intros s' _ (c' & H1 & H2 & H3 & H4 & _). exists c'. auto.
        + intros s' e (_ & c' & H1 & H2 & H3 & H4). exists c'. auto.
      - apply wp_ret. exists (g_code s). split; [symmetry; apply set_code_same|]. split; [apply ext_refl|]. split; [apply Hok|reflexivity]. }
    eapply wp_mono; [exact G| |].
    2: { intros s' e (c' & -> & E & W). auto. }
    intros s' _ (c1 & -> & E1 & W1 & Hs1).
    apply wp_longBytes; [apply ok_set_code; auto| |].
    2: { cbn [g_code set_code]. intros c' e E W. apply (HX c' e); auto. eapply ext_trans; eauto. }
    cbn [g_code set_code]. intros c' E W Hsz _. apply wp_bind, wp_get. unfold save, with_code. apply wp_put.
    cbn [g_code set_code]. rewrite Hs1 in Hsz.
    assert (0 <= p) as Hp0 by (destruct Hok as (_ & W0 & _); destruct W0; auto).
    assert (ext (g_code s) c') as E' by (eapply ext_trans; eauto).
    pose proof (ext_auto _ _ E') as Ha'. rewrite Ha in Ha'.
    replace (w64 (c_size c' - 4)) with (c_size c' - 4)
      by (symmetry; apply w64_small; destruct W; destruct (lp =? 0); lia).
    change (c_size (c_setinfos c' _)) with (c_size c').
    rewrite (addBranch_eq a p (c_size c') None addr 4); [|cbn; lia|destruct (lp =? 0); lia].
    set (r := mkRef (c_size c' - 4) 4 None true addr (Some 0)).
    change (addRef a (c_size c' - 4) 4 None true addr) with (set_refs a (r :: sp_refs a)).
    replace (mkAI (c_size c' - 4) (w64 (addr - c_size c')) 4 Labs) with (info_of r)
      by (unfold info_of, r; cbn [r_tid r_pos r_size r_d]; do 2 f_equal; lia).
    split.
    + split; [apply Hok|]. split; [|apply Hok]. cbn [g_code set_code]. eapply code_wf_same; [exact W|]. cbn. auto 10.
    + exists ((r, Saved) :: g), gid, (r_pos r + r_size r). cbn [g_code set_code g_lm g_labels].
      eapply (Inv0_add_saved c' (g_lm s) (g_labels s) a g gid bnd r None 0); auto.
      * eapply Inv0_ext; eauto. rewrite Ha. exact Hnf.
      * cbn [r r_pos]. destruct (lp =? 0); lia.
      * cbn [r r_pos r_size]. lia.
      * unfold shape, r; cbn [r_tid r_rel r_size]. repeat split; intros; try discriminate; auto.
      * intros Hx; exfalso; apply Hx; reflexivity.
  - apply wp_bind, wp_verifyInInt32M; [apply Hok| |split; [apply Hok|exact HInv]].
    intros Hin. apply wp_makeJmp; [exact Hok| |exact HX].
    intros c' n v E W Hcase Hm. cbn [g_code set_code].
    assert (n = 1 \/ n = 4) as Hn by (destruct Hcase as [(-> & _)|(-> & _)]; auto).
    rewrite (addBranch_eq a p (c_size c') None addr n).
    2: { fold p in Hcase. destruct (lp =? 0); destruct Hcase as [(-> & H)|(-> & H)]; cbn [Z.eqb Pos.eqb]; lia. }
    2: { fold p in Hcase. destruct (lp =? 0); destruct Hcase as [(-> & H)|(-> & H)]; lia. }
    set (r := mkRef (c_size c' - n) n None true addr (Some 0)).
    split; [apply ok_set_code; auto|]. exists ((r, Writ) :: g), gid, (c_size c' - n + n).
    change (addRef a (c_size c' - n) n None true addr) with (set_refs a (r :: sp_refs a)). cbn [g_code set_code g_lm g_labels].
    destruct (ex_fixed _ _ E Ha) as (Htop & _).
    eapply (Inv0_add_writ c' (g_lm s) (g_labels s) a g gid bnd r None 0); auto.
    + eapply Inv0_ext; eauto. now rewrite Ha.
    + cbn [r r_pos]. fold p in Hcase. destruct (lp =? 0); lia.
    + cbn [r r_pos r_size]. lia.
    + unfold shape, r; cbn [r_tid r_rel r_size]. repeat split; intros; try discriminate; auto.
    + intros Hx; exfalso; apply Hx; reflexivity.
    + unfold field, want, r. cbn [r_tid r_rel r_d r_pos r_size]. rewrite Htop.
      replace (addr - (c_top (g_code s) + (c_size c' - n) + n)) with (addr - c_top (g_code s) - c_size c') by lia.
      set (x := w64 (c_top (g_code s) + c_size (g_code s))) in *.
      assert (forall y k, (k <= 4)%nat -> le_bytes (w32 (w64 (addr - x)) - y) k = le_bytes (addr - c_top (g_code s) - c_size (g_code s) - y) k) as L.
      { intros y k Hk. rewrite le_bytes_sub32 by lia. rewrite <- (le_bytes_w64 (w64 (addr - x) - y)) by lia.
        unfold w64 at 1 2. rewrite Zminus_mod_idemp_l. fold (w64 (addr - x - y)).
        rewrite <- (le_bytes_w64 (addr - c_top (g_code s) - c_size (g_code s) - y)) by lia. f_equal.
        unfold x, w64. replace (addr - (c_top (g_code s) + c_size (g_code s)) mod 18446744073709551616 - y)
          with (addr - y - (c_top (g_code s) + c_size (g_code s)) mod 18446744073709551616) by lia.
        rewrite Zminus_mod_idemp_r. f_equal. lia. }
      destruct Hcase as [(-> & Hsz & -> & Hd8)|(-> & Hsz & ->)]; rewrite L in Hm by lia.
      * replace (addr - c_top (g_code s) - c_size c') with (addr - c_top (g_code s) - c_size (g_code s) - 2) by lia. exact Hm.
      * replace (addr - c_top (g_code s) - c_size c') with (addr - c_top (g_code s) - c_size (g_code s) - (if lp =? 0 then 5 else 6)) by lia. exact Hm.
    + intros Hx. rewrite (ext_auto _ _ E) in Hx. congruence.
    + intros Hx. rewrite (ext_auto _ _ E) in Hx. congruence.
Qed.
