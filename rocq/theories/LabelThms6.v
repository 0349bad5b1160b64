(* Reachable states, fields emitted inside an instruction, agreement of the two buffer modes,
   bounds of the buffer. *)
From Coq Require Import ZArith List Bool String Arith Lia ZifyBool.
From Verif Require Import Base Types Emit EmitFacts Encode State Code Label Gen Wp CodeFacts Append SpecMem SpecLabel LabelFacts LabelInv LabelEmit LabelDefine LabelStep LabelStep2 LabelStep3 LabelReady LabelHist LabelThms LabelThms2 LabelThms3 LabelThms4 Stable LabelThms5 Grow.
Import ListNotations.
Open Scope Z_scope.

(* A new generator of the exception build: any size, any kind of buffer, any environment. *)
Definition new_gen (s : St) : Prop := exists maxSize u or,
  0 <= maxSize < 18446744073709551616 /\ alloc_bounded or /\ init maxSize u or false = Done s tt.
(* The states reached by any history of calls, with the label table of the history *)
Definition run (s : St) (a : Spec) : Prop := exists s0 os, new_gen s0 /\ shistory s0 spec0 os s a.

Lemma new_inv s : new_gen s -> Inv s spec0.
Proof. intros (m & u & or & H1 & H2 & H3). eapply init_inv; eauto. Qed.
Lemma run_inv s a : run s a -> Inv s a.
Proof. intros (s0 & os & H1 & H2). eapply history_inv; [eapply new_inv|]; eauto. Qed.
Lemma run_SI s a : run s a -> SI a.
Proof. intros (s0 & os & H1 & H2). eapply (history_SI os s0 spec0); [now apply new_inv|apply SI0|exact H2]. Qed.
Lemma shist_app s a os s1 a1 os' s2 a2 : shistory s a os s1 a1 -> shistory s1 a1 os' s2 a2 -> shistory s a (os ++ os') s2 a2.
Proof. induction 1; intros H'; cbn [app]; auto; [eapply SH_done|eapply SH_thrown]; eauto. Qed.
Lemma run_more s a os s' a' : run s a -> shistory s a os s' a' -> run s' a'.
Proof. intros (s0 & os0 & H1 & H2) H. exists s0, (os0 ++ os). split; auto. eapply shist_app; eauto. Qed.
Lemma run_ok s a : run s a -> ok_st s.
Proof. intros H. apply (run_inv _ _ H). Qed.

(* ---- a label field inside an instruction ---- *)
Lemma items_keep its : forall a p q r, In r (sp_refs a) -> In r (sp_refs (spec_items a its p q)).
Proof.
  induction its as [|[b|l rel d|e] its IH]; intros a p q r H; cbn [spec_items]; auto.
  - destruct (p + 1 <=? q); auto.
  - destruct (_ <=? q); auto. destruct (tid_of a l); auto. apply IH. now right.
Qed.
Lemma items_field (pre : list Z) : forall a l (rel : bool) d post p q t, tid_of a l = Some t ->
  p + Z.of_nat (List.length pre) + (if rel then 4 else 8) <= q ->
  In (mkRef (p + Z.of_nat (List.length pre)) (if rel then 4 else 8) (Some t) rel d (sp_defs a t))
     (sp_refs (spec_items a (map IDb pre ++ IPutL l rel d :: post) p q)).
Proof.
  induction pre as [|b pre IH]; intros a l rel d post p q t Ht Hq; cbn [map app spec_items List.length] in *.
  - rewrite Z.add_0_r in *. replace (p + _ <=? q) with true by lia. rewrite Ht. apply items_keep. now left.
  - replace (p + 1 <=? q) with true by (destruct rel; lia).
    replace (p + Z.of_nat (S (List.length pre))) with (p + 1 + Z.of_nat (List.length pre)) by lia. apply IH; auto. lia.
Qed.
Lemma tid_touch_items its l : forall a, tid_of (touch_items a its) l = tid_of a l.
Proof. induction its as [|[b|l' rel d|e] its IH]; intros a; cbn [touch_items]; auto. now rewrite IH, tid_of_touch. Qed.
Lemma emit_ref s a m s1 a1 pre l (rel : bool) d post r t : Inv s a ->
  exec (OpEmit m) s = Done s1 tt -> shistory s a [OpEmit m] s1 a1 ->
  m (env_of s) (c_size (g_code s)) = (map IDb pre ++ IPutL l rel d :: post, r) -> tid_of a l = Some t ->
  exists v, In (mkRef (c_size (g_code s) + Z.of_nat (List.length pre)) (if rel then 4 else 8) (Some t) rel d v) (sp_refs a1).
Proof.
  intros HI Hex Hsh Hm Ht.
  inversion Hsh as [|? ? ? s1' a1' ? ? ? L1 L2 L3 L4 L5|? ? ? e s1' a1' ? ? ? L1 L2 L3 L4 L5]; subst; [|congruence].
  assert (s1' = s1) by congruence. subst s1'. inversion L5; subst. cbn [spec_step] in L4. destruct (_ && _); [discriminate|].
  rewrite Hm in L4. match type of L4 with Some ?x = _ => assert (a1 = x) as -> by congruence end.
  eexists. apply items_field; [now rewrite tid_touch_items|].
  pose proof (appends_runE m s (proj1 HI)) as A. unfold appends in A. cbn [exec] in Hex. rewrite Hex in A. destruct A as ((_ & A & _) & _).
  rewrite Hm in A. cbn [fst] in A. unfold pat_items in A. rewrite flat_map_app, app_length in A. cbn [flat_map pat_item] in A.
  rewrite app_length, repeat_length in A.
  assert (List.length (flat_map pat_item (map IDb pre)) = List.length pre) as L by (clear; induction pre; cbn; auto).
  rewrite L in A. assert (Z.of_nat (putSize rel) = if rel then 4 else 8) as Hn by (destruct rel; reflexivity). lia.
Qed.
Theorem emit_lands s a m s1 a1 pre l (rel : bool) d post r os s2 a2 t o :
  Inv s a -> SI a ->
  exec (OpEmit m) s = Done s1 tt -> shistory s a [OpEmit m] s1 a1 ->
  m (env_of s) (c_size (g_code s)) = (map IDb pre ++ IPutL l rel d :: post, r) -> tid_of a l = Some t ->
  shistory s1 a1 os s2 a2 -> no_reset os -> finished s2 a2 -> sp_defs a2 t = Some o ->
  let p := c_size (g_code s) + Z.of_nat (List.length pre) in
  if rel then branch_target (g_code s2) p 4 = w64 (c_top (g_code s2) + o + d)
  else read_u64 (g_code s2) p = w64 (c_top (g_code s2) + o).
Proof.
  intros HI HS Hex Hsh Hm Ht Hos Hnr Hf Hd p.
  assert (Inv s1 a1) as HI1 by (eapply history_inv; eauto).
  assert (SI a1) as HS1 by (eapply (history_SI _ s a _ _ HI); eauto).
  assert (Inv s2 a2) as HI2 by (eapply history_inv; eauto).
  assert (SI a2) as HS2 by (eapply (history_SI _ s1 a1 _ _ HI1); eauto).
  pose proof (history_kept os s1 a1 s2 a2 HI1 Hos Hnr) as K.
  destruct (emit_ref s a m s1 a1 pre l rel d post r t HI Hex Hsh Hm Ht) as (v & Hr). fold p in Hr.
  destruct (kp_ref _ _ K _ Hr) as (r' & Hr' & S1 & S2 & S3 & S4 & S5). cbn [r_pos r_size r_tid r_rel r_d] in *.
  destruct (HS2 r' t Hr' S3) as [Hv|(i & -> & _ & Hn)]; [|congruence]. rewrite Hd in Hv.
  destruct rel.
  - pose proof (rel_target s2 a2 r' t o HI2 Hf Hr' S3 S4 Hv) as T. rewrite S1, S2, S5 in T. exact T.
  - pose proof (abs_value s2 a2 r' t o HI2 Hf Hr' S3 S4 Hv) as T. rewrite S1 in T. exact T.
Qed.

(* ---- the finished code in the two buffer modes ---- *)
Lemma lock0 s t : new_gen s -> new_gen t -> lock s t spec0.
Proof.
  intros (m & u & or & _ & _ & H1) (m' & u' & or' & _ & _ & H2). unfold init in *.
  destruct (ctorCode m u or false) as [c [e|]] eqn:E; [discriminate|]. destruct (ctorCode m' u' or' false) as [c' [e'|]] eqn:E'; [discriminate|].
  assert (forall m u or c e, ctorCode m u or false = (c, e) -> c_size c = 0) as Hz.
  { clear. intros m u or c e. unfold ctorCode. destruct u; try (inversion 1; reflexivity);
      destruct (o_alloc or 0%nat (Z.max m 1)) as [[p q]|]; inversion 1; reflexivity. }
  pose proof (Hz _ _ _ _ _ E). pose proof (Hz _ _ _ _ _ E').
  inversion H1; inversion H2; subst. constructor; cbn; auto; try congruence. intros k Hk. lia.
Qed.
Definition abs_field (r : ref) : bool := negb (r_rel r) || match r_tid r with None => true | Some _ => false end.
(* two runs of one program hold the same finished code *)
Definition same_code (s t : St) (a : Spec) : Prop :=
  c_size (g_code s) = c_size (g_code t) /\
  (forall k, 0 <= k < c_size (g_code s) -> (forall r, In r (sp_refs a) -> abs_field r = true -> ~ in_field r k) ->
     c_mem (g_code s) k = c_mem (g_code t) k) /\
  (* absolute label addresses: the same offset from the start of the code *)
  (forall r x, In r (sp_refs a) -> r_tid r = Some x -> r_rel r = false ->
     w64 (read_u64 (g_code s) (r_pos r) - c_top (g_code s)) = w64 (read_u64 (g_code t) (r_pos r) - c_top (g_code t))).
Lemma in_field_dec r k : {in_field r k} + {~ in_field r k}.
Proof. unfold in_field. destruct (Z_le_dec (r_pos r) k), (Z_lt_dec k (r_pos r + r_size r)); [left|right|right|right]; lia. Qed.
Lemma inField_dec a k : inField a k \/ ~ inField a k.
Proof.
  unfold inField. induction (sp_refs a) as [|r l [H|H]].
  - right. intros (r & [] & _).
  - left. destruct H as (r' & H1 & H2). exists r'. split; auto. now right.
  - destruct (in_field_dec r k); [left; exists r; split; auto; now left|]. right. intros (r' & [->|H1] & H2); auto. apply H. eauto.
Qed.
Lemma w64_sub_w64 x y : w64 (w64 (x + y) - x) = w64 y.
Proof. unfold w64. rewrite Zminus_mod_idemp_l. f_equal. lia. Qed.
Theorem growth_invisible os s0 t0 s t a b :
  new_gen s0 -> new_gen t0 -> Forall portable os -> shist_ok s0 spec0 os s a -> shist_ok t0 spec0 os t b ->
  finished s a -> finished t a -> hasUndefinedLabel s = false -> b = a /\ same_code s t a.
Proof.
  intros N1 N2 HP Hs Ht F1 F2 Hu.
  destruct (lock_history os s0 t0 spec0 s t a b (new_inv _ N1) (new_inv _ N2) (lock0 _ _ N1 N2) HP Hs Ht) as (-> & HL & HI & HJ).
  split; auto. rewrite (hasUndefined_iff _ _ HI) in Hu.
  assert (forall r, In r (sp_refs a) -> exists o, r_val r = Some o) as Hv.
  { intros r Hr. destruct (r_val r) as [o|] eqn:E; [eauto|]. exfalso. rewrite (proj2 (existsb_exists unresolved (sp_refs a))) in Hu; [discriminate|].
    exists r. split; auto. unfold unresolved. now rewrite E. }
  split; [apply HL|split].
  - intros k Hk Hna. destruct (inField_dec a k) as [(r & Hr & Hf)|Hn]; [|now apply HL].
    destruct (abs_field r) eqn:Ha; [exfalso; eapply Hna; eauto|]. unfold abs_field in Ha. apply orb_false_iff in Ha as [Ha1 Ha2].
    destruct (Hv r Hr) as (o & Ho). eapply (field_rel_agree s t a r o); eauto.
    + destruct (r_tid r); congruence.
    + destruct (r_rel r); auto.
  - intros r x Hr Hx Hrel. destruct (Hv r Hr) as (o & Ho).
    rewrite (abs_value s a r x o), (abs_value t a r x o); auto. now rewrite !w64_sub_w64.
Qed.

(* ---- appending bytes to a fixed buffer ---- *)
Theorem fixed_dbs s a l : run s a -> isAutoGrowC (g_code s) = false ->
  let c := g_code s in let n := Z.of_nat (List.length l) in
  match dbsM l s with
  | Done s' _ =>
      c_size c + n <= c_max c /\ c_size (g_code s') = c_size c + n
      /\ mem_has (c_mem (g_code s')) (c_size c) (map w8 l)
      /\ (forall k, k < c_size c \/ c_size c + n <= k -> c_mem (g_code s') k = c_mem c k)
      /\ c_top (g_code s') = c_top c /\ c_max (g_code s') = c_max c
  | Thrown s' e =>
      e = ERR_CODE_IS_TOO_BIG /\ c_max c < c_size c + n
      /\ c_size c <= c_size (g_code s') <= c_max c
      /\ (forall k, k < c_size c \/ c_max c <= k -> c_mem (g_code s') k = c_mem c k)
      /\ c_top (g_code s') = c_top c /\ c_max (g_code s') = c_max c
  | UB => False
  end.
Proof.
  intros HR Ha c n; subst c n. pose proof (run_ok _ _ HR) as Hok. pose proof Hok as (_ & W & _). pose proof (wp_dbsM l s Hok) as H. unfold wp in H.
  destruct (dbsM l s) as [s' []|s' e|]; auto.
  - destruct H as (c' & -> & E & W' & Hs & Hm). cbn [g_code set_code]. destruct (ex_fixed _ _ E Ha) as (T & M & _ & K). destruct W'.
    repeat split; auto; try lia. intros k [Hk|Hk]; [|apply K; lia]. destruct (Z_lt_le_dec k 0); [apply K; lia|apply E; lia].
  - destruct H as (He & Hb & c' & -> & E & W' & Hs). cbn [g_code set_code]. destruct (ex_fixed _ _ E Ha) as (T & M & _ & K). specialize (Hb Ha). destruct W'.
    pose proof (ex_size _ _ E). unfold db_err in He. rewrite Ha in He.
    repeat split; auto; try lia. intros k [Hk|Hk]; [|apply K; lia]. destruct (Z_lt_le_dec k 0); [apply K; lia|apply E; lia].
Qed.

(* no call writes outside the buffer: that would be UB *)
Theorem no_ub s a o : run s a -> legal a o (env_of s) (c_size (g_code s)) -> ids_left s o ->
  (emitting o = true -> isAutoGrowC (g_code s) && sp_ready a = false) -> exec o s <> UB.
Proof. intros H H1 H2 H3. eapply wp_noUB. apply (step_ok o s a (run_inv _ _ H) H1 H2 H3). Qed.
