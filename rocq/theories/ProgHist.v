(* Building a program: the calls of the statements, the position of each statement, the label each name denotes, and the
   bytes of each statement in the finished code. *)
From Coq Require Import ZArith List Bool String Lia.
From Verif Require Import Base Types Emit EmitFacts Encode Mnemonic SpecX86 SpecLeg SpecCond SpecExec SpecMach State Code Label Gen Wp CodeFacts LabelFacts LabelInv LabelEmit SpecMem SpecLabel LabelHist LabelThms LabelThms2 LabelThms3 LabelThms4 Stable LabelThms5 Grow LabelThms6 LabelThms7 LabelThms8 CodeThms SpecProg PlainFacts ProgInsn ProgMach ProgRef.
Import ListNotations.
Open Scope list_scope.
Open Scope Z_scope.

(* jmp xbyak.h:2940-2942, jcc xbyak_mnemonic.h:1207-, call xbyak.h:2947, db 1192-1205, putL 2936-2937 *)
Definition op_of (q : stmt) : op :=
  match q with
  | SIns m _ => OpEmit m
  | SJmp l ty => OpJmp l ty 0xEB 0xE9 0
  | SJcc k l ty => OpJmp l ty (0x70 + k) (0x80 + k) 0x0F
  | SCall l => OpJmp l T_NEAR 0 0xE8 0
  | SRet => OpEmit (i_ret 0)
  | SRef m _ _ | SJmpTo m _ | SCallTo m _ => OpEmit m
  | SData bs => OpEmit (dbs bs)
  | SPutL l => OpEmit (emit (IPutL l false 0))
  | SLabel l => OpL l
  | SNewLabel h => OpNewLabel h
  | SIn => OpInLocal | SOut => OpOutLocal
  | SNear b => OpSetJmpNear b
  | SReady => OpReady
  end.
Definition good (q : stmt) : Prop :=
  match q with
  | SIns m f => encoded m f | SJcc k _ _ => 0 <= k < 16
  | SRef m l f => encoded_ref m l f | SJmpTo m t => goes 4 m t | SCallTo m t => goes 2 m t
  | _ => True
  end.

Fixpoint after (s : St) (os : list op) : St :=
  match os with [] => s | o :: os => match exec o s with Done s1 _ => after s1 os | _ => s end end.
Definition pos_of (s0 : St) (p : program) (i : nat) : Z := c_size (g_code (after s0 (map op_of (firstn i p)))).

Lemma hist_after s a os s' a' : shist_ok s a os s' a' -> after s os = s'.
Proof. induction 1; cbn [after]; auto. now rewrite H1. Qed.
Lemma hist_split s a os1 : forall os2 s' a', shist_ok s a (os1 ++ os2) s' a' -> exists s1 a1, shist_ok s a os1 s1 a1 /\ shist_ok s1 a1 os2 s' a'.
Proof.
  revert s a. induction os1 as [|o os1 IH]; intros s a os2 s' a' H; cbn [app] in H.
  - exists s, a. split; [constructor|exact H].
  - inversion H as [|? ? ? sx ax ? ? ? L1 L2 L3 L4 L5]; subst. destruct (IH _ _ _ _ _ L5) as (s2 & a2 & A & B). exists s2, a2. split; [econstructor; eauto|exact B].
Qed.
Lemma no_reset_prog p : no_reset (map op_of p).
Proof. intros H. apply in_map_iff in H as (q & E & _). destruct q; discriminate. Qed.
Lemma split_nth (p : program) i q : nth_error p i = Some q -> p = firstn i p ++ q :: skipn (S i) p.
Proof.
  revert i. induction p as [|x p IH]; intros [|i] H; cbn in H; try discriminate.
  - now injection H as ->.
  - cbn [firstn app]. f_equal. rewrite (IH _ H) at 1. reflexivity.
Qed.
(* statement i in the history: the states before and after it *)
Record stage (s0 : St) (p : program) (s3 : St) (a3 : Spec) (i : nat) (q : stmt) (s : St) (a : Spec) (s1 : St) (a1 : Spec) : Prop := {
  st_run : run s a;
  st_before : shist_ok s0 spec0 (map op_of (firstn i p)) s a;
  st_legal : legal a (op_of q) (env_of s) (c_size (g_code s));
  st_ids : ids_left s (op_of q);
  st_exec : exec (op_of q) s = Done s1 tt;
  st_spec : spec_step a (op_of q) None (env_of s) (c_size (g_code s)) (c_size (g_code s1)) = Some a1;
  st_after : shist_ok s1 a1 (map op_of (skipn (S i) p)) s3 a3;
  st_pos : c_size (g_code s) = pos_of s0 p i;
  st_next : c_size (g_code s1) = pos_of s0 p (S i) }.
Lemma firstn_S (p : program) i q : nth_error p i = Some q -> firstn (S i) p = firstn i p ++ [q].
Proof.
  revert i. induction p as [|x p IH]; intros [|i] H; cbn in H; try discriminate; [now injection H as ->|].
  change (firstn (S (S i)) (x :: p)) with (x :: firstn (S i) p). rewrite (IH _ H). reflexivity.
Qed.
Lemma hist_app s a os s1 a1 os' s2 a2 : shist_ok s a os s1 a1 -> shist_ok s1 a1 os' s2 a2 -> shist_ok s a (os ++ os') s2 a2.
Proof. induction 1; intros; cbn [app]; auto. econstructor; eauto. Qed.
Section P.
  Variables (s0 s3 : St) (a3 : Spec) (p : program).
  Hypothesis Hnew : new_gen s0.
  Hypothesis Hhist : shist_ok s0 spec0 (map op_of p) s3 a3.
  Lemma the_stage i q : nth_error p i = Some q -> exists s a s1 a1, stage s0 p s3 a3 i q s a s1 a1.
  Proof.
    intros H. pose proof Hhist as Hh. rewrite (split_nth p i q H), map_app in Hh. cbn [map] in Hh.
    apply hist_split in Hh as (s & a & A & B). inversion B as [|? ? ? s1 a1 ? ? ? L1 L2 L3 L4 L5]; subst.
    exists s, a, s1, a1. split; auto.
    - exists s0, (map op_of (firstn i p)). split; auto. now apply shist_ok_h.
    - unfold pos_of. now rewrite (hist_after _ _ _ _ _ A).
    - unfold pos_of. rewrite (firstn_S p i q H), map_app. erewrite hist_after; [reflexivity|]. eapply hist_app; [exact A|]. econstructor; eauto. constructor.
  Qed.
  Lemma pos_mono : forall i j, (i <= j)%nat -> pos_of s0 p i <= pos_of s0 p j.
  Proof.
    intros i j H. induction H as [|j H IH]; [lia|]. etransitivity; [exact IH|]. clear IH H.
    destruct (nth_error p j) as [q|] eqn:E.
    - destruct (the_stage j q E) as (s & a & s1 & a1 & X). destruct X. rewrite <- st_pos0, <- st_next0.
      destruct (history_keeps [op_of q] s a s1 a1 (run_inv _ _ st_run0)) as [K _]; auto.
      + apply shist_ok_h. econstructor; eauto. constructor.
      + apply (no_reset_prog [q]).
    - apply nth_error_None in E. unfold pos_of. rewrite !firstn_all2 by lia. lia.
  Qed.
  Lemma pos_end : pos_of s0 p (List.length p) = c_size (g_code s3).
  Proof. unfold pos_of. rewrite firstn_all. now rewrite (hist_after _ _ _ _ _ Hhist). Qed.

  (* ---- names ---- *)
  Definition agree (a : Spec) (n : names) : Prop :=
    sp_anon a = n_anon n /\ sp_scopes a = n_scopes n /\ sp_nscope a = n_nscope n /\ sp_nlab a = n_nlab n
    /\ sp_lab a = map (fun x => (fst x, Fresh (snd x))) (n_lab n).
  Lemma agree_tid a n l : agree a n -> tid_of a l = label_named n l.
  Proof.
    intros (H1 & H2 & _ & _ & H3). destruct l as [k|h]; cbn [tid_of label_named]; [now rewrite H1, H2|]. unfold labOf. rewrite H3. clear.
    induction (n_lab n) as [|[h' i] l IH]; [reflexivity|]. cbn [map assoc fst snd]. destruct (Nat.eqb _ _); [reflexivity|exact IH].
  Qed.
  Lemma agree_ltid a n l : agree a n -> ltid a l = label_defined n l.
  Proof. intros H. unfold ltid, label_defined. rewrite (agree_tid a n l H). destruct l; [|reflexivity]. destruct H as (-> & _). reflexivity. Qed.
  Lemma agree_touch a n l : agree a n -> agree (touch a l) n.
  Proof. intros H. destruct l; [exact H|]. cbn [touch]. destruct (labOf a h); exact H. Qed.
End P.
(* an encoder call that succeeds emitted its items *)
Lemma done_emits m s s1 : ok_st s -> exec (OpEmit m) s = Done s1 tt -> exists its, EmitFacts.emits m (env_of s) (c_size (g_code s)) its tt.
Proof.
  intros (Hn & _) H. cbn [exec] in H. unfold runE in H. destruct (m (env_of s) (c_size (g_code s))) as [its [u|e]] eqn:E.
  - exists its. destruct u. split; [exact Hn|exact E].
  - unfold mbind in H. destruct (exec_items its s) as [s2 x|s2 e2|] eqn:E2; discriminate.
Qed.
Lemma bytes_touch its : forall a, Forall is_byte its -> touch_items a its = a.
Proof. induction its as [|[b|l r d|e] its IH]; intros a H; inversion H; cbn in *; try contradiction; auto. Qed.
Lemma bytes_spec its : forall a p q, Forall is_byte its -> spec_items a its p q = a.
Proof. induction its as [|[b|l r d|e] its IH]; intros a p q H; inversion H; cbn in *; try contradiction; auto. destruct (_ <=? q); auto. Qed.
Lemma agree_touch_items its : forall a n, agree a n -> agree (touch_items a its) n.
Proof. induction its as [|[b|l r d|e] its IH]; intros a n H; cbn [touch_items]; auto. now apply IH, agree_touch. Qed.
Lemma agree_items its : forall a p q n, agree a n -> agree (spec_items a its p q) n.
Proof.
  induction its as [|[b|l r d|e] its IH]; intros a p q n H; cbn [spec_items]; auto; [destruct (p + 1 <=? q); auto|].
  destruct (_ <=? q); auto. destruct (tid_of a l); auto.
Qed.
Definition emit_of (q : stmt) : option (E unit) := match q with SIns m _ => Some m | SRet => Some (i_ret 0) | SJmpTo m _ | SCallTo m _ => Some m | SData bs => Some (dbs bs) | _ => None end.
Lemma good_bytes q m env pos its u : good q -> emit_of q = Some m -> EmitFacts.emits m env pos its u -> Forall is_byte its.
Proof.
  destruct q; try discriminate; cbn [good emit_of]; intros Hg E He; injection E as <-.
  - apply (Hg _ _ _ _ He).
  - destruct He as [_ He]. injection He as <- _. constructor; [reflexivity|constructor].
  - apply (Hg _ _ _ _ He).
  - apply (Hg _ _ _ _ He).
  - destruct He as [_ He]. rewrite dbs_items in He. injection He as <- _. rewrite map_map. apply bytes_only.
Qed.
Lemma agree_step q s a s1 a1 n : ok_st s -> good q -> agree a n -> exec (op_of q) s = Done s1 tt ->
  spec_step a (op_of q) None (env_of s) (c_size (g_code s)) (c_size (g_code s1)) = Some a1 -> agree a1 (names_step n q).
Proof.
  intros Hok Hg Ha Hx Hs.
  assert (forall m, op_of q = OpEmit m -> agree a1 n) as HE.
  { intros m E. rewrite E in *. cbn [spec_step] in Hs. destruct (_ && _); [discriminate|]. destruct (m _ _) as [its x]. injection Hs as <-. apply agree_items, agree_touch_items, Ha. }
  assert (forall l ty sc lc lp, op_of q = OpJmp l ty sc lc lp -> agree a1 n) as HJ.
  { intros l ty sc lc lp E. rewrite E in *. cbn [spec_step] in Hs. destruct (_ && _); [discriminate|]. destruct (tid_of _ _); [|discriminate]. destruct (_ <=? maxCode); [|discriminate].
    injection Hs as <-. unfold addBranch. destruct (_ =? 2); exact (agree_touch a n l Ha). }
  destruct q; cbn [op_of names_step] in *; try (eapply HE; reflexivity); try (eapply HJ; reflexivity); clear HE HJ; cbn [spec_step] in Hs.
  - destruct (_ && _); [discriminate|]. pose proof (agree_touch a n l Ha) as Ht. destruct l as [k|h].
    + destruct (String.eqb k "@@"); [|destruct (tid_of _ _); [|discriminate]]; injection Hs as <-.
      * destruct Ht as (H1 & H2 & H3 & H4 & H5). unfold agree. cbn. repeat split; auto; congruence.
      * exact Ht.
    + destruct (tid_of _ _); [|discriminate]. injection Hs as <-. exact Ht.
  - injection Hs as <-. destruct Ha as (H1 & H2 & H3 & H4 & H5). unfold agree. cbn. repeat split; auto; congruence.
  - injection Hs as <-. destruct Ha as (H1 & H2 & H3 & H4 & H5). unfold agree. cbn. repeat split; auto; congruence.
  - injection Hs as <-. destruct Ha as (H1 & H2 & H3 & H4 & H5). unfold agree. cbn. repeat split; auto; congruence.
  - injection Hs as <-. exact Ha.
  - injection Hs as <-. exact Ha.
Qed.
Lemma agree_hist p : forall s a s' a' n, run s a -> shist_ok s a (map op_of p) s' a' -> Forall good p -> agree a n -> agree a' (fold_left names_step p n).
Proof.
  induction p as [|q p IH]; intros s a s' a' n HR H Hg Ha; cbn [map] in H; inversion H as [|? ? ? s1 a1 ? ? ? L1 L2 L3 L4 L5]; subst; cbn [fold_left]; [exact Ha|].
  inversion Hg; subst. apply (IH s1 a1 s' a'); auto.
  - eapply (run_more s a [op_of q]); [exact HR|]. eapply SH_done; eauto. constructor.
  - eapply agree_step; eauto. eapply run_ok; eauto.
Qed.
Lemma agree0 : agree spec0 names0.
Proof. repeat split. Qed.
Lemma agree_at p s0 s a i : new_gen s0 -> shist_ok s0 spec0 (map op_of (firstn i p)) s a -> Forall good p -> agree a (names_at p i).
Proof.
  intros Hn H Hg. unfold names_at. eapply agree_hist; [| |apply Forall_forall; intros q Hq; eapply Forall_forall; [exact Hg|]|apply agree0].
  - exists s0, []. split; [exact Hn|constructor].
  - exact H.
  - rewrite <- (firstn_skipn i p). apply in_or_app. now left.
Qed.

(* ---- bytes ---- *)
Lemma ref_below s a r : run s a -> In r (sp_refs a) -> r_pos r + r_size r <= c_size (g_code s).
Proof.
  intros HR Hr. destruct (run_inv _ _ HR) as (_ & g & gid & bnd & HI). destruct HI, iv_ref. rewrite <- iv_refs in Hr.
  apply in_map_iff in Hr as ([r' st] & E & Hx). cbn [fst] in E. subst r'.
  destruct (layout_in _ _ _ ri_layout Hx) as (A & B & C). cbn [fst] in *. lia.
Qed.
Lemma size_ge s a : run s a -> 0 <= c_size (g_code s).
Proof. intros HR. destruct (run_ok _ _ HR) as (_ & W & _). destruct W. lia. Qed.
Definition loaded (s3 : St) (m : st) : Prop :=
  forall k, 0 <= k < c_size (g_code s3) -> mm m (addr64 (c_top (g_code s3) + k)) = c_mem (g_code s3) k.
