(* The finished code executes as the program was written. *)
From Coq Require Import ZArith List Bool String Lia.
From Verif Require Import Base Types Emit EmitFacts Encode Mnemonic SpecX86 SpecLeg SpecCond SpecExec SpecMach State Code Label Gen Wp CodeFacts LabelFacts LabelInv LabelEmit SpecMem SpecLabel LabelHist LabelThms LabelThms2 LabelThms3 LabelThms4 Stable LabelThms5 Grow LabelThms6 LabelThms7 LabelThms8 CodeThms SpecProg PlainFacts ProgInsn ProgMach ProgRef ProgHist.
Import ListNotations.
Open Scope list_scope.
Open Scope Z_scope.

Lemma bytes_len its sg : Forall is_byte its -> items_len its = Z.of_nat (List.length (render sg its)) /\ items_size its = Z.of_nat (List.length (render sg its)).
Proof.
  induction its as [|[b|l r d|e] its IH]; intros H; inversion H as [|? ? Hx Hr]; subst; try contradiction Hx; [split; reflexivity|].
  destruct (IH Hr). cbn [items_len items_size item_size render render1 app List.length]. lia.
Qed.
Lemma bytes_at m its sg : forall p, Forall is_byte its -> items_at m p its -> mem_has m p (render sg its).
Proof.
  induction its as [|[b|l r d|e] its IH]; intros p H A; inversion H; subst; cbn in *; try contradiction; auto.
  destruct A as [A1 A2]. split; [congruence|]. now apply IH.
Qed.
Lemma size_le s0 s3 a3 p i q s a s1 a1 : new_gen s0 -> shist_ok s0 spec0 (map op_of p) s3 a3 -> nth_error p i = Some q -> stage s0 p s3 a3 i q s a s1 a1 ->
  c_size (g_code s1) <= c_size (g_code s3).
Proof.
  intros Hn Hh Hq X. rewrite (st_next _ _ _ _ _ _ _ _ _ _ X), <- (pos_end s0 s3 a3 p Hh). apply (pos_mono s0 s3 a3 p); auto.
  assert (i < List.length p)%nat by (apply nth_error_Some; congruence). lia.
Qed.
Lemma one_step s a o s1 a1 : legal a o (env_of s) (c_size (g_code s)) -> ids_left s o -> exec o s = Done s1 tt ->
  spec_step a o None (env_of s) (c_size (g_code s)) (c_size (g_code s1)) = Some a1 -> shistory s a [o] s1 a1.
Proof. intros. eapply SH_done; eauto. constructor. Qed.
(* bytes outside of the label fields are those of the finished code *)
Lemma final_bytes s0 s3 a3 p i q s a s1 a1 l x : stage s0 p s3 a3 i q s a s1 a1 ->
  mem_has (c_mem (g_code s1)) x l -> 0 <= x -> x + Z.of_nat (List.length l) <= c_size (g_code s1) ->
  (forall r, In r (sp_refs a1) -> r_pos r + r_size r <= x \/ x + Z.of_nat (List.length l) <= r_pos r) ->
  mem_has (c_mem (g_code s3)) x l.
Proof.
  intros X Hm H0 H1 Hr. destruct X. pose proof (one_step _ _ _ _ _ st_legal st_ids st_exec st_spec) as H.
  pose proof (run_more _ _ _ _ _ st_run H) as R1.
  destruct (history_keeps _ s1 a1 s3 a3 (run_inv _ _ R1) (shist_ok_h _ _ _ _ _ st_after) (no_reset_prog _)) as [_ K].
  eapply mem_has_ext; [|exact Hm]. intros k Hk. apply K; [lia|]. intros (r & Hin & _ & Hf). unfold in_field in Hf. destruct (Hr r Hin); lia.
Qed.

Lemma skip_skip {A} (l : list A) : forall x y, skipn x (skipn y l) = skipn (x + y) l.
Proof.
  intros x y. revert l x. induction y as [|y IH]; intros l x; [now rewrite Nat.add_0_r|]. destruct l as [|z l]; [now rewrite !skipn_nil|].
  rewrite Nat.add_succ_r. cbn [skipn]. apply IH.
Qed.

(* ---- a label field inside an instruction or as data ---- *)
Lemma items_pre m pre its : forall p, items_at m p (map IDb pre ++ its) -> mem_has m p (map w8 pre) /\ items_at m (p + Z.of_nat (List.length pre)) its.
Proof.
  induction pre as [|b pre IH]; intros p H; cbn [map app items_at mem_has List.length] in *; [now rewrite Z.add_0_r|].
  destruct H as [H1 H2]. destruct (IH _ H2) as [H3 H4]. split; [auto|]. now replace (p + Z.of_nat (S (List.length pre))) with (p + 1 + Z.of_nat (List.length pre)) by lia.
Qed.
Lemma bytes_w8 pre : Forall is_byte (map IDb pre) -> map w8 pre = pre.
Proof. induction pre as [|b pre IH]; intros H; [reflexivity|]. inversion H; subst. cbn [map]. f_equal; auto. Qed.
Lemma bytes_refs post : forall a p q, sp_refs (spec_items a (map IDb post) p q) = sp_refs a.
Proof. induction post as [|b post IH]; intros a p q; cbn [map spec_items]; [reflexivity|]. destruct (_ <=? q); auto. Qed.
Lemma items_refs pre : forall a l (rel : bool) d post p q r, In r (sp_refs (spec_items a (map IDb pre ++ IPutL l rel d :: map IDb post) p q)) ->
  In r (sp_refs a) \/ r_pos r = p + Z.of_nat (List.length pre) /\ r_size r = (if rel then 4 else 8).
Proof.
  induction pre as [|b pre IH]; intros a l rel d post p q r H; cbn [map app spec_items List.length] in *.
  - rewrite Z.add_0_r. destruct (_ <=? q); auto. destruct (tid_of a l); auto. rewrite bytes_refs in H. destruct H as [<-|H]; auto.
  - destruct (_ <=? q); auto. apply IH in H. destruct H as [H|[H1 H2]]; auto. right. split; [lia|exact H2].
Qed.
Lemma len_ref pre l (rel : bool) d post : items_len (map IDb pre ++ IPutL l rel d :: map IDb post) = items_size (map IDb pre ++ IPutL l rel d :: map IDb post)
  /\ items_len (map IDb pre ++ IPutL l rel d :: map IDb post) = Z.of_nat (List.length pre) + (if rel then 4 else 8) + Z.of_nat (List.length post).
Proof.
  assert (forall post, items_len (map IDb post) = items_size (map IDb post) /\ items_len (map IDb post) = Z.of_nat (List.length post)) as Hp.
  { clear. induction post as [|b post [H1 H2]]; [split; reflexivity|]. cbn [map items_len items_size item_size List.length]. lia. }
  destruct (Hp post) as [P1 P2]. induction pre as [|b pre [H1 H2]]; cbn [map app items_len items_size item_size List.length].
  - destruct rel; lia.
  - lia.
Qed.
Lemma emit_step s a m s1 a1 : exec (OpEmit m) s = Done s1 tt -> shistory s a [OpEmit m] s1 a1 ->
  let its := fst (m (env_of s) (c_size (g_code s))) in
  a1 = spec_items (touch_items a its) its (c_size (g_code s)) (c_size (g_code s1)) /\ isAutoGrowC (g_code s) && sp_ready a = false.
Proof.
  intros Hex Hsh. cbv zeta.
  inversion Hsh as [|? ? ? s1' a1' ? ? ? L1 L2 L3 L4 L5|? ? ? e s1' a1' ? ? ? L1 L2 L3 L4 L5]; subst; [|congruence].
  assert (s1' = s1) by congruence. subst s1'. inversion L5; subst. cbn [spec_step] in L4. cbn [env_of env_autoGrow] in L4. destruct (_ && _); [discriminate|].
  destruct (m _ _) as [its x]. cbn [fst]. split; [congruence|reflexivity].
Qed.
Lemma items_defs its : forall a p q, sp_defs (spec_items a its p q) = sp_defs a.
Proof. induction its as [|[b|l r d|e] its IH]; intros a p q; cbn [spec_items]; auto; [destruct (p + 1 <=? q); auto|]. destruct (_ <=? q); auto. destruct (tid_of a l); auto. now rewrite IH. Qed.
Lemma touch_defs its : forall a, sp_defs (touch_items a its) = sp_defs a.
Proof. induction its as [|[b|l r d|e] its IH]; intros a; cbn [touch_items]; auto. rewrite IH. destruct l; [reflexivity|]. cbn [touch]. now destruct (labOf a h). Qed.
(* the bytes of the field, and where they lead *)
Definition leads (c : Code) (p : Z) (rel : bool) (v x : Z) : Prop :=
  if rel then addr64 (c_top c + (p + 4) + SpecX86.signed 32 (v mod 2 ^ 32)) = addr64 x else v mod 2 ^ 64 = addr64 x.
Lemma field_final s a m s1 a1 pre l (rel : bool) d post r os s2 a2 t o os' s3 a3 :
  run s a -> exec (OpEmit m) s = Done s1 tt -> shistory s a [OpEmit m] s1 a1 ->
  m (env_of s) (c_size (g_code s)) = (map IDb pre ++ IPutL l rel d :: post, r) -> tid_of a l = Some t ->
  shistory s1 a1 os s2 a2 -> no_reset os -> sp_defs a2 t = Some o ->
  shistory s2 a2 os' s3 a3 -> no_reset os' -> finished s3 a3 ->
  let p := c_size (g_code s) + Z.of_nat (List.length pre) in
  exists v, mem_has (c_mem (g_code s3)) p (le_bytes v (if rel then 4%nat else 8%nat))
    /\ leads (g_code s3) p rel v (c_top (g_code s3) + o + if rel then d else 0).
Proof.
  intros HR Hex Hsh Hm Ht Hos Hnr Hd Hos' Hnr' Hf p.
  pose proof (field_lands s a m s1 a1 pre l rel d post r os s2 a2 t o os' s3 a3 HR Hex Hsh Hm Ht Hos Hnr Hd Hos' Hnr' Hf) as T. cbv zeta in T. fold p in T.
  pose proof (run_more _ _ _ _ _ HR Hsh) as R1. pose proof (run_more _ _ _ _ _ R1 Hos) as R2. pose proof (run_more _ _ _ _ _ R2 Hos') as R3.
  destruct (emit_ref s a m s1 a1 pre l rel d post r t (run_inv _ _ HR) Hex Hsh Hm Ht) as (v & Hr). fold p in Hr.
  pose proof (history_kept os s1 a1 s2 a2 (run_inv _ _ R1) Hos Hnr) as K.
  destruct (ref_resolved a1 a2 _ t o K (run_SI _ _ R2) Hr eq_refl Hd) as (r' & Hr' & (S1 & S2 & S3 & S4 & S5) & Hv).
  cbn [r_pos r_size r_tid r_rel r_d] in *.
  pose proof (history_resolved _ _ _ _ _ _ _ Hos' Hnr' Hr' Hv) as Hr3.
  destruct (field_of s3 a3 r' o (run_inv _ _ R3) Hf Hr3 Hv) as (_ & _ & F). unfold field in F. rewrite S1, S2 in F.
  exists (want (c_top (g_code s3)) r' o). destruct rel.
  - split; [exact F|]. unfold branch_target, read_signed in T. rewrite (le_read_bytes _ _ _ _ F) in T. exact T.
  - split; [exact F|]. unfold read_u64 in T. rewrite (le_read_bytes _ 8 _ _ F) in T. rewrite Z.add_0_r. exact T.
Qed.
Section P.
  Variables (s0 s3 : St) (a3 : Spec) (p : program).
  Hypothesis Hnew : new_gen s0.
  Hypothesis Hhist : shist_ok s0 spec0 (map op_of p) s3 a3.
  Hypothesis Hgood : Forall good p.
  Hypothesis Hfin : finished s3 a3.
  Definition adr (i : nat) : Z := addr64 (c_top (g_code s3) + pos_of s0 p i).

  Lemma good_at i q : nth_error p i = Some q -> good q.
  Proof. intros H. eapply Forall_forall; [exact Hgood|]. eapply nth_error_In; eauto. Qed.
  Lemma pos_ge i : 0 <= pos_of s0 p i.
  Proof.
    apply Z.le_trans with (pos_of s0 p 0); [|apply (pos_mono s0 s3 a3 p); auto; lia].
    unfold pos_of. cbn. apply (size_ge s0 spec0). exists s0, []. split; [exact Hnew|constructor].
  Qed.
  Lemma pos_le i : (i <= List.length p)%nat -> pos_of s0 p i <= c_size (g_code s3).
  Proof. intros H. rewrite <- (pos_end s0 s3 a3 p Hhist). now apply (pos_mono s0 s3 a3 p). Qed.

  Definition before (i : nat) : St := after s0 (map op_of (firstn i p)).
  Lemma emit_stage i q m : nth_error p i = Some q -> emit_of q = Some m ->
    exists its env, EmitFacts.emits m env (pos_of s0 p i) its tt /\ Forall is_byte its
      /\ pos_of s0 p (S i) = pos_of s0 p i + items_size its /\ forall sg, mem_has (c_mem (g_code s3)) (pos_of s0 p i) (render sg its).
  Proof.
    intros Hq E. destruct (the_stage s0 s3 a3 p Hnew Hhist i q Hq) as (s & a & s1 & a1 & X). pose proof X as Y. destruct Y.
    assert (Eo : op_of q = OpEmit m) by (destruct q; try discriminate; injection E as <-; reflexivity).
    rewrite Eo in *. pose proof (run_ok _ _ st_run) as Hok.
    destruct (done_emits m s s1 Hok st_exec) as (its & He). pose proof (good_bytes _ _ _ _ _ _ (good_at i q Hq) E He) as Hb.
    assert (isAutoGrowC (g_code s) && sp_ready a = false) as Hf. { cbn [spec_step env_of env_autoGrow] in st_spec. destruct (_ && _); [discriminate|reflexivity]. }
    pose proof (instr_bytes s a m st_run st_legal st_ids Hf) as B. rewrite st_exec in B.
    pose proof He as [_ He']. rewrite He' in B. cbn zeta in B. cbn [fst] in B. destruct B as (B1 & B2 & _).
    assert (a1 = a) as Ea.
    { cbn [spec_step] in st_spec. destruct (_ && _); [discriminate|]. rewrite He' in st_spec. injection st_spec as <-. rewrite bytes_touch, bytes_spec; auto. }
    exists its, (env_of s). rewrite <- st_pos, <- st_next. split; [exact He|]. split; [exact Hb|].
    destruct (bytes_len its (fun _ _ _ => 0) Hb) as [L1 L2]. split; [lia|]. intros sg.
    destruct (bytes_len its sg Hb) as [L3 L4]. pose proof (size_ge _ _ st_run).
    eapply (final_bytes s0 s3 a3 p i q s a s1 a1); [exact X|now apply bytes_at|lia|lia|].
    intros r Hr. rewrite Ea in Hr. pose proof (ref_below _ _ _ st_run Hr). lia.
  Qed.

  (* a branch: its opcode bytes, and its size *)
  Lemma branch_stage i q l ty sc lc lp : nth_error p i = Some q -> op_of q = OpJmp l ty sc lc lp ->
    exists short : bool, (ty = T_NEAR -> short = false)
      /\ let ops := if short then [w8 sc] else if lp =? 0 then [w8 lc] else [w8 lp; w8 lc] in
         pos_of s0 p (S i) = pos_of s0 p i + Z.of_nat (List.length ops) + (if short then 1 else 4)
         /\ mem_has (c_mem (g_code s3)) (pos_of s0 p i) ops.
  Proof.
    intros Hq Eo. destruct (the_stage s0 s3 a3 p Hnew Hhist i q Hq) as (s & a & s1 & a1 & X). pose proof X as Y. destruct Y. rewrite Eo in *.
    assert (exists t, tid_of a l = Some t /\ isAutoGrowC (g_code s) && sp_ready a = false /\ c_size (g_code s1) <= maxCode
      /\ a1 = addBranch (touch a l) (c_size (g_code s)) (c_size (g_code s1)) (Some t) 0) as (t & Ht & Hf & Hmax & Ea).
    { cbn [spec_step] in st_spec. cbn [env_of env_autoGrow] in st_spec. destruct (_ && _); [discriminate|]. rewrite tid_of_touch in st_spec.
      destruct (tid_of a l) as [t|]; [|discriminate]. destruct (_ <=? maxCode) eqn:Hm; [|discriminate]. exists t. injection st_spec as <-. repeat split; auto. lia. }
    pose proof (one_step _ _ _ _ _ st_legal st_ids st_exec st_spec) as H1.
    destruct (history_keeps [OpJmp l ty sc lc lp] s a s1 a1 (run_inv _ _ st_run) H1) as [Hle _]; [apply no_reset1; discriminate|].
    pose proof (branch_bytes l ty sc lc lp s a t s1 st_run Hf st_legal) as B. unfold ids_left in st_ids. cbn [mentions] in st_ids.
    specialize (B ltac:(lia) Ht ltac:(lia) st_exec). cbn zeta in B. destruct B as [B1 B2].
    set (short := takes_short (sp_defs a t) (g_jmpNear s) ty (c_size (g_code s))) in *.
    exists short. split. { intros ->. unfold short, takes_short. destruct (sp_defs a t); reflexivity. }
    cbv zeta. rewrite <- st_pos, <- st_next. pose proof (size_ge _ _ st_run).
    split; [destruct short; [|destruct (lp =? 0)]; cbn [List.length] in *; lia|].
    eapply (final_bytes s0 s3 a3 p i q s a s1 a1); [exact X|exact B2|lia| |].
    - destruct short; [|destruct (lp =? 0)]; cbn [List.length] in *; lia.
    - intros r Hr. rewrite Ea in Hr. unfold addBranch, addRef in Hr.
      assert (forall r, In r (sp_refs (touch a l)) -> r_pos r + r_size r <= c_size (g_code s)) as Hold.
      { intros r' Hr'. apply (ref_below _ _ _ st_run). destruct l as [|h]; [exact Hr'|]. cbn [touch] in Hr'. destruct (labOf a h); exact Hr'. }
      destruct (c_size (g_code s1) - c_size (g_code s) =? 2) eqn:H2; cbn [set_refs sp_refs] in Hr; destruct Hr as [<-|Hr]; cbn [r_pos r_size];
        try (left; now apply Hold); right; destruct short; [|destruct (lp =? 0)| |destruct (lp =? 0)]; cbn [List.length] in *; lia.
  Qed.

  (* two statements *)
  Lemma two_stages i j q q' : (i < j)%nat -> nth_error p i = Some q -> nth_error p j = Some q' -> exists s a s1 a1 s2 a2 s2' a2',
    run s a /\ agree a (names_at p i) /\ c_size (g_code s) = pos_of s0 p i /\ exec (op_of q) s = Done s1 tt /\ shistory s a [op_of q] s1 a1
    /\ c_size (g_code s1) = pos_of s0 p (S i)
    /\ shistory s1 a1 (map op_of (firstn (j - S i) (skipn (S i) p))) s2 a2
    /\ run s2 a2 /\ agree a2 (names_at p j) /\ c_size (g_code s2) = pos_of s0 p j /\ exec (op_of q') s2 = Done s2' tt /\ shistory s2 a2 [op_of q'] s2' a2'
    /\ c_size (g_code s2') = pos_of s0 p (S j)
    /\ shistory s2' a2' (map op_of (skipn (S j) p)) s3 a3 /\ s = before i /\ s2 = before j.
  Proof.
    intros Hij Hi Hj. destruct (the_stage s0 s3 a3 p Hnew Hhist i q Hi) as (s & a & s1 & a1 & X). destruct X.
    assert (Hj' : nth_error (skipn (S i) p) (j - S i) = Some q').
    { rewrite <- Hj. rewrite <- (firstn_skipn (S i) p) at 2. rewrite nth_error_app2; rewrite firstn_length; assert (j < List.length p)%nat by (apply nth_error_Some; congruence); [f_equal|]; lia. }
    pose proof st_after as H3. rewrite (split_nth _ _ _ Hj'), map_app in H3. cbn [map] in H3. apply hist_split in H3 as (s2 & a2 & A & B).
    inversion B as [|? ? ? s2' a2' ? ? ? L1 L2 L3 L4 L5]; subst.
    assert (F : firstn j p = firstn i p ++ q :: firstn (j - S i) (skipn (S i) p)).
    { rewrite (split_nth p i q Hi) at 1. rewrite firstn_app, firstn_firstn, firstn_length. assert (i < List.length p)%nat by (apply nth_error_Some; congruence).
      rewrite Nat.min_r, Nat.min_l by lia. f_equal. replace (j - i)%nat with (S (j - S i)) by lia. reflexivity. }
    assert (H2 : shist_ok s0 spec0 (map op_of (firstn j p)) s2 a2).
    { rewrite F, map_app. eapply hist_app; [exact st_before|]. cbn [map]. econstructor; eauto. }
    assert (Sk : skipn (S (j - S i)) (skipn (S i) p) = skipn (S j) p) by (rewrite skip_skip; f_equal; lia).
    exists s, a, s1, a1, s2, a2, s2', a2'. assert (L6 : shist_ok s2' a2' (map op_of (skipn (S j) p)) s3 a3) by (rewrite <- Sk; exact L5). clear L5. repeat (split; [first [assumption | now apply one_step | eapply agree_at; eauto | now apply shist_ok_h | idtac]|]).
    - exists s0, (map op_of (firstn j p)). split; [exact Hnew|now apply shist_ok_h].
    - unfold pos_of. now rewrite (hist_after _ _ _ _ _ H2).
    - unfold pos_of. rewrite (firstn_S p j q' Hj), map_app. erewrite hist_after; [reflexivity|]. eapply hist_app; [exact H2|]. econstructor; eauto. constructor.
    - symmetry. apply (hist_after _ _ _ _ _ st_before).
    - symmetry. apply (hist_after _ _ _ _ _ H2).
  Qed.

  Lemma lands i j q l ty sc lc lp : nth_error p i = Some q -> op_of q = OpJmp l ty sc lc lp -> leads_to p i l j ->
    let n := jsize (pos_of s0 p i) (pos_of s0 p (S i)) in
    branch_target (g_code s3) (pos_of s0 p (S i) - n) n = adr j.
  Proof.
    intros Hq Eo (t & l' & Ht & Hj & Ht'). unfold adr. rewrite addr64_w64.
    destruct (Nat.lt_trichotomy i j) as [L|[->|L]].
    - destruct (two_stages i j q _ L Hq Hj) as (s & a & s1 & a1 & s2 & a2 & s2' & a2' & R & G & P1 & X1 & H1 & P2 & H2 & R2 & G2 & P3 & X2 & H3 & P4 & H4 & _).
      rewrite Eo in *. cbn [op_of] in X2, H3. rewrite <- P1, <- P2, <- P3.
      eapply (forward_jump s a l ty sc lc lp s1 a1 _ s2 a2 l' s2' a2' _ s3 a3 t); eauto using no_reset_prog.
      + rewrite (agree_tid a _ l G). exact Ht.
      + rewrite (agree_ltid a2 _ l' G2). exact Ht'.
    - rewrite Hj in Hq. injection Hq as <-. discriminate.
    - destruct (two_stages j i _ q L Hj Hq) as (s & a & s1 & a1 & s2 & a2 & s2' & a2' & R & G & P1 & X1 & H1 & P2 & H2 & R2 & G2 & P3 & X2 & H3 & P4 & H4 & _).
      rewrite Eo in *. cbn [op_of] in X1, H1. rewrite <- P1, <- P3, <- P4.
      eapply (backward_jump s a l' s1 a1 _ s2 a2 l ty sc lc lp s2' a2' _ s3 a3 t); eauto using no_reset_prog.
      + rewrite (agree_ltid a _ l' G). exact Ht'.
      + rewrite (agree_tid a2 _ l G2). exact Ht.
  Qed.

  (* the field of l in statement i *)
  Lemma label_field i q m l pre (rel : bool) d post j : nth_error p i = Some q -> op_of q = OpEmit m ->
    m (env_of (before i)) (pos_of s0 p i) = (map IDb pre ++ IPutL l rel d :: post, Ok tt) -> leads_to p i l j ->
    let x := pos_of s0 p i + Z.of_nat (List.length pre) in
    exists v, mem_has (c_mem (g_code s3)) x (le_bytes v (if rel then 4%nat else 8%nat)) /\ leads (g_code s3) x rel v (adr j + if rel then d else 0).
  Proof.
    intros Hq Eo Hm (t & l' & Ht & Hj & Ht'). cbv zeta.
    assert (forall P v, leads (g_code s3) P rel v (c_top (g_code s3) + pos_of s0 p j + if rel then d else 0) -> leads (g_code s3) P rel v (adr j + if rel then d else 0)) as HL.
    { intros P v H. unfold leads, adr in *. rewrite addr64_add. exact H. }
    destruct (Nat.lt_trichotomy i j) as [L|[->|L]].
    - destruct (two_stages i j q _ L Hq Hj) as (s & a & s1 & a1 & s2 & a2 & s2' & a2' & R & G & P1 & X1 & H1 & P2 & H2 & R2 & G2 & P3 & X2 & H3 & P4 & H4 & B1 & _).
      rewrite Eo in *. cbn [op_of] in X2, H3. rewrite <- B1, <- P1 in Hm.
      rewrite <- (agree_ltid a2 _ l' G2) in Ht'. rewrite <- (agree_tid a _ l G) in Ht.
      edestruct (field_final s a m s1 a1 pre l rel d post (Ok tt) (map op_of (firstn (j - S i) (skipn (S i) p)) ++ [OpL l']) s2' a2' t (c_size (g_code s2)) (map op_of (skipn (S j) p)) s3 a3 R X1 H1 Hm Ht) as (v & V1 & V2);
        [eapply shist_app; eauto|apply no_reset_app; [apply no_reset_prog|apply no_reset1; discriminate]|eapply L_defines; eauto|exact H4|apply no_reset_prog|exact Hfin|].
      rewrite P1 in *. rewrite P3 in V2. eauto.
    - rewrite Hj in Hq. injection Hq as <-. discriminate.
    - destruct (two_stages j i _ q L Hj Hq) as (s & a & s1 & a1 & s2 & a2 & s2' & a2' & R & G & P1 & X1 & H1 & P2 & H2 & R2 & G2 & P3 & X2 & H3 & P4 & H4 & _ & B2).
      rewrite Eo in *. cbn [op_of] in X1, H1. rewrite <- B2, <- P3 in Hm.
      rewrite <- (agree_ltid a _ l' G) in Ht'. rewrite <- (agree_tid a2 _ l G2) in Ht.
      pose proof (L_defines _ _ _ _ _ _ X1 H1 Ht') as Hd. pose proof (run_more _ _ _ _ _ R H1) as R1.
      pose proof (history_kept _ s1 a1 s2 a2 (run_inv _ _ R1) H2 (no_reset_prog _)) as K.
      assert (sp_defs a2 t = Some (c_size (g_code s))) as Hd2.
      { destruct (kp_def _ _ K _ _ Hd) as [Hd2|(k & -> & Hg & _)]; [exact Hd2|exfalso].
        destruct l as [y|h]; [now apply tid_str_noobj in Ht|]. cbn [tid_of] in Ht. destruct (labOf a2 h) as [k'|] eqn:Hh; [|discriminate].
        cbn in Ht. inversion Ht; subst k'. now apply Hg in Hh. }
      destruct (emit_step s2 a2 m s2' a2' X2 H3) as [Ea _].
      edestruct (field_final s2 a2 m s2' a2' pre l rel d post (Ok tt) [] s2' a2' t (c_size (g_code s)) (map op_of (skipn (S i) p)) s3 a3 R2 X2 H3 Hm Ht) as (v & V1 & V2);
        [constructor|intros []|rewrite Ea, items_defs, touch_defs; exact Hd2|exact H4|apply no_reset_prog|exact Hfin|].
      rewrite P3 in *. rewrite P1 in V2. eauto.
  Qed.
  (* the other bytes *)
  Lemma ref_stage i q m : nth_error p i = Some q -> op_of q = OpEmit m ->
    exists its, m (env_of (before i)) (pos_of s0 p i) = (its, Ok tt) /\ EmitFacts.emits m (env_of (before i)) (pos_of s0 p i) its tt
      /\ forall l rel d pre post, its = map IDb pre ++ IPutL l rel d :: map IDb post -> Forall is_byte (map IDb pre) -> Forall is_byte (map IDb post) ->
         let n := if rel then 4 else 8 in
         pos_of s0 p (S i) = pos_of s0 p i + Z.of_nat (List.length pre) + n + Z.of_nat (List.length post)
         /\ mem_has (c_mem (g_code s3)) (pos_of s0 p i) pre /\ mem_has (c_mem (g_code s3)) (pos_of s0 p i + Z.of_nat (List.length pre) + n) post.
  Proof.
    intros Hq Eo. destruct (the_stage s0 s3 a3 p Hnew Hhist i q Hq) as (s & a & s1 & a1 & X). pose proof X as Y. destruct Y.
    rewrite Eo in *. pose proof (run_ok _ _ st_run) as Hok. pose proof (hist_after _ _ _ _ _ st_before : before i = s) as Eb. rewrite Eb, <- st_pos, <- st_next.
    destruct (done_emits m s s1 Hok st_exec) as (its & He). pose proof He as [_ He']. exists its. split; [exact He'|]. split; [exact He|].
    intros l rel d pre post -> Hb1 Hb2. cbv zeta. pose proof (one_step _ _ _ _ _ st_legal st_ids st_exec st_spec) as H1.
    destruct (emit_step s a m s1 a1 st_exec H1) as [Ea Hf]. rewrite He' in Ea. cbn [fst] in Ea.
    pose proof (instr_bytes s a m st_run st_legal st_ids Hf) as B. rewrite st_exec, He' in B. cbn zeta in B. cbn [fst] in B. destruct B as (B1 & B2 & _).
    destruct (len_ref pre l rel d post) as [_ L2]. rewrite L2 in B1. apply items_pre in B2 as [B2 B3]. cbn [items_at] in B3.
    rewrite <- (app_nil_r (map IDb post)) in B3. apply items_pre in B3 as [B3 _]. rewrite bytes_w8 in B2, B3 by assumption.
    pose proof (size_ge _ _ st_run) as H0.
    assert (forall r, In r (sp_refs a1) -> r_pos r + r_size r <= c_size (g_code s) \/ r_pos r = c_size (g_code s) + Z.of_nat (List.length pre) /\ r_size r = if rel then 4 else 8) as Hr.
    { intros r Hr. rewrite Ea in Hr. apply items_refs in Hr as [Hr|Hr]; [left|now right]. rewrite refs_touch_items in Hr. now apply (ref_below _ _ _ st_run). }
    split; [destruct rel; lia|]. split.
    - eapply (final_bytes s0 s3 a3 p i q s a s1 a1); [exact X|exact B2|lia|destruct rel; lia|]. intros r Hin. destruct (Hr r Hin) as [|[K1 K2]]; lia.
    - eapply (final_bytes s0 s3 a3 p i q s a s1 a1); [exact X|exact B3|destruct rel; lia|destruct rel; lia|]. intros r Hin. destruct (Hr r Hin) as [|[K1 K2]]; destruct rel; lia.
  Qed.

  (* ---- execution ---- *)
  Lemma fetch_at m i n k : loaded s3 m -> pos_of s0 p i + Z.of_nat n <= c_size (g_code s3) ->
    fetch (mm m) (adr i) (n + k) = cbytes (c_mem (g_code s3)) (pos_of s0 p i) n ++ fetch (mm m) (c_top (g_code s3) + (pos_of s0 p i + Z.of_nat n)) k.
  Proof. intros Hl H. unfold adr. rewrite fetch_mod. apply fetch_code. intros x Hx. apply Hl. pose proof (pos_ge i). lia. Qed.
  Lemma next_adr i n : pos_of s0 p (S i) = pos_of s0 p i + n -> addr64 (adr i + n) = adr (S i).
  Proof. intros H. unfold adr. rewrite addr64_add, H. f_equal. lia. Qed.
  Lemma i_lt i q : nth_error p i = Some q -> (i < List.length p)%nat.
  Proof. intros H. apply nth_error_Some. congruence. Qed.

  Lemma step_ins i m f x : nth_error p i = Some (SIns m f) -> loaded s3 x -> mstep (adr i) x = Some (adr (S i), f x).
  Proof.
    intros Hq Hl. destruct (emit_stage i _ m Hq eq_refl) as (its & env & He & Hb & Hp & Hm).
    pose proof (good_at i _ Hq) as Hg. cbn [good] in Hg. destruct (Hg _ _ _ _ He) as (_ & H15 & Hx).
    set (sg := fun (_ : LabelRef) (_ : bool) (_ : Z) => 0) in *. destruct (bytes_len its sg Hb) as [_ L].
    specialize (Hm sg). apply cbytes_has in Hm. pose proof (pos_le (S i) (i_lt i _ Hq)) as Hle.
    assert (F : fetch (mm x) (adr i) 15 = render sg its ++ fetch (mm x) (c_top (g_code s3) + (pos_of s0 p i + Z.of_nat (List.length (render sg its)))) (15 - List.length (render sg its))).
    { replace 15%nat with (List.length (render sg its) + (15 - List.length (render sg its)))%nat at 1 by lia. rewrite fetch_at by (auto; lia). now rewrite Hm. }
    rewrite (mstep_exec _ _ _ _ f F); [|intros rip; apply Hx]. do 2 f_equal. apply next_adr. lia.
  Qed.
  Lemma step_ret i x : nth_error p i = Some SRet -> loaded s3 x ->
    mstep (adr i) x = Some (addr64 (load (mm x) (rg x RSP) 8), set_reg x RSP (addr64 (rg x RSP + 8))).
  Proof.
    intros Hq Hl. destruct (emit_stage i _ _ Hq eq_refl) as (its & env & He & Hb & Hp & Hm).
    destruct He as [_ He]. injection He as <-. specialize (Hm (fun _ _ _ => 0)). cbn [render render1 app] in Hm.
    apply cbytes_has in Hm. pose proof (pos_le (S i) (i_lt i _ Hq)) as Hle. cbn [items_size item_size] in Hp. cbn [List.length] in Hm. change (w8 195) with 195 in Hm.
    eapply mstep_branch; [change 15%nat with (1 + 14)%nat; rewrite fetch_at by (auto; lia); rewrite Hm; reflexivity|]. reflexivity.
  Qed.

  (* the bytes of a branch, and its target *)
  Lemma branch_code i q l ty sc lc lp x : nth_error p i = Some q -> op_of q = OpJmp l ty sc lc lp -> loaded s3 x ->
    exists (short : bool) c, (ty = T_NEAR -> short = false)
      /\ let ops := if short then [w8 sc] else if lp =? 0 then [w8 lc] else [w8 lp; w8 lc] in
         let n := if short then 1 else 4 in let k := Z.of_nat (List.length ops) + n in
         fetch (mm x) (adr i) 15 = ops ++ c /\ addr64 (adr i + k) = adr (S i)
         /\ exists t, relative (adr i) k n c = Some t /\ forall j, leads_to p i l j -> t = adr j.
  Proof.
    intros Hq Eo Hl. pose proof (branch_stage i q l ty sc lc lp Hq Eo) as Hb. cbv zeta in Hb. destruct Hb as (short & Hn & Hp & Hm).
    set (ops := if short then [w8 sc] else if lp =? 0 then [w8 lc] else [w8 lp; w8 lc]) in *.
    assert (Lo : (1 <= List.length ops <= 2)%nat /\ (short = true -> List.length ops = 1%nat)).
    { unfold ops. destruct short; [|destruct (lp =? 0)]; cbn; split; intros; try discriminate; lia. }
    set (n := if short then 1 else 4) in *. assert (Hn4 : n = 1 \/ n = 4) by (unfold n; destruct short; auto).
    pose proof (pos_le (S i) (i_lt i _ Hq)) as Hle. apply cbytes_has in Hm.
    set (rest := fetch (mm x) (c_top (g_code s3) + (pos_of s0 p i + Z.of_nat (List.length ops + Z.to_nat n))) (15 - (List.length ops + Z.to_nat n))).
    set (fld := cbytes (c_mem (g_code s3)) (pos_of s0 p i + Z.of_nat (List.length ops)) (Z.to_nat n)).
    assert (F : fetch (mm x) (adr i) 15 = ops ++ fld ++ rest).
    { replace 15%nat with ((List.length ops + Z.to_nat n) + (15 - (List.length ops + Z.to_nat n)))%nat at 1 by lia.
      rewrite fetch_at by (auto; lia). rewrite cbytes_app, Hm, <- app_assoc. reflexivity. }
    exists short, (fld ++ rest). split; [exact Hn|]. cbv zeta. fold ops n. split; [exact F|]. split; [apply next_adr; lia|].
    assert (Lf : List.length fld = Z.to_nat n) by apply cbytes_length.
    unfold relative, take. rewrite app_length, Lf. replace (Z.of_nat (Z.to_nat n + List.length rest) <? n) with false by lia.
    rewrite <- Lf, firstn_app, firstn_all, Nat.sub_diag, firstn_O, app_nil_r.
    eexists. split; [reflexivity|]. intros j Hj. rewrite <- (lands i j q l ty sc lc lp Hq Eo Hj). cbv zeta.
    assert (Ej : jsize (pos_of s0 p i) (pos_of s0 p (S i)) = n).
    { unfold jsize. rewrite Hp. unfold n. destruct short; [|destruct (_ =? 2) eqn:E2; lia].
      destruct Lo as [_ Lo]. rewrite (Lo eq_refl). replace (_ =? 2) with true by lia. reflexivity. }
    rewrite Ej. unfold branch_target, read_signed, SpecMem.signed, SpecX86.signed.
    change SpecLeg.le_val with le_val. unfold fld. rewrite cbytes_val.
    replace (pos_of s0 p (S i) - n) with (pos_of s0 p i + Z.of_nat (List.length ops)) by lia.
    match goal with |- _ = w64 ?y => change (w64 y) with (addr64 y) end. unfold adr. rewrite <- Z.add_assoc, addr64_add. f_equal. lia.
  Qed.
  Lemma step_jmp i l ty j x : nth_error p i = Some (SJmp l ty) -> leads_to p i l j -> loaded s3 x -> mstep (adr i) x = Some (adr j, x).
  Proof.
    intros Hq Hj Hl. pose proof (branch_code i _ _ _ _ _ _ x Hq eq_refl Hl) as Hb. cbv zeta in Hb. destruct Hb as (short & c & _ & F & _ & t & Ht & Hx). rewrite (Hx j Hj) in Ht.
    eapply mstep_branch; [exact F|]. destruct short; cbn [Z.eqb] in *; cbn in Ht; unfold branch; change (w8 0xEB) with 0xEB; change (w8 0xE9) with 0xE9; cbn [app Z.eqb Pos.eqb]; now rewrite Ht.
  Qed.
  Lemma step_call i l j x : nth_error p i = Some (SCall l) -> leads_to p i l j -> loaded s3 x -> mstep (adr i) x = Some (adr j, do_push 64 (adr (S i)) x).
  Proof.
    intros Hq Hj Hl. pose proof (branch_code i _ _ _ _ _ _ x Hq eq_refl Hl) as Hb. cbv zeta in Hb. destruct Hb as (short & c & Hs & F & Hn & t & Ht & Hx). rewrite (Hx j Hj) in Ht. rewrite (Hs eq_refl) in *.
    eapply mstep_branch; [exact F|]. cbn in Ht, Hn. unfold branch. change (w8 0xE8) with 0xE8. cbn [app Z.eqb Pos.eqb]. rewrite Ht, Hn. reflexivity.
  Qed.
  Lemma step_jcc i k l ty x : nth_error p i = Some (SJcc k l ty) -> loaded s3 x ->
    exists t, mstep (adr i) x = Some (if_taken (cc_holds k (fl x)) t (adr (S i)), x) /\ forall j, leads_to p i l j -> t = adr j.
  Proof.
    intros Hq Hl. pose proof (good_at i _ Hq) as Hk. cbn [good] in Hk.
    pose proof (branch_code i _ _ _ _ _ _ x Hq eq_refl Hl) as Hb. cbv zeta in Hb. destruct Hb as (short & c & _ & F & Hn & t & Ht & Hx). exists t. split; [|exact Hx].
    eapply mstep_branch; [exact F|]. destruct short; cbn [Z.eqb] in *; cbn in Ht, Hn; unfold branch; cbn [app].
    - assert (E : w8 (112 + k) = 112 + k) by (unfold w8; rewrite Z.mod_small; lia). rewrite E.
      replace (112 + k =? 0xEB) with false by lia. replace (112 + k =? 0xE9) with false by lia. replace (112 + k =? 0xE8) with false by lia. replace (112 + k =? 0xC3) with false by lia.
      replace ((0x70 <=? 112 + k) && (112 + k <=? 0x7F)) with true by lia. replace (112 + k - 0x70) with k by lia. rewrite Ht, Hn. reflexivity.
    - assert (E : w8 (128 + k) = 128 + k) by (unfold w8; rewrite Z.mod_small; lia). rewrite E. change (w8 15) with 15. cbn [Z.eqb Pos.eqb Z.leb Z.compare Pos.compare Pos.compare_cont andb].
      replace ((0x80 <=? 128 + k) && (128 + k <=? 0x8F)) with true by lia. replace (128 + k - 0x80) with k by lia. rewrite Ht, Hn. reflexivity.
  Qed.
  Lemma step_skip i q : nth_error p i = Some q -> no_code q = true -> adr (S i) = adr i.
  Proof.
    intros Hq Hc. destruct (the_stage s0 s3 a3 p Hnew Hhist i q Hq) as (s & a & s1 & a1 & X). destruct X. unfold adr. rewrite <- st_pos, <- st_next.
    destruct (match q with SNear b => true | _ => false end) eqn:Hs.
    - destruct q; try discriminate. injection st_exec as <-. reflexivity.
    - assert (emits (op_of q) = false) as H1 by (destruct q; try discriminate; reflexivity).
      assert (sets (op_of q) = false) as H2 by (destruct q; try discriminate; reflexivity).
      assert (op_of q <> OpReset) as H3 by (destruct q; discriminate).
      pose proof (exec_changes (op_of q) s a (run_inv _ _ st_run) H1 H2 H3) as C. unfold changes in C. rewrite st_exec in C.
      destruct C as [(_ & -> & _) _]. reflexivity.
  Qed.

  (* a reference: the address of the label *)
  Lemma adr_range i : 0 <= adr i < 2 ^ 64.
  Proof. unfold adr, addr64. apply Z.mod_pos_bound. reflexivity. Qed.
  Lemma step_ref i m l f j x : nth_error p i = Some (SRef m l f) -> leads_to p i l j -> loaded s3 x -> mstep (adr i) x = Some (adr (S i), f (adr j) x).
  Proof.
    intros Hq Hj Hl. destruct (ref_stage i _ m Hq eq_refl) as (its & Em & He & Hs).
    pose proof (good_at i _ Hq) as Hg. cbn [good] in Hg. destruct (Hg _ _ _ _ He) as (pre & rel & d & post & Ei & Hb1 & Hb2 & H15 & Hx).
    specialize (Hs l rel d pre post Ei Hb1 Hb2). cbv zeta in Hs. destruct Hs as (Hp & M1 & M3). rewrite Ei in Em.
    pose proof (label_field i _ m l pre rel d _ j Hq eq_refl Em Hj) as V. cbv zeta in V. destruct V as (v & M2 & V).
    set (sg := fun (_ : LabelRef) (_ : bool) (_ : Z) => v) in *. set (fld := le_bytes v (if rel then 4%nat else 8%nat)) in *.
    assert (Lf : Z.of_nat (List.length fld) = if rel then 4 else 8) by (unfold fld; rewrite le_bytes_length; destruct rel; reflexivity).
    assert (Er : render sg its = pre ++ fld ++ post). { rewrite Ei, render_app. cbn [render render1]. rewrite !render_IDb. reflexivity. }
    assert (Hm : mem_has (c_mem (g_code s3)) (pos_of s0 p i) (render sg its)).
    { rewrite Er. apply mem_has_app. split; [exact M1|]. apply mem_has_app. split; [exact M2|]. rewrite Lf. exact M3. }
    assert (Hn : pos_of s0 p (S i) = pos_of s0 p i + Z.of_nat (List.length (render sg its))) by (rewrite Er, !app_length; lia).
    assert (H15' : (List.length (render sg its) <= 15)%nat).
    { destruct (len_ref pre l rel d post) as [L1 L2]. rewrite <- Ei in L1, L2. rewrite Er, !app_length. lia. }
    apply cbytes_has in Hm. pose proof (pos_le (S i) (i_lt i _ Hq)) as Hle.
    assert (F : fetch (mm x) (adr i) 15 = render sg its ++ fetch (mm x) (c_top (g_code s3) + (pos_of s0 p i + Z.of_nat (List.length (render sg its)))) (15 - List.length (render sg its))).
    { replace 15%nat with (List.length (render sg its) + (15 - List.length (render sg its)))%nat at 1 by lia. rewrite fetch_at by (auto; lia). now rewrite Hm. }
    pose proof (next_adr i _ Hn) as Hna. destruct (Hx sg (fetch (mm x) (c_top (g_code s3) + (pos_of s0 p i + Z.of_nat (List.length (render sg its)))) (15 - List.length (render sg its))) (adr i) x) as [(x1 & X1) _].
    rewrite (mstep_next _ _ _ x x1 (f (adr j) x) F (exec_x _ _ _ _ X1)); [now rewrite Hna|]. rewrite Hna.
    apply exec_x, Hx; [apply adr_range|]. change (sg l rel d) with v. unfold field_says. unfold leads in V. destruct rel.
    - rewrite <- V. unfold adr. match goal with |- addr64 (?A - ?n + ?z) = _ => replace (A - n + z) with (A + (z - n)) by lia end. rewrite addr64_add. f_equal. lia.
    - rewrite V. rewrite Z.add_0_r. unfold adr, addr64. apply Z.mod_mod. discriminate.
  Qed.
  (* indirect branches *)
  Lemma step_to i q m k t x : nth_error p i = Some q -> emit_of q = Some m -> goes k m t -> loaded s3 x ->
    mstep (adr i) x = Some (addr64 (t x), if k =? 2 then do_push 64 (adr (S i)) x else x).
  Proof.
    intros Hq Eq Hg Hl. destruct (emit_stage i _ m Hq Eq) as (its & env & He & Hb & Hp & Hm). destruct (Hg _ _ _ _ He) as (_ & H15 & Hx).
    set (sg := fun (_ : LabelRef) (_ : bool) (_ : Z) => 0) in *. destruct (bytes_len its sg Hb) as [_ L].
    specialize (Hm sg). apply cbytes_has in Hm. pose proof (pos_le (S i) (i_lt i _ Hq)) as Hle.
    set (rest := fetch (mm x) (c_top (g_code s3) + (pos_of s0 p i + Z.of_nat (List.length (render sg its)))) (15 - List.length (render sg its))).
    assert (F : fetch (mm x) (adr i) 15 = render sg its ++ rest).
    { unfold rest. replace 15%nat with (List.length (render sg its) + (15 - List.length (render sg its)))%nat at 1 by lia. rewrite fetch_at by (auto; lia). now rewrite Hm. }
    destruct (Hx sg rest) as (h & rm & D & X & T).
    rewrite (mstep_indirect _ _ _ _ h k rm (t x) F D X (T _ x)). rewrite (next_adr i (Z.of_nat (List.length (render sg its)))) by lia. reflexivity.
  Qed.
  Lemma step_jmpto i m t x : nth_error p i = Some (SJmpTo m t) -> loaded s3 x -> mstep (adr i) x = Some (addr64 (t x), x).
  Proof. intros Hq Hl. apply (step_to i _ m 4 t x Hq eq_refl (good_at i _ Hq) Hl). Qed.
  Lemma step_callto i m t x : nth_error p i = Some (SCallTo m t) -> loaded s3 x -> mstep (adr i) x = Some (addr64 (t x), do_push 64 (adr (S i)) x).
  Proof. intros Hq Hl. apply (step_to i _ m 2 t x Hq eq_refl (good_at i _ Hq) Hl). Qed.

  (* ---- data ---- *)
  Lemma load_mod m n : forall y z, addr64 y = addr64 z -> load m y n = load m z n.
  Proof. induction n as [|n IH]; intros y z H; [reflexivity|]. cbn [load]. rewrite H. f_equal. f_equal. apply IH. rewrite <- (addr64_add y 1), <- (addr64_add z 1). congruence. Qed.
  Lemma load_code x n : loaded s3 x -> forall k, 0 <= k -> k + Z.of_nat n <= c_size (g_code s3) -> load (mm x) (c_top (g_code s3) + k) n = le_read (c_mem (g_code s3)) k n.
  Proof.
    intros Hl. induction n as [|n IH]; intros k H0 H; [reflexivity|]. cbn [load le_read]. rewrite Hl by lia. f_equal. f_equal.
    rewrite <- Z.add_assoc. apply IH; lia.
  Qed.
  Theorem putL_value i l j x : nth_error p i = Some (SPutL l) -> leads_to p i l j -> loaded s3 x ->
    load (mm x) (adr i) 8 = adr j /\ adr (S i) = addr64 (adr i + 8).
  Proof.
    intros Hq Hj Hl. destruct (ref_stage i _ _ Hq eq_refl) as (its & Em & _ & Hs). pose proof Em as Em'. injection Em' as <-.
    destruct (Hs l false 0 [] [] eq_refl (Forall_nil _) (Forall_nil _)) as (Hp & _ & _). cbn [List.length] in Hp.
    pose proof (label_field i _ _ l [] false 0 [] j Hq eq_refl Em Hj) as V. cbv zeta in V. destruct V as (v & M & V). cbn [List.length] in M. rewrite Z.add_0_r in M.
    pose proof (pos_le (S i) (i_lt i _ Hq)) as Hle. split; [|symmetry; apply next_adr; lia].
    unfold adr at 1. rewrite (load_mod _ _ _ (c_top (g_code s3) + pos_of s0 p i)) by (unfold addr64; apply Z.mod_mod; discriminate).
    rewrite (load_code x) by (auto using pos_ge; lia). rewrite (le_read_bytes _ _ _ _ M). unfold leads in V. rewrite Z.add_0_r in V. etransitivity; [exact V|]. unfold adr, addr64. apply Z.mod_mod. discriminate.
  Qed.
  Theorem data_bytes i bs x : nth_error p i = Some (SData bs) -> loaded s3 x ->
    (forall k b, nth_error bs k = Some b -> mm x (addr64 (adr i + Z.of_nat k)) = b mod 256) /\ adr (S i) = addr64 (adr i + Z.of_nat (List.length bs)).
  Proof.
    intros Hq Hl. destruct (emit_stage i _ _ Hq eq_refl) as (its & env & He & Hb & Hp & Hm). destruct He as [_ He]. rewrite dbs_items in He. injection He as <-.
    specialize (Hm (fun _ _ _ => 0)). destruct (bytes_len _ (fun _ _ _ => 0) Hb) as [_ L]. rewrite render_IDb in *. rewrite map_length in L. rewrite L in Hp.
    pose proof (pos_le (S i) (i_lt i _ Hq)) as Hle. split; [|symmetry; now apply next_adr].
    intros k b Hk. assert (k < List.length bs)%nat by (apply nth_error_Some; congruence). unfold adr. rewrite addr64_add, <- Z.add_assoc, Hl by (pose proof (pos_ge i); lia).
    clear - Hm Hk. revert Hm Hk. generalize (pos_of s0 p i). revert k. induction bs as [|b0 bs IH]; intros k z Hm Hk; [destruct k; discriminate|]. destruct Hm as [H1 H2].
    destruct k as [|k]; [injection Hk as ->; rewrite Z.add_0_r; exact H1|]. replace (z + Z.of_nat (S k)) with (z + 1 + Z.of_nat k) by lia. now apply IH.
  Qed.

  Definition mcfg (c : conf) : Z * st := match c with At i x => (adr i, x) | Out ip x => (ip, x) end.
  Lemma adr_mod j : addr64 (adr j) = adr j.
  Proof. unfold adr, addr64. apply Z.mod_mod. discriminate. Qed.
  Theorem step_ok i x c : pstep p adr (At i x) c -> loaded s3 x ->
    mstep (adr i) x = Some (mcfg c) \/ mcfg c = (adr i, x) /\ exists q, nth_error p i = Some q /\ no_code q = true.
  Proof.
    intros H Hl. inversion H as [? ? m f N|? ? l ty j N L|? ? k l ty j N L C|? ? k l ty N C|? ? l j N L|? ? j N L C|? ? N|? ? m l f j N L|? ? m t j N L C|? ? m t N|? ? m t j N L C|? ? m t N|? ? q N C]; subst; cbn [mcfg].
    - left. eapply step_ins; eauto.
    - left. eapply step_jmp; eauto.
    - left. destruct (step_jcc i k l ty x) as (t & M & T); auto. rewrite M, C, (T _ L). reflexivity.
    - left. destruct (step_jcc i k l ty x) as (t & M & T); auto. rewrite M, C. reflexivity.
    - left. eapply step_call; eauto.
    - left. rewrite (step_ret i x) by assumption. now rewrite C, adr_mod.
    - left. now apply step_ret.
    - left. eapply step_ref; eauto.
    - left. rewrite (step_jmpto i m t x) by assumption. now rewrite C.
    - left. now apply (step_jmpto i m t x).
    - left. rewrite (step_callto i m t x) by assumption. now rewrite C.
    - left. now apply (step_callto i m t x).
    - right. split; [|eauto]. f_equal. eapply step_skip; eauto.
  Qed.
  (* runs of the program in which the code stays as it is *)
  Inductive pruns : conf -> conf -> Prop :=
  | PR_none c : pruns c c
  | PR_one i x c c' : loaded s3 x -> pstep p adr (At i x) c -> pruns c c' -> pruns (At i x) c'.
  Theorem runs_ok c c' : pruns c c' -> msteps (mcfg c) (mcfg c').
  Proof.
    induction 1 as [|i x c c' Hl Hs _ IH]; [constructor|]. destruct (step_ok i x c Hs Hl) as [M|[M _]].
    - econstructor; [exact M|exact IH].
    - rewrite M in IH. exact IH.
  Qed.
  (* statement i is an instruction and names no undefined label: what the processor does there is a step of the program *)
  Definition names_label (q : stmt) : option LabelRef := match q with SJmp l _ | SJcc _ l _ | SCall l | SRef _ l _ | SPutL l => Some l | _ => None end.
  Theorem step_back i x q r : nth_error p i = Some q -> no_code q = false -> is_data q = false -> (forall l, names_label q = Some l -> exists j, leads_to p i l j) -> loaded s3 x ->
    mstep (adr i) x = Some r -> exists c, pstep p adr (At i x) c /\ r = mcfg c.
  Proof.
    intros Hq Hc Hd Hn Hl Hm.
    assert (X : exists c, pstep p adr (At i x) c /\ mstep (adr i) x = Some (mcfg c)).
    { destruct q; try discriminate; cbn [names_label] in Hn; try (destruct (Hn _ eq_refl) as (j & Hj)).
      - eexists. split; [eapply P_ins; eauto|]. eapply step_ins; eauto.
      - eexists. split; [eapply P_jmp; eauto|]. eapply step_jmp; eauto.
      - destruct (step_jcc i k l ty x Hq Hl) as (t & M & T). destruct (cc_holds k (fl x)) eqn:E.
        + eexists. split; [eapply P_taken; eauto|]. rewrite M, (T _ Hj). reflexivity.
        + eexists. split; [eapply P_not_taken; eauto|]. rewrite M. reflexivity.
      - eexists. split; [eapply P_call; eauto|]. eapply step_call; eauto.
      - eexists. split; [eapply P_leave; eauto|]. eapply step_ret; eauto.
      - eexists. split; [eapply P_ref; eauto|]. eapply step_ref; eauto.
      - eexists. split; [eapply P_jmpout; eauto|]. eapply step_jmpto; eauto.
      - eexists. split; [eapply P_callout; eauto|]. eapply step_callto; eauto. }
    destruct X as (c & A & B). exists c. split; [exact A|congruence].
  Qed.
End P.

(* ---- every label is defined by a statement ---- *)
Definition defined_in (p : program) (t : TId) : Prop := exists j l', nth_error p j = Some (SLabel l') /\ label_defined (names_at p j) l' = Some t.
Definition origins (p : program) (a : Spec) : Prop :=
  (forall t o, sp_defs a t = Some o -> defined_in p t)
  /\ (forall r t o, In r (sp_refs a) -> r_tid r = Some t -> r_val r = Some o -> defined_in p t).
Lemma names_app p q i : (i <= List.length p)%nat -> names_at (p ++ q) i = names_at p i.
Proof. intros H. unfold names_at. rewrite firstn_app. replace (i - List.length p)%nat with 0%nat by lia. now rewrite firstn_O, app_nil_r. Qed.
Lemma defined_app p q t : defined_in p t -> defined_in (p ++ q) t.
Proof.
  intros (j & l' & H1 & H2). assert (j < List.length p)%nat by (apply nth_error_Some; congruence).
  exists j, l'. rewrite nth_error_app1, names_app by lia. auto.
Qed.
Lemma origins_app p q a : origins p a -> origins (p ++ q) a.
Proof. intros [H1 H2]. split; intros; apply defined_app; eauto. Qed.
Lemma origins_def p a t o : origins p a -> defined_in p t -> origins p (specDefine a t o).
Proof.
  intros [H1 H2] Ht. split.
  - intros t' o'. cbn. unfold updT. destruct (TId_eqb t t') eqn:E; [apply TId_eqb_ok in E as <-; auto|]. apply H1.
  - intros r t' o' Hr Hi Hv. cbn in Hr. apply in_map_iff in Hr as (r0 & <- & Hr0). unfold resolve1 in Hi, Hv.
    destruct (unresolved r0 && is_tid t r0) eqn:E; [|eauto]. cbn in Hi. apply andb_true_iff in E as [_ E]. unfold is_tid in E. rewrite Hi in E. apply TId_eqb_ok in E as <-. exact Ht.
Qed.
Lemma origins_touch p a l : origins p a -> origins p (touch a l).
Proof. intros H. destruct l; [exact H|]. cbn [touch]. destruct (labOf a h); exact H. Qed.
Lemma origins_ref p a pos n t rel d : origins p a -> origins p (addRef a pos n (Some t) rel d).
Proof.
  intros [H1 H2]. split; [exact H1|]. intros r t' o Hr Hi Hv. cbn in Hr. destruct Hr as [<-|Hr]; [|eauto]. cbn in Hi, Hv. injection Hi as <-. eauto.
Qed.
Lemma origins_items p its : forall a x y, origins p a -> origins p (spec_items a its x y).
Proof.
  induction its as [|[b|l r d|e] its IH]; intros a x y H; cbn [spec_items]; auto; [destruct (x + 1 <=? y); auto|].
  destruct (_ <=? y); auto. destruct (tid_of a l); auto. now apply IH, origins_ref.
Qed.
Lemma origins_touch_items p its : forall a, origins p a -> origins p (touch_items a its).
Proof. induction its as [|[b|l r d|e] its IH]; intros a H; cbn [touch_items]; auto. now apply IH, origins_touch. Qed.
Lemma origins_step p q s a s1 a1 : ok_st s -> good q -> agree a (names_at p (List.length p)) -> origins p a -> exec (op_of q) s = Done s1 tt ->
  spec_step a (op_of q) None (env_of s) (c_size (g_code s)) (c_size (g_code s1)) = Some a1 -> origins (p ++ [q]) a1.
Proof.
  intros Hok Hg Ha Ho Hx Hs.
  assert (forall l t, q = SLabel l -> ltid a l = Some t -> defined_in (p ++ [q]) t) as HD.
  { intros l t -> Ht. exists (List.length p), l. rewrite nth_error_app2, Nat.sub_diag by lia. split; [reflexivity|]. rewrite names_app by lia. now rewrite <- (agree_ltid a _ l Ha). }
  apply (origins_app p [q]) in Ho. remember (p ++ [q]) as p' eqn:Ep. clear Ep Ha.
  assert (forall m, op_of q = OpEmit m -> origins p' a1) as HE.
  { intros m E. rewrite E in *. cbn [spec_step] in Hs. destruct (_ && _); [discriminate|]. destruct (m _ _) as [its x]. injection Hs as <-. apply origins_items, origins_touch_items, Ho. }
  assert (forall l ty sc lc lp, op_of q = OpJmp l ty sc lc lp -> origins p' a1) as HJ.
  { intros l ty sc lc lp E. rewrite E in *. cbn [spec_step] in Hs. destruct (_ && _); [discriminate|]. destruct (tid_of _ _); [|discriminate]. destruct (_ <=? maxCode); [|discriminate].
    injection Hs as <-. unfold addBranch. destruct (_ =? 2); apply origins_ref, origins_touch, Ho. }
  destruct q; cbn [op_of] in *; try (eapply HE; reflexivity); try (eapply HJ; reflexivity); clear HE HJ; cbn [spec_step] in Hs; try (injection Hs as <-; exact Ho).
  destruct (_ && _); [discriminate|]. pose proof (origins_touch p' a l Ho) as Ht. specialize (HD l).
  assert (forall t, tid_of a l = Some t -> (forall k, l = LStr k -> String.eqb k "@@" = false) -> defined_in p' t) as HN.
  { intros t H1 H2. apply HD; [reflexivity|]. unfold ltid. destruct l as [k|h]; [now rewrite (H2 k eq_refl)|exact H1]. }
  rewrite tid_of_touch in Hs. destruct l as [k|h].
  - destruct (String.eqb k "@@") eqn:Ek.
    + injection Hs as <-. apply (origins_def p' _ (TAnon (S (sp_anon a))) (c_size (g_code s))) in Ht; [exact Ht|]. apply HD; [reflexivity|]. unfold ltid. now rewrite Ek.
    + destruct (tid_of a (LStr k)) as [t|] eqn:Et; [|discriminate]. injection Hs as <-. apply origins_def; [exact Ht|]. apply HN; [reflexivity|]. intros k' E. now injection E as <-.
  - destruct (tid_of a (LObj h)) as [t|] eqn:Et; [|discriminate]. injection Hs as <-. apply origins_def; [exact Ht|]. apply HN; [reflexivity|]. discriminate.
Qed.
Lemma origins_hist s0 p : new_gen s0 -> Forall good p -> forall s a, shist_ok s0 spec0 (map op_of p) s a -> origins p a.
Proof.
  intros Hn. induction p as [|q p IH] using rev_ind; intros Hg s a H.
  - inversion H; subst. split; [discriminate|intros r t o []].
  - rewrite map_app in H. apply hist_split in H as (s1 & a1 & A & B). apply Forall_app in Hg as [G1 G2]. inversion G2; subst.
    cbn [map] in B. inversion B as [|? ? ? s2 a2 ? ? ? L1 L2 L3 L4 L5]; subst. inversion L5; subst.
    eapply (origins_step p q s1 a1 s a); eauto.
    + apply (run_ok s1 a1). exists s0, (map op_of p). split; [exact Hn|now apply shist_ok_h].
    + eapply agree_at; [exact Hn| |exact G1]. rewrite firstn_all. exact A.
Qed.
Theorem label_found s0 s3 a3 p i q l : new_gen s0 -> shist_ok s0 spec0 (map op_of p) s3 a3 -> Forall good p -> hasUndefinedLabel s3 = false ->
  nth_error p i = Some q -> names_label q = Some l -> exists j, leads_to p i l j.
Proof.
  intros Hn Hh Hg Hu Hq Hl. destruct (the_stage s0 s3 a3 p Hn Hh i q Hq) as (s & a & s1 & a1 & X). destruct X.
  pose proof (one_step _ _ _ _ _ st_legal st_ids st_exec st_spec) as H1. pose proof (run_more _ _ _ _ _ st_run H1) as R1.
  pose proof (history_kept _ s1 a1 s3 a3 (run_inv _ _ R1) (shist_ok_h _ _ _ _ _ st_after) (no_reset_prog _)) as K.
  assert (Hc : (exists ty sc lc lp, op_of q = OpJmp l ty sc lc lp)
    \/ exists m its, op_of q = OpEmit m /\ m (env_of s) (c_size (g_code s)) = (its, Ok tt) /\ exists pre rel d post, its = map IDb pre ++ IPutL l rel d :: post).
  { pose proof (good_at p Hg i q Hq) as Gq. destruct q; try discriminate; injection Hl as <-; cbn [op_of] in *; eauto 10; right.
    - destruct (done_emits m s s1 (run_ok _ _ st_run) st_exec) as (its & He). exists m, its. split; [reflexivity|]. destruct (Gq _ _ _ _ He) as (pre & rel & d & post & Ei & _).
      destruct He as [_ He]. split; [exact He|]. exists pre, rel, d, (map IDb post). exact Ei.
    - eexists _, [IPutL l0 false 0]. split; [reflexivity|]. split; [reflexivity|]. exists [], false, 0, []. reflexivity. }
  assert (exists t r, tid_of a l = Some t /\ In r (sp_refs a1) /\ r_tid r = Some t) as (t & r & Ht & Hr & Hi).
  { destruct Hc as [(ty & sc & lc & lp & Eo)|(m & its & Eo & Em & pre & rel & d & post & ->)]; rewrite Eo in *.
    - cbn [spec_step] in st_spec. destruct (_ && _); [discriminate|]. rewrite tid_of_touch in st_spec. destruct (tid_of a l) as [t|]; [|discriminate]. destruct (_ <=? maxCode); [|discriminate].
      injection st_spec as <-. exists t. unfold addBranch. destruct (_ =? 2); eexists; (split; [reflexivity|split; [now left|reflexivity]]).
    - assert (exists t, tid_of a l = Some t) as (t & Ht).
      { destruct (emit_step s a m s1 a1 st_exec H1) as [_ Hf]. unfold ids_left in st_ids. cbn [mentions legal] in st_ids, st_legal. cbn [exec] in st_exec. unfold runE in st_exec. rewrite Em in st_exec, st_ids, st_legal. cbn [fst] in st_ids, st_legal.
        unfold mbind in st_exec. destruct (exec_items (map IDb pre ++ IPutL l rel d :: post) s) as [s2 []|s2 e|] eqn:E2; try discriminate.
        assert (T : tids_ok (touch_items a (map IDb pre ++ IPutL l rel d :: post)) (map IDb pre ++ IPutL l rel d :: post)).
        { eapply (items_tids _ s); [| | | | |exact E2].
          - apply Inv_touch_items; auto. now apply run_inv.
          - rewrite ready_touch_items. exact Hf.
          - unfold alive_items in *. eapply Forall_impl; [|exact st_legal]. intros it Hit. destruct it; auto. now apply alive_touch_items.
          - apply touched_touch_items.
          - exact st_ids. }
        apply tids_touch_items in T. unfold tids_ok in T. rewrite Forall_forall in T. specialize (T (IPutL l rel d) ltac:(apply in_or_app; right; now left)). cbn in T.
        destruct (tid_of a l) as [t|]; [eauto|congruence]. }
      destruct (emit_ref s a m s1 a1 pre l rel d post (Ok tt) t (run_inv _ _ st_run) st_exec H1 Em Ht) as (v & Hv).
      exists t. eexists. split; [exact Ht|]. split; [exact Hv|reflexivity]. }
  destruct (kp_ref _ _ K r Hr) as (r' & Hr' & E'). assert (R3 : run s3 a3) by (exists s0, (map op_of p); split; [exact Hn|now apply shist_ok_h]).
  rewrite (hasUndefined_iff s3 a3 (run_inv _ _ R3)) in Hu.
  destruct (r_val r') as [o|] eqn:Ev.
  - assert (r_tid r' = Some t) as Hi' by (destruct E' as (_ & _ & E' & _); congruence).
    destruct (origins_hist s0 p Hn Hg s3 a3 Hh) as [_ O]. destruct (O r' t o Hr' Hi' Ev) as (j & l' & J1 & J2).
    exists j, t, l'. split; [|auto]. rewrite <- (agree_tid a _ l (agree_at p s0 s a i Hn st_before Hg)). exact Ht.
  - exfalso. assert (existsb unresolved (sp_refs a3) = true) by (apply existsb_exists; exists r'; split; [exact Hr'|unfold unresolved; now rewrite Ev]). congruence.
Qed.
