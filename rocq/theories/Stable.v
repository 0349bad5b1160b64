(* Which code bytes a call can change: label fields that wait for their label (or, in AutoGrow
   mode, for ready()), whether the call succeeds or fails; everything else is kept. *)
From Coq Require Import ZArith List Bool String Arith Lia ZifyBool Permutation.
From Verif Require Import Base Types Emit EmitFacts Encode State Code Label Gen Wp CodeFacts Append SpecMem SpecLabel LabelFacts LabelInv LabelEmit LabelDefine LabelStep LabelStep2 LabelStep3 LabelReady LabelHist LabelThms LabelThms2 LabelThms3 LabelThms4.
Import ListNotations.
Open Scope Z_scope.

Definition chg (D : Z -> Prop) (c c' : Code) : Prop :=
  c_type c' = c_type c /\ c_size c' = c_size c /\ c_top c' = c_top c /\ c_max c' = c_max c /\ c_cap c' = c_cap c /\
  forall k, ~ D k -> c_mem c' k = c_mem c k.
Definition changes {A} (D : Z -> Prop) (m : M A) (s : St) : Prop :=
  match m s with
  | Done s' _ => chg D (g_code s) (g_code s') /\ keepcfg s s'
  | Thrown s' _ => chg D (g_code s) (g_code s') /\ keepcfg s s'
  | UB => True end.
Lemma chg_refl D c : chg D c c.
Proof. unfold chg. auto 10. Qed.
Lemma chg_trans D a b c : chg D a b -> chg D b c -> chg D a c.
Proof.
  unfold chg. intros (A1 & A2 & A3 & A4 & A5 & A6) (B1 & B2 & B3 & B4 & B5 & B6).
  do 5 (split; [congruence|]). intros k Hk. now rewrite B6, A6.
Qed.
Lemma ch_quiet {A} D (m : M A) s :
  (forall s' a, m s = Done s' a -> g_code s' = g_code s /\ keepcfg s s') -> (forall s' e, m s = Thrown s' e -> g_code s' = g_code s /\ keepcfg s s') -> changes D m s.
Proof.
  intros H1 H2. unfold changes. destruct (m s) as [s' a|s' e|]; auto.
  - destruct (H1 s' a eq_refl) as [-> ?]; auto using chg_refl.
  - destruct (H2 s' e eq_refl) as [-> ?]; auto using chg_refl.
Qed.
Lemma ch_ret {A} D (a : A) s : changes D (mret a) s.
Proof. split; [apply chg_refl|apply keepcfg_refl]. Qed.
Lemma ch_throw {A} D e s : changes D (@mthrow A e) s.
Proof. split; [apply chg_refl|apply keepcfg_refl]. Qed.
Lemma ch_get {A} D (f : St -> A) s : changes D (get f) s.
Proof. split; [apply chg_refl|apply keepcfg_refl]. Qed.
Lemma ch_put D (f : St -> St) s : g_code (f s) = g_code s -> keepcfg s (f s) -> changes D (put f) s.
Proof. intros H K. unfold changes, put. rewrite H. split; [apply chg_refl|exact K]. Qed.
Lemma ch_lm D f s : changes D (with_lm f) s.
Proof. apply ch_put; [reflexivity|unfold keepcfg; auto 10]. Qed.
Lemma ch_bind {A B} D (m : M A) (k : A -> M B) s :
  changes D m s -> (forall s' a, m s = Done s' a -> chg D (g_code s) (g_code s') -> changes D (k a) s') -> changes D (mbind m k) s.
Proof.
  unfold changes, mbind. intros Hm Hk. destruct (m s) as [s1 a|s1 e|]; auto. destruct Hm as [Hm Hc]. specialize (Hk s1 a eq_refl Hm).
  destruct (k a s1); auto; destruct Hk; (split; [eapply chg_trans; eauto|eapply keepcfg_trans; eauto]).
Qed.
Lemma ch_fnS {A} D (d : A) m s : changes D m s -> changes D (fnS d m) s.
Proof.
  unfold changes, fnS. destruct (m s) as [s1 a|s1 e|]; auto. intros H. destruct (g_noexc s1); auto.
  unfold setError. destruct (g_err s1); auto.
Qed.
Lemma ch_pokes (D : Z -> Prop) l : forall i s, (forall k, i <= k < i + Z.of_nat (List.length l) -> D k) -> changes D (pokes i l) s.
Proof.
  induction l as [|b l IH]; intros i s H; cbn [pokes]; [apply ch_ret|]. cbn [List.length] in H. apply ch_bind.
  - unfold changes, poke. destruct (_ && _); [|exact I]. cbn [g_code set_code]. split; [|unfold keepcfg; auto 10]. unfold chg. cbn. do 5 (split; auto).
    intros k Hk. unfold upd. destruct (k =? i) eqn:E; auto. exfalso. apply Hk, H. lia.
  - intros. apply IH. intros k Hk. apply H. lia.
Qed.
Lemma ch_rewrite (D : Z -> Prop) off v n s : 0 <= n -> (forall k, off <= k < off + n -> D k) -> changes D (rewrite off v n) s.
Proof.
  intros Hn H. unfold rewrite. apply ch_fnS. destruct (_ && _); [apply ch_throw|]. apply ch_pokes. rewrite le_bytes_length. intros k Hk. apply H. lia.
Qed.
Lemma ch_save D off v n m s : changes D (save off v n m) s.
Proof. unfold changes, save, with_code, put, chg, keepcfg. cbn. auto 15. Qed.

Lemma ch_patchOne (D : Z -> Prop) o j s :
  (isAutoGrowC (g_code s) = false -> 0 <= j_size j /\ forall k, w64 (j_end j - j_size j) <= k < w64 (j_end j - j_size j) + j_size j -> D k) ->
  changes D (patchOne o j) s.
Proof.
  intros H. unfold patchOne. apply ch_bind; [apply ch_get|]. intros s1 c E _. inversion E; subst s1 c.
  apply ch_bind.
  - destruct (j_mode j); try apply ch_ret. repeat match goal with |- changes _ (if ?b then _ else _) _ => destruct b end; first [apply ch_throw|apply ch_ret].
  - intros s1 d _ C. destruct (isAutoGrowC (g_code s)) eqn:Ha; [apply ch_save|]. destruct (H eq_refl). now apply ch_rewrite.
Qed.
Lemma chg_auto D c c' : chg D c c' -> isAutoGrowC c' = isAutoGrowC c.
Proof. intros (H & _). unfold isAutoGrowC. now rewrite H. Qed.

Section Def.
  Context {K : Type} (eqb : K -> K -> bool).
  Hypothesis eqb_ok : forall a b, eqb a b = true <-> a = b.
  Variables (getU : LabelMgr -> list (K * JmpLabel)) (setU : LabelMgr -> list (K * JmpLabel) -> LabelMgr).
  Hypothesis getsetU : forall lm u, getU (setU lm u) = u.
  Definition covers (D : Z -> Prop) (j : JmpLabel) : Prop :=
    0 <= j_size j /\ forall k, w64 (j_end j - j_size j) <= k < w64 (j_end j - j_size j) + j_size j -> D k.
  Lemma ch_defLoop D k o fuel : forall s,
    (isAutoGrowC (g_code s) = false -> forall j, In (k, j) (getU (g_lm s)) -> covers D j) -> changes D (defLoop eqb getU setU fuel k o) s.
  Proof.
    induction fuel as [|fuel IH]; intros s H; cbn [defLoop]; [exact I|]. apply ch_bind; [apply ch_get|].
    intros s1 x E _. inversion E; subst s1 x. destruct (findErase eqb _ k (getU (g_lm s))) as [[j rest]|] eqn:Hf; [|apply ch_ret].
    pose proof (findErase_Some eqb eqb_ok _ _ _ _ _ Hf) as HP.
    apply ch_bind.
    - apply ch_patchOne. intros Ha. apply (H Ha). apply (Permutation_in _ (Permutation_sym HP)). now left.
    - intros s1 x1 E1 C1. apply ch_bind; [apply ch_lm|]. intros s2 x2 E2 C2. inversion E2; subst s2. apply IH.
      cbn [g_code g_lm set_lm]. rewrite (chg_auto _ _ _ C1), getsetU. intros Ha j' Hj'. apply (H Ha).
      apply (Permutation_in _ (Permutation_sym HP)). now right.
  Qed.
  Lemma ch_define_inner D insert k o s :
    (forall lm', insert (g_lm s) = Some lm' -> getU lm' = getU (g_lm s)) ->
    (isAutoGrowC (g_code s) = false -> forall j, In (k, j) (getU (g_lm s)) -> covers D j) ->
    changes D (define_inner eqb getU setU insert k o) s.
  Proof.
    intros Hi H. unfold define_inner. apply ch_fnS, ch_bind; [apply ch_get|]. intros s1 x E _. inversion E; subst s1 x.
    destruct (insert (g_lm s)) as [lm'|] eqn:Ei; [|apply ch_throw]. specialize (Hi lm' eq_refl).
    apply ch_bind; [apply ch_lm|]. intros s1 x E1 _. inversion E1; subst s1. apply ch_defLoop. cbn [g_code g_lm set_lm]. now rewrite Hi.
  Qed.
End Def.

(* ---- the fields a call may write ---- *)
Definition in_field (r : ref) (k : Z) : Prop := r_pos r <= k < r_pos r + r_size r.
(* a field that is not final yet *)
Definition open_ref (auto rdy : bool) (r : ref) : Prop := unresolved r = true \/ auto = true /\ rdy = false.
Definition open_at (s : St) (a : Spec) (k : Z) : Prop :=
  exists r, In r (sp_refs a) /\ open_ref (isAutoGrowC (g_code s)) (sp_ready a) r /\ in_field r k.

Lemma cover_pend {K} (key : TId -> option K) s a g gid bnd k j :
  Inv0 (g_code s) (g_lm s) (g_labels s) a g gid bnd -> code_wf (g_code s) -> In (k, j) (pend_of key (isAutoGrowC (g_code s)) g) -> covers (open_at s a) j.
Proof.
  intros HI W Hj. apply pend_of_in in Hj as (r & t & Hr & Ht & Hk & ->).
  destruct HI, iv_ref. destruct (layout_in _ _ _ ri_layout Hr) as (A & B & C). cbn [fst] in *. destruct W.
  unfold covers, jmp_of. cbn [j_end j_size]. split; [lia|]. rewrite w64_small by lia. intros x Hx.
  exists r. split; [rewrite <- iv_refs; apply in_map_iff; exists (r, Pend); auto|]. split; [|unfold in_field; lia].
  left. rewrite Forall_forall in ri_ok. destruct (ri_ok _ Hr) as (_ & Hv & _). cbn [fst] in Hv. unfold unresolved. now rewrite Hv.
Qed.

Lemma in_undef_front s a g gid bnd k j : Inv0 (g_code s) (g_lm s) (g_labels s) a g gid bnd -> code_wf (g_code s) ->
  In (k, j) (ss_undef (lm_front (g_lm s))) -> covers (open_at s a) j.
Proof.
  intros HI W H. eapply (cover_pend fkey); eauto. destruct HI, iv_pend. eapply Permutation_in; [exact pi_front|exact H].
Qed.
Lemma in_undef_stack s a g gid bnd k j : Inv0 (g_code s) (g_lm s) (g_labels s) a g gid bnd -> code_wf (g_code s) ->
  In (k, j) (ss_undef (hd emptySS (lm_stack (g_lm s)))) -> covers (open_at s a) j.
Proof.
  intros HI W H. pose proof HI as HI'. destruct HI', iv_pend. inversion pi_scopes as [|jj ss js sss P1 P2 E1 E2].
  - rewrite <- H1 in H. destruct H.
  - rewrite <- E2 in H. cbn [hd] in H. eapply (cover_pend (skey jj)); eauto. eapply Permutation_in; [exact P1|exact H].
Qed.
Lemma in_undef_class s a g gid bnd k j : Inv0 (g_code s) (g_lm s) (g_labels s) a g gid bnd -> code_wf (g_code s) ->
  In (k, j) (lm_undef (g_lm s)) -> covers (open_at s a) j.
Proof.
  intros HI W H. eapply (cover_pend (ckey gid)); eauto. destruct HI, iv_pend. eapply Permutation_in; [exact pi_class|exact H].
Qed.

Lemma ch_defineSlabel k s a : Inv s a -> changes (open_at s a) (defineSlabel k) s.
Proof.
  intros (Hok & g & gid & bnd & HI). pose proof Hok as (_ & W & _). unfold defineSlabel. apply ch_fnS.
  destruct (String.eqb k "@b" || String.eqb k "@f"); [apply ch_throw|].
  set (us := fun lm lm' => ss_undef (lm_front lm') = ss_undef (lm_front lm) /\ lm_stack lm' = lm_stack lm).
  apply ch_bind.
  - destruct (String.eqb k "@@"); [|apply ch_ret]. apply ch_bind; [apply ch_get|]. intros s1 lm E _. inversion E; subst s1 lm.
    destruct (sIn "@f" _); [|destruct (sIn "@b" _)]; try apply ch_ret; (apply ch_bind; [apply ch_lm|intros; apply ch_ret]).
  - intros s1 k' E C.
    assert (us (g_lm s) (g_lm s1) /\ g_code s1 = g_code s) as ((U1 & U2) & Ec).
    { unfold mbind, get in E. destruct (String.eqb k "@@"); [|inversion E; subst; unfold us; auto].
      destruct (sIn "@f" _); [|destruct (sIn "@b" _)]; cbn in E; inversion E; subst; unfold us; cbn; auto. }
    apply ch_bind; [apply ch_get|]. intros s2 c E2 _. inversion E2; subst s2 c.
    apply (ch_define_inner String.eqb seqb_ok (getUS k') (setUS k')).
    + intros. apply getset_US.
    + intros lm'. unfold insertS, getUS. destruct (assoc _ _ _); [discriminate|]. intros E3. inversion E3. unfold setSS. destruct (isLocalStr k'); reflexivity.
    + intros _ j Hj. unfold getUS, getSS in Hj. destruct (isLocalStr k').
      * rewrite U2 in Hj. eapply in_undef_stack; eauto.
      * rewrite U1 in Hj. eapply in_undef_front; eauto.
Qed.
Lemma ch_linkLabel D h s : changes D (linkLabel h) s.
Proof. unfold linkLabel, changes, labelOf, mbind. destruct (l_alive _); auto. cbn. split; [apply chg_refl|unfold keepcfg; auto 10]. Qed.
Lemma ch_defineC D id o s1 s a g gid bnd h : Inv0 (g_code s) (g_lm s) (g_labels s) a g gid bnd -> code_wf (g_code s) ->
  D = open_at s a -> g_code s1 = g_code s -> lm_undef (g_lm s1) = lm_undef (g_lm s) ->
  changes D (mbind (define_inner Z.eqb lm_undef set_cundef (insertC id o) id o) (fun _ => linkLabel h)) s1.
Proof.
  intros HI W -> Ec Eu. apply ch_bind.
  - apply (ch_define_inner Z.eqb zeqb_ok); auto.
    + intros lm'. unfold insertC. destruct (assoc _ _ _); [discriminate|]. intros E. now inversion E.
    + rewrite Eu. intros _ j Hj. eapply in_undef_class; eauto.
  - intros. apply ch_linkLabel.
Qed.
Lemma ch_defineClabel h s a : Inv s a -> changes (open_at s a) (defineClabel h) s.
Proof.
  intros (Hok & g & gid & bnd & HI). pose proof Hok as (_ & W & _). unfold defineClabel.
  assert (match getIdM h s with Done s' _ => (g_code s' = g_code s /\ keepcfg s s') /\ lm_undef (g_lm s') = lm_undef (g_lm s) | Thrown s' _ => g_code s' = g_code s /\ keepcfg s s' | UB => True end) as HG.
  { unfold getIdM, mbind, labelOf, get, put. unfold keepcfg. destruct (l_alive _); auto. destruct (l_id _ =? 0); cbn; auto 10.
    destruct (_ =? 2147483647); cbn; auto 10. }
  apply ch_bind.
  - apply ch_quiet; intros s' x E; rewrite E in HG; tauto.
  - intros s1 id E C. rewrite E in HG. destruct HG as [[G1 _] G2]. apply ch_bind; [apply ch_get|]. intros s2 c E2 _. inversion E2; subst s2 c.
    eapply ch_defineC; eauto.
Qed.
Lemma ch_assign d s0 s a : Inv s a -> changes (open_at s a) (assign d s0) s.
Proof.
  intros (Hok & g & gid & bnd & HI). pose proof Hok as (_ & W & _). unfold assign. apply ch_fnS.
  assert (forall h, match labelOf h s with Done s' _ => s' = s | Thrown s' _ => s' = s | UB => True end) as HL.
  { intros h. unfold labelOf. destruct (l_alive _); auto. }
  apply ch_bind; [apply ch_quiet; intros s' x E; specialize (HL s0); rewrite E in HL; subst; auto using keepcfg_refl|].
  intros s1 o E _. pose proof (HL s0) as H1. rewrite E in H1. subst s1.
  apply ch_bind; [apply ch_get|]. intros s1 lm E1 _. inversion E1; subst s1 lm.
  destruct (assoc Z.eqb (l_id o) (lm_def (g_lm s))) as [[off rc]|]; [|apply ch_throw].
  apply ch_bind; [apply ch_quiet; intros s' x E2; specialize (HL d); rewrite E2 in HL; subst; auto using keepcfg_refl|].
  intros s1 o' E2 _. pose proof (HL d) as H2. rewrite E2 in H2. subst s1. eapply ch_defineC; eauto.
Qed.

Lemma ch_calcLoop (D : Z -> Prop) l : forall s, (forall i, In i l -> 0 <= ai_size i /\ forall k, ai_off i <= k < ai_off i + ai_size i -> D k) ->
  changes D (calcLoop l) s.
Proof.
  induction l as [|i l IH]; intros s H; cbn [calcLoop]; [apply ch_ret|]. apply ch_bind; [apply ch_get|]. intros s1 c E _. inversion E; subst s1 c.
  apply ch_bind.
  - unfold getVal. destruct (ai_size i =? 4); [|apply ch_ret]. unfold verifyInInt32M. apply ch_fnS. destruct (IsInInt32 _); [apply ch_ret|apply ch_throw].
  - intros s1 d _ _. apply ch_bind; [|intros; apply IH; intros; apply H; now right].
    destruct (H i (or_introl eq_refl)). now apply ch_rewrite.
Qed.
Lemma in_infos g i : In i (infos_of g) -> exists r, In (r, Saved) g /\ i = info_of r.
Proof.
  induction g as [|[r st] g IH]; cbn [infos_of]; [intros []|]. destruct st; cbn [In]; intros H.
  - destruct (IH H) as (r' & H1 & H2). exists r'. auto.
  - destruct H as [<-|H]; [exists r; auto|]. destruct (IH H) as (r' & H1 & H2). exists r'. auto.
  - destruct (IH H) as (r' & H1 & H2). exists r'. auto.
Qed.
Lemma ch_ready s a : Inv s a -> changes (open_at s a) ready s.
Proof.
  intros (Hok & g & gid & bnd & HI). unfold ready. apply ch_fnS, ch_bind; [apply ch_get|]. intros s1 x E _. inversion E; subst s1 x.
  destruct (hasUndefinedLabel s); [apply ch_throw|]. destruct (isAutoGrowC (g_code s)) eqn:Ha; [|apply ch_ret]. apply ch_bind.
  - unfold calcJmpAddress. apply ch_bind; [apply ch_get|]. intros s1 x E1 _. inversion E1; subst s1 x.
    destruct HI. destruct iv_ref. rewrite Ha in *. destruct (c_called (g_code s)) eqn:Hc; [apply ch_ret|].
    assert (sp_ready a = false) as Hr by (destruct (sp_ready a); auto; discriminate).
    apply ch_bind.
    + apply ch_calcLoop. intros i Hi. apply (Permutation_in _ (ri_infos eq_refl Hr)) in Hi. apply in_infos in Hi as (r & Hin & ->).
      destruct (layout_in _ _ _ ri_layout Hin) as (A & B & C). cbn [fst] in *.
      assert (ai_off (info_of r) = r_pos r) as E1'.
      { unfold info_of. destruct (r_tid r); [destruct (r_rel r)|]; reflexivity. }
      assert (ai_size (info_of r) = r_size r) as E2'.
      { rewrite Forall_forall in ri_ok. destruct (ri_ok _ Hin) as (_ & _ & _ & o & _ & _ & H4). cbn [fst] in H4.
        unfold info_of. destruct (r_tid r); [destruct (r_rel r); reflexivity|]. cbn. now rewrite H4. }
      rewrite E1', E2'. split; [lia|]. intros k Hk. exists r. split; [rewrite <- iv_refs; apply in_map_iff; exists (r, Saved); auto|].
      split; [right; auto|unfold in_field; lia].
    + intros s1 x _ _. unfold changes, with_code, put, chg, keepcfg. cbn. auto 15.
  - intros s1 _ _ C. destruct (o_useProtect (g_or s)); [|apply ch_ret]. apply ch_bind; [|intros; apply ch_ret].
    unfold setProtectMode. apply ch_fnS, ch_bind; [apply ch_get|]. intros s2 ok _ _. destruct ok; [apply ch_ret|apply ch_throw].
Qed.

(* whatever the outcome of a call, every byte outside the fields that are still open is kept *)
Definition keeps (s : St) (a : Spec) (s' : St) : Prop :=
  c_size (g_code s) <= c_size (g_code s') /\
  (forall k, 0 <= k < c_size (g_code s) -> ~ open_at s a k -> c_mem (g_code s') k = c_mem (g_code s) k) /\
  (isAutoGrowC (g_code s) = false -> c_top (g_code s') = c_top (g_code s) /\ c_max (g_code s') = c_max (g_code s) /\
     forall k, k < 0 \/ c_size (g_code s') <= k -> c_mem (g_code s') k = c_mem (g_code s) k).
Lemma open_range s a k : Inv s a -> open_at s a k -> 0 <= k < c_size (g_code s).
Proof.
  intros (_ & g & gid & bnd & HI) (r & Hr & _ & Hf). destruct HI, iv_ref. rewrite <- iv_refs in Hr.
  apply in_map_iff in Hr as ([r' st] & E & Hx). cbn [fst] in E. subst r'.
  destruct (layout_in _ _ _ ri_layout Hx) as (A & B & C). cbn [fst] in *. unfold in_field in Hf. lia.
Qed.
Lemma chg_keeps s a s' : Inv s a -> chg (open_at s a) (g_code s) (g_code s') -> keeps s a s'.
Proof.
  intros HI (H1 & H2 & H3 & H4 & H5 & H6). unfold keeps. rewrite H2. split; [lia|]. split; [intros; now apply H6|].
  intros _. split; [exact H3|]. split; [exact H4|]. intros k Hk. apply H6. intros Ho. apply (open_range _ _ _ HI) in Ho. lia.
Qed.
Lemma grew_keeps s a s' : grew (g_code s) (g_code s') -> keeps s a s'.
Proof.
  intros []. unfold keeps. split; [auto|]. split; [auto|]. intros Ha. destruct (gw_fixed Ha) as (A & B & C & D). auto.
Qed.
Lemma quiet_keeps s a s' : g_code s' = g_code s -> keeps s a s'.
Proof. intros H. unfold keeps. rewrite H. auto 10 using Z.le_refl. Qed.

(* whatever the label, a branch appends the short or the long form *)
Lemma ex_bind {A B} (P : pat -> Prop) (m : M A) (k : A -> M B) s p0 : P p0 -> ok_st s -> appends m s [] ->
  (forall s' a, m s = Done s' a -> ok_st s' -> exists p, P p /\ appends (k a) s' p) -> exists p, P p /\ appends (mbind m k) s p.
Proof.
  intros H0 Hok Hm Hk. destruct (m s) as [s1 a|s1 e|] eqn:E.
  - pose proof Hm as Hm'. unfold appends in Hm'. rewrite E in Hm'. destruct Hm' as (_ & Hok1 & _).
    destruct (Hk s1 a eq_refl Hok1) as (p & Hp & H). exists p. split; [exact Hp|]. apply appends_bind0; auto.
    intros s' a' E'. intros. assert (s' = s1 /\ a' = a) as [-> ->] by (split; congruence). exact H.
  - exists p0. split; [exact H0|]. unfold appends, mbind in *. rewrite E in *. exact Hm.
  - exists p0. split; [exact H0|]. unfold appends, mbind. now rewrite E.
Qed.
Lemma appends_makeJmp d ty sc lc lp s : ok_st s -> exists p, (p = short_pat sc \/ p = long_pat lp lc) /\ appends (runE (makeJmp d ty sc lc lp)) s p.
Proof.
  intros Hok. pose proof (appends_runE (makeJmp d ty sc lc lp) s Hok) as HA. rewrite (makeJmp_items (env_of s)) in HA by apply Hok.
  destruct (negb (LabelType_beq ty T_NEAR) && IsInDisp8 (w32 (d - 2))) eqn:Hsh.
  - exists (short_pat sc). split; auto. cbn [fst] in HA. rewrite pat_items_db in HA. eapply appends_weak; [exact HA|apply short_weak].
  - exists (long_pat lp lc). split; auto. destruct (LabelType_beq ty T_SHORT) eqn:Hty.
    + unfold appends, runE in HA |- *. rewrite (makeJmp_items (env_of s)) in HA |- * by apply Hok. rewrite Hsh, Hty in HA |- *. exact HA.
    + cbn [fst] in HA. rewrite pat_items_db in HA. eapply appends_weak; [exact HA|apply long_weak].
Qed.
Lemma jmp_shape l ty sc lc lp s : ok_st s -> exists p, (p = short_pat sc \/ p = long_pat lp lc) /\ appends (opJmp l ty sc lc lp) s p.
Proof.
  intros Hok. unfold opJmp.
  assert (forall m, (exists p, (p = short_pat sc \/ p = long_pat lp lc) /\ appends m s p) -> exists p, (p = short_pat sc \/ p = long_pat lp lc) /\ appends (fnS tt m) s p) as HF.
  { intros m (p & H1 & H2). exists p. split; auto. now apply appends_fnS. }
  apply HF. destruct (LabelType_beq ty T_FAR); [exists (short_pat sc); split; auto; now apply appends_throw|].
  apply (ex_bind _ _ _ _ (short_pat sc)); auto using appends_growIf. intros s1 _ _ Hok1.
  apply (ex_bind _ _ _ _ (short_pat sc)); auto using appends_getOffsetL. intros s2 [o l'] _ Hok2.
  apply (ex_bind _ _ _ _ (short_pat sc)); auto using appends_get. intros s3 c _ Hok3. destruct o as [off|].
  - apply (ex_bind _ _ _ _ (short_pat sc)); auto; [now apply appends_verify|]. intros s4 d _ Hok4. now apply appends_makeJmp.
  - apply (ex_bind _ _ _ _ (short_pat sc)); auto using appends_get. intros s4 jn _ Hok4.
    assert (forall s5 n l, ok_st s5 -> appends (mbind (get g_code) (fun c => addUndefL l (mkJmp (c_size c) n LasIs 0))) s5 []) as HU.
    { intros. apply appends_bind0; auto using appends_get. intros. now apply appends_addUndefL. }
    destruct (isNEAR jn ty).
    + exists (long_pat lp lc). split; auto. rewrite <- (app_nil_r (long_pat lp lc)). apply appends_bind; auto.
      apply appends_long; auto. intros. now apply appends_ret.
    + exists (short_pat sc). split; auto. rewrite <- (app_nil_r (short_pat sc)). apply appends_bind; auto.
      change (short_pat sc) with ([Some (w8 sc)] ++ [None] ++ []).
      apply appends_bind; auto using appends_dbM. intros s5 _ _ Hok5 _ _. apply appends_bind; auto.
      * change [@None Z] with (repeat (@None Z) 1). eapply appends_none; [apply appends_dbM; auto|reflexivity].
      * intros. now apply appends_ret.
Qed.

Definition emits (o : op) : bool := match o with OpEmit _ | OpJmp _ _ _ _ _ | OpJmpAbs _ _ _ _ _ => true | _ => false end.
Definition sets (o : op) : bool := match o with OpSetJmpNear _ | OpSetEnc _ | OpSetEncAVX10 _ => true | _ => false end.
Lemma exec_changes o s a : Inv s a -> emits o = false -> sets o = false -> o <> OpReset -> changes (open_at s a) (exec o) s.
Proof.
  intros HI He Hst Hnr. pose proof HI as (Hok & _).
  assert (forall A (m : M A), match m s with Done s' _ => g_code s' = g_code s /\ keepcfg s s' | Thrown s' _ => g_code s' = g_code s /\ keepcfg s s' | UB => True end -> changes (open_at s a) m s) as HQ.
  { intros A m H. apply ch_quiet; intros s' x E; now rewrite E in H. }
  destruct o as [m|l ty sc lc lp|addr ty sc lc lp|l|d s0| | |h|d s0|d s0|h| | |b|e|e]; cbn [exec]; try discriminate.
  - destruct l; [now apply ch_defineSlabel|now apply ch_defineClabel].
  - now apply ch_assign.
  - apply HQ. unfold keepcfg. cbn. auto 10.
  - apply HQ. unfold leaveLocal, fnS, mbind, get. destruct (_ <=? 1)%nat; [|destruct (nonempty _)]; cbn; unfold keepcfg; auto 10; destruct Hok as (Hn & _); rewrite ?Hn; auto 10.
  - apply HQ. unfold newLabel, mbind, get, keepcfg. destruct (l_alive _); cbn; auto 10.
  - apply HQ. unfold copyLabel, mbind, get, labelOf, keepcfg. destruct (l_alive _); cbn; auto. destruct (l_alive _); cbn; auto. destruct (l_mgr _); cbn; auto 10.
  - apply HQ. unfold copyAssign, fnS, mbind, get, labelOf, keepcfg. destruct (l_alive _); cbn; auto. destruct (l_id _ =? 0); cbn; [|destruct Hok as (Hn & _); rewrite ?Hn; auto 10].
    destruct (l_alive _); cbn; auto. destruct (l_mgr _); cbn; auto 10.
  - apply HQ. unfold destroyLabel, mbind, get, labelOf, keepcfg. destruct (l_alive _); cbn; auto. destruct (_ && _); cbn; auto 10.
  - congruence.
  - now apply ch_ready.
Qed.
Lemma exec_keeps o s a : Inv s a -> o <> OpReset ->
  match exec o s with Done s' _ => keeps s a s' | Thrown s' _ => keeps s a s' | UB => True end.
Proof.
  intros HI Hnr. pose proof HI as (Hok & _).
  assert (forall A (m : M A), changes (open_at s a) m s -> match m s with Done s' _ => keeps s a s' | Thrown s' _ => keeps s a s' | UB => True end) as HC.
  { intros A m H. unfold changes in H. destruct (m s); auto; destruct H; now apply chg_keeps. }
  assert (forall A (m : M A) p, appends m s p -> match m s with Done s' _ => keeps s a s' | Thrown s' _ => keeps s a s' | UB => True end) as HA.
  { intros A m p H. unfold appends in H. destruct (m s); auto; destruct H as (H & _); [destruct H|]; now apply grew_keeps. }
  assert (forall A (m : M A), match m s with Done s' _ => g_code s' = g_code s | Thrown s' _ => g_code s' = g_code s | UB => True end ->
    match m s with Done s' _ => keeps s a s' | Thrown s' _ => keeps s a s' | UB => True end) as HQ.
  { intros A m H. destruct (m s); auto; now apply quiet_keeps. }
  destruct o as [m|l ty sc lc lp|addr ty sc lc lp|l|d s0| | |h|d s0|d s0|h| | |b|e|e]; cbn [exec].
  - eapply HA, appends_runE; auto.
  - destruct (jmp_shape l ty sc lc lp s Hok) as (p & _ & H). eapply HA; eauto.
  - destruct (appends_opJmpAbs addr ty sc lc lp s Hok) as (p & _ & _ & H). eapply HA; eauto.
  - destruct l; apply HC; [now apply ch_defineSlabel|now apply ch_defineClabel].
  - apply HC. now apply ch_assign.
  - apply HQ. reflexivity.
  - apply HQ. unfold leaveLocal, fnS, mbind, get. destruct (_ <=? 1)%nat; [|destruct (nonempty _)]; cbn; try reflexivity; destruct Hok as (-> & _); reflexivity.
  - apply HQ. unfold newLabel, mbind, get. destruct (l_alive _); cbn; auto.
  - apply HQ. unfold copyLabel, mbind, get, labelOf. destruct (l_alive _); cbn; auto. destruct (l_alive _); cbn; auto. destruct (l_mgr _); cbn; auto.
  - apply HQ. unfold copyAssign, fnS, mbind, get, labelOf. destruct (l_alive _); cbn; auto. destruct (l_id _ =? 0); cbn; [|destruct Hok as (-> & _); auto].
    destruct (l_alive _); cbn; auto. destruct (l_mgr _); cbn; auto.
  - apply HQ. unfold destroyLabel, mbind, get, labelOf. destruct (l_alive _); cbn; auto. destruct (_ && _); cbn; auto.
  - congruence.
  - apply HC. now apply ch_ready.
  - apply HQ. reflexivity.
  - apply HQ. unfold setDefaultEncoding, fnS. destruct e; cbn; auto; destruct Hok as (-> & _); auto.
  - apply HQ. unfold setDefaultEncodingAVX10, fnS. destruct e; cbn; auto; destruct Hok as (-> & _); auto.
Qed.

Lemma exec_type o s a : Inv s a ->
  match exec o s with Done s' _ => c_type (g_code s') = c_type (g_code s) | Thrown s' _ => c_type (g_code s') = c_type (g_code s) | UB => True end.
Proof.
  intros HI. pose proof HI as (Hok & _).
  assert (forall A (m : M A), changes (open_at s a) m s -> match m s with Done s' _ => c_type (g_code s') = c_type (g_code s) | Thrown s' _ => c_type (g_code s') = c_type (g_code s) | UB => True end) as HC.
  { intros A m H. unfold changes in H. destruct (m s); auto; apply H. }
  assert (forall A (m : M A) p, appends m s p -> match m s with Done s' _ => c_type (g_code s') = c_type (g_code s) | Thrown s' _ => c_type (g_code s') = c_type (g_code s) | UB => True end) as HA.
  { intros A m p H. unfold appends in H. destruct (m s); auto; destruct H as (H & _); [destruct H|]; now apply gw_type. }
  assert (forall A (m : M A), match m s with Done s' _ => g_code s' = g_code s | Thrown s' _ => g_code s' = g_code s | UB => True end ->
    match m s with Done s' _ => c_type (g_code s') = c_type (g_code s) | Thrown s' _ => c_type (g_code s') = c_type (g_code s) | UB => True end) as HQ.
  { intros A m H. destruct (m s); auto; now rewrite H. }
  destruct o as [m|l ty sc lc lp|addr ty sc lc lp|l|d s0| | |h|d s0|d s0|h| | |b|e|e]; cbn [exec].
  - eapply HA, appends_runE; auto.
  - destruct (jmp_shape l ty sc lc lp s Hok) as (p & _ & H). eapply HA; eauto.
  - destruct (appends_opJmpAbs addr ty sc lc lp s Hok) as (p & _ & _ & H). eapply HA; eauto.
  - destruct l; apply HC; [now apply ch_defineSlabel|now apply ch_defineClabel].
  - apply HC. now apply ch_assign.
  - apply HQ. reflexivity.
  - apply HQ. unfold leaveLocal, fnS, mbind, get. destruct (_ <=? 1)%nat; [|destruct (nonempty _)]; cbn; try reflexivity; destruct Hok as (-> & _); reflexivity.
  - apply HQ. unfold newLabel, mbind, get. destruct (l_alive _); cbn; auto.
  - apply HQ. unfold copyLabel, mbind, get, labelOf. destruct (l_alive _); cbn; auto. destruct (l_alive _); cbn; auto. destruct (l_mgr _); cbn; auto.
  - apply HQ. unfold copyAssign, fnS, mbind, get, labelOf. destruct (l_alive _); cbn; auto. destruct (l_id _ =? 0); cbn; [|destruct Hok as (-> & _); auto].
    destruct (l_alive _); cbn; auto. destruct (l_mgr _); cbn; auto.
  - apply HQ. unfold destroyLabel, mbind, get, labelOf. destruct (l_alive _); cbn; auto. destruct (_ && _); cbn; auto.
  - assert (wp reset s (fun s' _ => c_type (g_code s') = c_type (g_code s)) (fun _ _ => False)) as W.
    { destruct HI as (_ & g & gid & bnd & HI). destruct HI, iv_obj. unfold reset, resetSize, with_code, lmReset, with_lm, resetLabelPtrList.
      apply wp_bind, wp_put, wp_bind, wp_put, wp_bind, wp_put, wp_bind, wp_get, wp_bind.
      cbn [g_lm set_lm set_code set_err lm_ptrs]. apply wp_clearAll.
      - intros h Hh. apply oi_ptrs in Hh as (i & H1 & _). specialize (oi_lab h). rewrite H1 in oi_lab. apply oi_lab.
      - intros lbl Hlbl. apply wp_put. reflexivity. }
    unfold wp in W. destruct (reset s); auto. destruct W.
  - apply HC. now apply ch_ready.
  - apply HQ. reflexivity.
  - apply HQ. unfold setDefaultEncoding, fnS. destruct e; cbn; auto; destruct Hok as (-> & _); auto.
  - apply HQ. unfold setDefaultEncodingAVX10, fnS. destruct e; cbn; auto; destruct Hok as (-> & _); auto.
Qed.
