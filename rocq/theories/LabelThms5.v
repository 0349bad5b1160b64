(* Exact outcomes of the address, scope, reset and destruction calls; bytes kept over histories. *)
From Coq Require Import ZArith List Bool String Arith Lia ZifyBool Permutation.
From Verif Require Import Base Types Emit EmitFacts Encode State Code Label Gen Wp CodeFacts Append SpecMem SpecLabel LabelFacts LabelInv LabelEmit LabelDefine LabelStep LabelStep2 LabelStep3 LabelReady LabelHist LabelThms LabelThms2 LabelThms3 LabelThms4 Stable.
Import ListNotations.
Open Scope Z_scope.

(* ---- Label::getAddress ---- *)
Lemma getAddress_exact s a h i : Inv s a -> labOf a h = Some i ->
  getAddress h s = Done s (match sp_defs a (TObj i) with
                           | Some o => if isAutoGrowC (g_code s) && negb (sp_ready a) then 0 else w64 (c_top (g_code s) + o)
                           | None => 0 end).
Proof.
  intros HI Hh. pose proof HI as (_ & g & gid & bnd & HI0). destruct HI0. destruct iv_obj, iv_ref.
  specialize (oi_lab h). rewrite Hh in oi_lab. destruct oi_lab as (L1 & L2 & L3).
  unfold getAddress, mbind at 1, labelOf. rewrite L1. unfold mbind at 1, get. rewrite L3. unfold isReady. rewrite ri_called.
  unfold isDef. destruct (sp_defs a (TObj i)) as [o|] eqn:Hd; [|reflexivity]. cbn [negb orb].
  destruct (isAutoGrowC (g_code s)) eqn:Ha, (sp_ready a) eqn:Hr; cbn [negb orb andb]; try reflexivity.
  all: unfold mbind at 1, getOffsetC, mbind at 1; destruct (getIdM_known s a h i HI Hh) as (id & Hz & Hg & _ & _ & _ & Hk);
    [unfold isDef; now rewrite Hd|]; rewrite Hg; cbn; rewrite Hk, Hd; reflexivity.
Qed.

(* ---- inLocalLabel / outLocalLabel ---- *)
Lemma scopes_length s a : Inv s a -> List.length (lm_stack (g_lm s)) = List.length (sp_scopes a).
Proof. intros (_ & g & gid & bnd & HI). destruct HI, iv_pend. induction pi_scopes; cbn; congruence. Qed.
(* a reference to a label of scope j that is still unresolved *)
Definition waits_local (j : nat) (r : ref) : bool :=
  unresolved r && match r_tid r with Some (TLocal j' _) => Nat.eqb j' j | _ => false end.
Lemma top_undef s a j js : Inv s a -> sp_scopes a = j :: js ->
  nonempty (ss_undef (hd emptySS (lm_stack (g_lm s)))) = existsb (waits_local j) (sp_refs a).
Proof.
  intros (_ & g & gid & bnd & HI) Hs. pose proof HI as HI'. destruct HI, iv_pend, iv_ref. rewrite Hs in pi_scopes.
  inversion pi_scopes as [|jj ss js' sss P1 P2 E1 E2]. cbn [hd]. clear P2. apply eq_true_iff_eq. rewrite nonempty_in, existsb_exists. split.
  - intros ([k jm] & Hin). apply (Permutation_in _ P1) in Hin. apply pend_of_in in Hin as (r & t & Hr & Ht & Hk & _).
    exists r. split; [rewrite <- iv_refs; apply in_map_iff; exists (r, Pend); auto|].
    rewrite Forall_forall in ri_ok. destruct (ri_ok _ Hr) as (_ & Hv & _). cbn [fst] in Hv. unfold waits_local, unresolved. rewrite Hv, Ht.
    unfold skey in Hk. destruct t; try discriminate. rewrite Nat.eqb_sym. destruct (Nat.eqb j scope); [reflexivity|discriminate].
  - intros (r & Hr & Hw). apply andb_prop in Hw as [Hu Hw]. rewrite <- iv_refs in Hr. apply in_map_iff in Hr as ([r' st] & E & Hx). cbn [fst] in E. subst r'.
    destruct (r_tid r) as [[| j' k| |]|] eqn:Et; try discriminate. apply Nat.eqb_eq in Hw. subst j'.
    assert (st = Pend) as ->.
    { rewrite Forall_forall in ri_ok. destruct (ri_ok _ Hx) as (_ & H9). cbn [fst snd] in H9. unfold unresolved in Hu.
      destruct st; auto; [destruct H9 as (_ & _ & o & H9 & _)|destruct H9 as (o & H9 & _)]; rewrite H9 in Hu; discriminate. }
    eexists. apply (Permutation_in _ (Permutation_sym P1)). eapply in_pend_of; eauto. cbn [skey]. now rewrite Nat.eqb_refl.
Qed.
Lemma leave_under s a j : Inv s a -> sp_scopes a = [j] -> leaveLocal s = Thrown s ERR_UNDER_LOCAL_LABEL.
Proof.
  intros HI Hs. pose proof (scopes_length _ _ HI) as E. rewrite Hs in E. destruct HI as ((Hn & _) & _).
  unfold leaveLocal, fnS, mbind, get. rewrite E. cbn. now rewrite Hn.
Qed.
Lemma leave_waits s a j j' js : Inv s a -> sp_scopes a = j :: j' :: js -> existsb (waits_local j) (sp_refs a) = true ->
  leaveLocal s = Thrown s ERR_LABEL_IS_NOT_FOUND.
Proof.
  intros HI Hs Hw. pose proof (scopes_length _ _ HI) as E. rewrite Hs in E. rewrite <- (top_undef _ _ _ _ HI Hs) in Hw. destruct HI as ((Hn & _) & _).
  unfold leaveLocal, fnS, mbind, get. rewrite E. cbn [List.length Nat.leb getSS]. rewrite Hw. cbn. now rewrite Hn.
Qed.
Lemma leave_ok s a j j' js : Inv s a -> sp_scopes a = j :: j' :: js -> existsb (waits_local j) (sp_refs a) = false ->
  exists s', leaveLocal s = Done s' tt /\ g_code s' = g_code s /\ Inv s' (set_scopes a (j' :: js) (sp_nscope a)).
Proof.
  intros HI Hs Hw. pose proof (scopes_length _ _ HI) as E. rewrite Hs in E.
  pose proof (wp_outLocal s a HI) as W. rewrite <- (top_undef _ _ _ _ HI Hs) in Hw. unfold wp in W.
  revert W. unfold leaveLocal, fnS, mbind, get. rewrite E. cbn [List.length Nat.leb getSS]. rewrite Hw. cbn. intros W.
  eexists. split; [reflexivity|]. split; [reflexivity|]. rewrite Hs in W. exact W.
Qed.

(* ---- reset and destruction of the generator ---- *)
Lemma reset_exact s a : Inv s a -> exists s', reset s = Done s' tt /\
  g_err s' = None /\ g_lm s' = freshLM /\
  c_size (g_code s') = 0 /\ c_infos (g_code s') = [] /\ c_called (g_code s') = false /\
  c_type (g_code s') = c_type (g_code s) /\ c_top (g_code s') = c_top (g_code s) /\ c_max (g_code s') = c_max (g_code s) /\ c_mem (g_code s') = c_mem (g_code s) /\
  (forall h, g_labels s' h = match labOf a h with Some i => if isDef a i then mkLab true false 0 else g_labels s h | None => g_labels s h end).
Proof.
  intros (Hok & g & gid & bnd & HI). destruct HI, iv_obj.
  assert (wp reset s (fun s' _ => g_err s' = None /\ g_lm s' = freshLM /\
  c_size (g_code s') = 0 /\ c_infos (g_code s') = [] /\ c_called (g_code s') = false /\
  c_type (g_code s') = c_type (g_code s) /\ c_top (g_code s') = c_top (g_code s) /\ c_max (g_code s') = c_max (g_code s) /\ c_mem (g_code s') = c_mem (g_code s) /\
  (forall h, g_labels s' h = match labOf a h with Some i => if isDef a i then mkLab true false 0 else g_labels s h | None => g_labels s h end)) (fun _ _ => False)) as W.
  { unfold reset, resetSize, with_code, lmReset, with_lm, resetLabelPtrList.
    apply wp_bind, wp_put, wp_bind, wp_put, wp_bind, wp_put, wp_bind, wp_get, wp_bind.
    cbn [g_lm set_lm set_code set_err lm_ptrs]. apply wp_clearAll.
    - intros h Hh. apply oi_ptrs in Hh as (i & H1 & _). specialize (oi_lab h). rewrite H1 in oi_lab. apply oi_lab.
    - intros lbl Hlbl. apply wp_put. cbn. do 9 (split; [reflexivity|]). intros h. rewrite Hlbl. cbn.
      destruct (existsb (Nat.eqb h) (lm_ptrs (g_lm s))) eqn:Ex.
      + apply existsb_exists in Ex as (k & Hk & E). apply Nat.eqb_eq in E. subst k. apply oi_ptrs in Hk as (i & -> & ->). reflexivity.
      + destruct (labOf a h) as [i|] eqn:Hh; auto. destruct (isDef a i) eqn:Hd; auto. exfalso.
        assert (existsb (Nat.eqb h) (lm_ptrs (g_lm s)) = true); [|congruence]. apply existsb_exists. exists h. split; [|apply Nat.eqb_refl].
        apply oi_ptrs. exists i. auto. }
  unfold wp in W. destruct (reset s) as [s' []|s' e|]; [|destruct W|destruct W]. exists s'. auto.
Qed.
(* ~LabelManager (xbyak.h:1570) runs resetLabelPtrList *)
Lemma destruct_exact s a : Inv s a -> exists s', resetLabelPtrList s = Done s' tt /\
  (forall h, l_alive (g_labels s h) = true -> l_mgr (g_labels s' h) = false /\ l_alive (g_labels s' h) = true).
Proof.
  intros (Hok & g & gid & bnd & HI). destruct HI, iv_obj.
  assert (wp resetLabelPtrList s (fun s' _ => forall h, l_alive (g_labels s h) = true -> l_mgr (g_labels s' h) = false /\ l_alive (g_labels s' h) = true) (fun _ _ => False)) as W.
  { unfold resetLabelPtrList, with_lm. apply wp_bind, wp_get, wp_bind, wp_clearAll.
    - intros h Hh. apply oi_ptrs in Hh as (i & H1 & _). specialize (oi_lab h). rewrite H1 in oi_lab. apply oi_lab.
    - intros lbl Hlbl. apply wp_put. cbn. intros h Hal. rewrite Hlbl.
      destruct (existsb (Nat.eqb h) (lm_ptrs (g_lm s))) eqn:Ex; [auto|]. split; [|exact Hal].
      specialize (oi_lab h). destruct (labOf a h) as [i|] eqn:Hh; [|congruence]. destruct oi_lab as (_ & _ & ->).
      destruct (isDef a i) eqn:Hd; auto. exfalso.
      assert (existsb (Nat.eqb h) (lm_ptrs (g_lm s)) = true); [|congruence]. apply existsb_exists. exists h. split; [|apply Nat.eqb_refl].
      apply oi_ptrs. exists i. auto. }
  unfold wp in W. destruct (resetLabelPtrList s) as [s' []|s' e|]; [|destruct W|destruct W]. exists s'. auto.
Qed.
(* a label whose mgr pointer is null: every address is 0 and its destructor touches nothing *)
Lemma dead_mgr s h : l_alive (g_labels s h) = true -> l_mgr (g_labels s h) = false ->
  getAddress h s = Done s 0 /\ exists s', destroyLabel h s = Done s' tt /\ g_code s' = g_code s /\ g_lm s' = g_lm s.
Proof.
  intros H1 H2. unfold getAddress, destroyLabel, mbind, labelOf, get. rewrite H1, H2, andb_false_r. split; [reflexivity|]. eexists. split; [reflexivity|]. split; reflexivity.
Qed.

(* ---- no new open field inside the existing code ---- *)
Definition old_fields (a a' : Spec) (p : Z) : Prop :=
  forall r', In r' (sp_refs a') -> p <= r_pos r' \/
    exists r, In r (sp_refs a) /\ r_pos r = r_pos r' /\ r_size r = r_size r' /\ (unresolved r' = true -> unresolved r = true).
Lemma of_same a a' p : sp_refs a' = sp_refs a -> old_fields a a' p.
Proof. intros E r' H. rewrite E in H. right. exists r'. auto. Qed.
Lemma of_items its : forall a p q, old_fields a (spec_items a its p q) p.
Proof.
  induction its as [|[b|l rel d|e] its IH]; intros a p q; cbn [spec_items]; try (now apply of_same); auto.
  - destruct (p + 1 <=? q); [|now apply of_same]. intros r' H. destruct (IH a (p + 1) q r' H) as [|]; [left; lia|auto].
  - set (n := if rel then 4 else 8). destruct (p + n <=? q); [|now apply of_same]. destruct (tid_of a l); [|now apply of_same].
    intros r' H. destruct (IH _ (p + n) q r' H) as [|(r & Hr & E)]; [left; unfold n in *; destruct rel; lia|].
    unfold addRef in Hr. cbn [set_refs sp_refs In] in Hr. destruct Hr as [<-|Hr].
    + cbn [r_pos r_size] in E. left. lia.
    + right. exists r. auto.
Qed.
Lemma of_define a t o p : old_fields a (specDefine a t o) p.
Proof.
  intros r' H. unfold specDefine in H. cbn [set_refs set_defs sp_refs] in H. apply in_map_iff in H as (r & <- & Hr). right.
  exists r. split; auto. unfold resolve1. destruct (unresolved r && is_tid t r) eqn:E; [|auto]. cbn. split; [auto|]. split; [auto|discriminate].
Qed.
Lemma of_branch a p q t d : 2 <= q - p -> q - p <> 3 -> old_fields a (addBranch a p q t d) p.
Proof.
  intros H1 H2 r' H. unfold addBranch in H. destruct (q - p =? 2) eqn:E; unfold addRef in H; cbn [set_refs sp_refs In] in H;
    (destruct H as [<-|H]; [left; cbn; lia|right; exists r'; auto]).
Qed.
Lemma refs_touch a l : sp_refs (touch a l) = sp_refs a.
Proof. destruct l as [k|h]; auto. unfold touch. now destruct (labOf a h). Qed.
Lemma refs_touch_items its : forall a, sp_refs (touch_items a its) = sp_refs a.
Proof. induction its as [|[b|l rel d|e] its IH]; intros a; cbn [touch_items]; auto. rewrite IH. apply refs_touch. Qed.
Lemma of_pre a a0 a' p : sp_refs a0 = sp_refs a -> old_fields a0 a' p -> old_fields a a' p.
Proof. intros E H r' Hr'. destruct (H r' Hr') as [|(r & Hr & X)]; auto. right. exists r. rewrite <- E. auto. Qed.
Lemma of_post a a0 a' p : sp_refs a' = sp_refs a0 -> old_fields a a0 p -> old_fields a a' p.
Proof. intros E H r' Hr'. rewrite E in Hr'. auto. Qed.

Lemma short_len sc : List.length (short_pat sc) = 2%nat.
Proof. reflexivity. Qed.
Lemma long_len lp lc : (5 <= List.length (long_pat lp lc) <= 6)%nat.
Proof. unfold long_pat. rewrite !app_length, repeat_length. destruct (lp =? 0); cbn; lia. Qed.
Lemma jmp_size l ty sc lc lp s s1 : ok_st s -> opJmp l ty sc lc lp s = Done s1 tt ->
  2 <= c_size (g_code s1) - c_size (g_code s) /\ c_size (g_code s1) - c_size (g_code s) <> 3.
Proof.
  intros Hok E. destruct (jmp_shape l ty sc lc lp s Hok) as (p & Hp & H). unfold appends in H. rewrite E in H. destruct H as ((_ & H & _) & _).
  pose proof (long_len lp lc). destruct Hp as [-> | ->]; [rewrite short_len in H|]; lia.
Qed.

Lemma open_step o s a e s1 a1 : Inv s a -> o <> OpReset ->
  (e = None /\ exec o s = Done s1 tt \/ exists x, e = Some x /\ exec o s = Thrown s1 x) ->
  spec_step a o e (env_of s) (c_size (g_code s)) (c_size (g_code s1)) = Some a1 ->
  old_fields a a1 (c_size (g_code s)) /\ (sp_ready a = true -> sp_ready a1 = true).
Proof.
  intros HI Hnr Hex Hs.
  assert (forall l a, sp_ready (touch a l) = sp_ready a) as RT by (intros [k|h] a0; auto; unfold touch; now destruct (labOf a0 h)).
  assert (forall its a, sp_ready (touch_items a its) = sp_ready a) as RTI by (induction its as [|[b|l rel d|e0] its IH]; intros a0; cbn [touch_items]; auto; now rewrite IH).
  assert (forall its a p q, sp_ready (spec_items a its p q) = sp_ready a) as RSI.
  { induction its as [|[b|l rel d|e0] its IH]; intros a0 p q; cbn [spec_items]; auto; repeat match goal with |- context [if ?b then _ else _] => destruct b end; auto;
    destruct (tid_of a0 l); auto; now rewrite IH. }
  assert (forall a p q t d, sp_ready (addBranch a p q t d) = sp_ready a) as RB by (intros; unfold addBranch; now destruct (_ =? 2)).
  destruct o as [m|l ty sc lc lp|addr ty sc lc lp|l|d s0| | |h|d s0|d s0|h| | |b|en|en]; cbn [spec_step] in *.
  - destruct (_ && _); [discriminate|]. destruct (m _ _) as [its r]. inversion Hs; subst. rewrite RSI, RTI. split; auto.
    eapply of_pre; [apply (refs_touch_items its)|]. apply of_items.
  - destruct (env_autoGrow (env_of s) && sp_ready a) eqn:Hf; [discriminate|]. destruct e.
    { assert (a1 = touch a l) as -> by congruence. rewrite RT. split; auto. apply of_same, refs_touch. }
    destruct Hex as [[_ Hex]|(x & ? & _)]; [|discriminate]. cbn [exec] in Hex.
    rewrite tid_of_touch in Hs. destruct (tid_of a l) as [t|] eqn:Ht; [|discriminate]. destruct (_ <=? maxCode) eqn:Hm; [|discriminate].
    match type of Hs with Some ?x = _ => assert (a1 = x) as -> by congruence end. rewrite RB, RT. split; auto.
    eapply of_pre; [apply refs_touch|]. 
    destruct (jmp_size l ty sc lc lp s s1 (proj1 HI) Hex). apply of_branch; auto.
  - destruct (_ && _); [discriminate|]. destruct e; inversion Hs; subst; [split; [now apply of_same|auto]|]. rewrite RB. split; auto.
    destruct Hex as [[_ Hex]|(x & ? & _)]; [|discriminate]. cbn [exec] in Hex. pose proof HI as (Hok & _).
    destruct (appends_opJmpAbs addr ty sc lc lp s Hok) as (p & Hp & _ & HA). unfold appends in HA. rewrite Hex in HA. destruct HA as ((_ & E & _) & _).
    pose proof (long_len lp lc). destruct Hp as [-> | ->]; [rewrite short_len in E|]; apply of_branch; lia.
  - destruct (_ && _); [discriminate|].
    destruct e as [x|].
    { assert (a1 = touch a l) as -> by (destruct x; congruence). rewrite RT. split; auto. apply of_same, refs_touch. }
    assert (forall t, old_fields a (specDefine (touch a l) t (c_size (g_code s))) (c_size (g_code s)) /\ sp_ready (specDefine (touch a l) t (c_size (g_code s))) = sp_ready a) as HD.
    { intros t. split; [eapply of_pre; [apply (refs_touch a l)|]; apply of_define|]. unfold specDefine. cbn. apply RT. }
    destruct l as [k|h].
    + destruct (String.eqb k "@@").
      * destruct (HD (TAnon (S (sp_anon a)))) as [H1 H2]. inversion Hs; subst. split; [|intros; exact (eq_trans H2 H)]. eapply of_post; [|exact H1]. reflexivity.
      * destruct (tid_of _ (LStr k)) as [t|]; [|discriminate]. destruct (HD t) as [H1 H2]. inversion Hs; subst. split; auto.
    + destruct (tid_of _ (LObj h)) as [t|]; [|discriminate]. destruct (HD t) as [H1 H2].
      match type of Hs with Some ?x = _ => assert (a1 = x) as -> by congruence end. split; [exact H1|]. congruence.
  - destruct (_ && _); [discriminate|]. destruct e as [x|]; [assert (a1 = a) as -> by (destruct x; congruence); split; [now apply of_same|auto]|].
    destruct (labOf a d) as [i|]; [|discriminate]. destruct (labOf a s0) as [j|]; [|discriminate]. destruct (sp_defs a (TObj j)); [|discriminate].
    match goal with H : (if ?b then _ else _) = _ |- _ => destruct b; [|discriminate] end. inversion Hs; subst. split; [apply of_define|auto].
  - inversion Hs; subst. split; [now apply of_same|auto].
  - destruct e; inversion Hs; subst; (split; [now apply of_same|auto]).
  - inversion Hs; subst. split; [now apply of_same|auto].
  - destruct (labOf a s0); [|discriminate]. destruct (isDef a i); [|discriminate]. inversion Hs; subst. split; [now apply of_same|auto].
  - destruct e as [x|]; [inversion Hs; subst; split; [now apply of_same|auto]|].
    destruct (labOf a s0); [|discriminate]. destruct (isDef a i); [|discriminate]. inversion Hs; subst. split; [now apply of_same|auto].
  - destruct (labOf a h); [|discriminate]. inversion Hs; subst. destruct (countId _ _); (split; [now apply of_same|auto]).
  - congruence.
  - destruct e as [x|]; [assert (a1 = a) as -> by (destruct x; congruence); split; [now apply of_same|auto]|]. inversion Hs; subst. split; [now apply of_same|auto].
  - inversion Hs; subst. split; [now apply of_same|auto].
  - inversion Hs; subst. split; [now apply of_same|auto].
  - inversion Hs; subst. split; [now apply of_same|auto].
Qed.

Lemma open_later o s a e s1 a1 k : Inv s a -> o <> OpReset ->
  (e = None /\ exec o s = Done s1 tt \/ exists x, e = Some x /\ exec o s = Thrown s1 x) ->
  spec_step a o e (env_of s) (c_size (g_code s)) (c_size (g_code s1)) = Some a1 -> isAutoGrowC (g_code s1) = isAutoGrowC (g_code s) ->
  k < c_size (g_code s) -> open_at s1 a1 k -> open_at s a k.
Proof.
  intros HI Hnr Hex Hs Ha Hk (r' & Hr' & Ho & Hf). destruct (open_step o s a e s1 a1 HI Hnr Hex Hs) as [HO HR]. unfold in_field in Hf.
  destruct (HO r' Hr') as [|(r & Hr & E1 & E2 & E3)]; [lia|]. exists r. split; [exact Hr|]. unfold in_field. rewrite E1, E2. split; [|exact Hf].
  rewrite Ha in Ho. destruct Ho as [Ho|[Ho1 Ho2]]; [left; auto|right]. split; auto. destruct (sp_ready a); auto. rewrite HR in Ho2 by reflexivity. exact Ho2.
Qed.

(* over any history without reset(), bytes outside the fields that are open now are never changed *)
Theorem history_keeps os s a s' a' : Inv s a -> shistory s a os s' a' -> no_reset os ->
  c_size (g_code s) <= c_size (g_code s') /\
  forall k, 0 <= k < c_size (g_code s) -> ~ open_at s a k -> c_mem (g_code s') k = c_mem (g_code s) k.
Proof.
  intros HI H. revert HI. 
  assert (forall o s a e s1 a1 os s2, (e = None /\ exec o s = Done s1 tt \/ exists x, e = Some x /\ exec o s = Thrown s1 x) ->
    spec_step a o e (env_of s) (c_size (g_code s)) (c_size (g_code s1)) = Some a1 -> Inv s a -> Inv s1 a1 -> no_reset (o :: os) ->
    (Inv s1 a1 -> no_reset os -> c_size (g_code s1) <= c_size (g_code s2) /\ forall k, 0 <= k < c_size (g_code s1) -> ~ open_at s1 a1 k -> c_mem (g_code s2) k = c_mem (g_code s1) k) ->
    c_size (g_code s) <= c_size (g_code s2) /\ forall k, 0 <= k < c_size (g_code s) -> ~ open_at s a k -> c_mem (g_code s2) k = c_mem (g_code s) k) as Step.
  { intros o s0 a0 e s1 a1 os0 s2 Hex Hs HI0 HI1 Hnr IH.
    assert (o <> OpReset) as Hn by (intros ->; apply Hnr; now left).
    assert (no_reset os0) as Hn' by (intros X; apply Hnr; now right). destruct (IH HI1 Hn') as [IH1 IH2].
    assert (keeps s0 a0 s1) as (K1 & K2 & _).
    { pose proof (exec_keeps o s0 a0 HI0 Hn) as K. destruct Hex as [[_ E]|(x & _ & E)]; rewrite E in K; exact K. }
    assert (isAutoGrowC (g_code s1) = isAutoGrowC (g_code s0)) as Ha.
    { pose proof (exec_type o s0 a0 HI0) as K. destruct Hex as [[_ E]|(x & _ & E)]; rewrite E in K; unfold isAutoGrowC; now rewrite K. }
    split; [lia|]. intros k Hk Ho. rewrite <- (K2 k Hk Ho). apply IH2; [lia|]. intros Ho1. apply Ho. eapply (open_later o s0 a0 e s1 a1); eauto. lia. }
  induction H as [s a|s a o s1 a1 os s2 a2 Hl Hid He Hs Hh IH|s a o e s1 a1 os s2 a2 Hl Hid He Hs Hh IH]; intros HI Hnr.
  - split; [lia|auto].
  - apply (Step o s a None s1 a1 os s2); auto. eapply (history_inv [o]); [exact HI|]. eapply SH_done; eauto. constructor.
  - apply (Step o s a (Some e) s1 a1 os s2); eauto. eapply (history_inv [o]); [exact HI|]. eapply SH_thrown; eauto. constructor.
Qed.
