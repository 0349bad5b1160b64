(* Data emission and instruction bytes, as seen from reachable states. *)
From Coq Require Import ZArith List Bool String Arith Lia ZifyBool.
From Verif Require Import Base Types Emit EmitFacts Encode State Code Label Gen Wp CodeFacts Append SpecMem SpecLabel LabelFacts LabelInv LabelEmit LabelDefine LabelHist LabelThms LabelThms2 LabelThms3 LabelThms4 Stable LabelThms5 Grow LabelThms6 LabelThms7.
Import ListNotations.
Open Scope Z_scope.

(* bytes of an instruction outside its label fields, in place *)
Fixpoint items_at (m : Z -> Z) (p : Z) (its : list item) : Prop :=
  match its with
  | [] => True
  | IDb b :: r => m p = w8 b /\ items_at m (p + 1) r
  | IPutL _ rel _ :: r => items_at m (p + (if rel then 4 else 8)) r
  | IErr _ :: r => items_at m p r
  end.
Fixpoint items_len (its : list item) : Z :=
  match its with
  | [] => 0
  | IDb _ :: r => 1 + items_len r
  | IPutL _ rel _ :: r => (if rel then 4 else 8) + items_len r
  | IErr _ :: r => items_len r
  end.
Lemma pat_items_at m its : forall p, mem_pat m p (pat_items its) -> items_at m p its.
Proof.
  induction its as [|[b|l rel d|e] its IH]; intros p H; cbn [items_at]; auto.
  - cbn in H. destruct H. auto.
  - change (pat_items (IPutL l rel d :: its)) with (repeat None (putSize rel) ++ pat_items its) in H.
    apply mem_pat_app in H as [_ H]. rewrite repeat_length in H. apply IH. destruct rel; exact H.
Qed.
Lemma pat_items_len its : Z.of_nat (List.length (pat_items its)) = items_len its.
Proof.
  induction its as [|[b|l rel d|e] its IH]; cbn [items_len]; auto.
  - cbn [pat_items flat_map pat_item app List.length]. fold (pat_items its). lia.
  - change (pat_items (IPutL l rel d :: its)) with (repeat None (putSize rel) ++ pat_items its).
    rewrite app_length, repeat_length. destruct rel; cbn [putSize] in *; lia.
Qed.

Theorem instr_bytes s a m : run s a -> legal a (OpEmit m) (env_of s) (c_size (g_code s)) -> ids_left s (OpEmit m) ->
  isAutoGrowC (g_code s) && sp_ready a = false ->
  match exec (OpEmit m) s with
  | Done s1 _ => let its := fst (m (env_of s) (c_size (g_code s))) in
      c_size (g_code s1) = c_size (g_code s) + items_len its /\ items_at (c_mem (g_code s1)) (c_size (g_code s)) its
      /\ (forall k, 0 <= k < c_size (g_code s) -> c_mem (g_code s1) k = c_mem (g_code s) k)
      /\ (isAutoGrowC (g_code s) = false -> fixed_same s s1)
  | Thrown s1 _ =>
      c_size (g_code s) <= c_size (g_code s1)
      /\ (forall k, 0 <= k < c_size (g_code s) -> c_mem (g_code s1) k = c_mem (g_code s) k)
      /\ (isAutoGrowC (g_code s) = false -> fixed_same s s1)
  | UB => False
  end.
Proof.
  intros HR Hl Hid Hf. pose proof (run_inv _ _ HR) as HI. pose proof HI as (Hok & _).
  pose proof (no_ub s a (OpEmit m) HR Hl Hid (fun _ => Hf)) as HU. pose proof (appends_runE m s Hok) as HA.
  assert (forall s1, ok_st s1 -> grew (g_code s) (g_code s1) -> isAutoGrowC (g_code s) = false -> fixed_same s s1) as HF.
  { intros s1 (_ & W & _) G Ha. destruct (gw_fixed _ _ G Ha) as (T & M & _ & K). destruct W. unfold fixed_same.
    rewrite (isAutoGrow_of _ _ (gw_type _ _ G)). repeat split; auto. intros k Hk. apply K. lia. }
  unfold appends in HA. cbn [exec] in *. destruct (runE m s) as [s1 []|s1 e|]; [| |congruence].
  - destruct HA as ((G & S & P) & O & _). cbn zeta. rewrite <- pat_items_len. split; [exact S|]. split; [now apply pat_items_at|]. split; auto. apply (gw_mem _ _ G).
  - destruct HA as (G & O & _). split; [apply G|]. split; auto. apply (gw_mem _ _ G).
Qed.

(* ---- data ---- *)
Lemma dbs_items l : forall env pos, dbs l env pos = (map IDb (map w8 l), Ok tt).
Proof.
  induction l as [|b l IH]; intros env pos; [reflexivity|]. cbn [dbs]. unfold bind, db, emit. rewrite IH. reflexivity.
Qed.
Lemma dbn_items env pos v n : n <= 8 -> dbn v n env pos = (map IDb (le_bytes v (Z.to_nat n)), Ok tt).
Proof.
  intros Hn. unfold dbn, fn. replace (8 <? n) with false by lia. unfold bind, ret. cbn [app items_size].
  rewrite dbs_items, map_w8_le, le_bytes_w64 by lia. reflexivity.
Qed.
Lemma nput_db l : nput (map IDb l) = 0.
Proof. induction l; auto. Qed.
Definition all_kept (s s1 : St) : Prop :=
  (forall k, 0 <= k < c_size (g_code s) -> c_mem (g_code s1) k = c_mem (g_code s) k) /\ (isAutoGrowC (g_code s) = false -> fixed_same s s1).
Theorem data_bytes s a v n : run s a -> 0 <= n <= 8 ->
  match exec (OpEmit (dbn v n)) s with
  | Done s1 _ => c_size (g_code s1) = c_size (g_code s) + n /\ le_read (c_mem (g_code s1)) (c_size (g_code s)) (Z.to_nat n) = v mod 2 ^ (8 * n)
      /\ all_kept s s1
  | Thrown s1 e => bufErr e /\ all_kept s s1
  | UB => False
  end.
Proof.
  intros HR Hn. pose proof (run_inv _ _ HR) as HI. pose proof HI as (Hok & _). cbn [exec]. unfold runE.
  rewrite dbn_items by lia. unfold mbind. rewrite exec_items_db.
  assert (forall s1, ok_st s1 -> grew (g_code s) (g_code s1) -> all_kept s s1) as HF.
  { intros s1 (_ & W & _) G. split; [apply G|]. intros Ha. destruct (gw_fixed _ _ G Ha) as (T & M & _ & K). destruct W. unfold fixed_same.
    rewrite (isAutoGrow_of _ _ (gw_type _ _ G)). repeat split; auto. intros k Hk. apply K. lia. }
  pose proof (appends_dbsM (le_bytes v (Z.to_nat n)) s Hok) as A. pose proof (errs_dbsM (le_bytes v (Z.to_nat n)) s Hok) as X.
  pose proof (wp_dbsM (le_bytes v (Z.to_nat n)) s Hok) as U. unfold appends in A. unfold wp in U.
  destruct (dbsM _ s) as [s1 x|s1 e|]; cbn [mret]; auto.
  - destruct A as ((G & S & P) & O & _). rewrite map_length, map_length, le_bytes_length in S. split; [lia|]. split; [|auto].
    rewrite mem_pat_some, map_w8_le in P. rewrite (le_read_bytes _ _ _ _ P). f_equal. f_equal. lia.
  - destruct A as (G & O & _). auto.
Qed.
Lemma dbn_bad s v n : ok_st s -> 8 < n -> exec (OpEmit (dbn v n)) s = Thrown s ERR_BAD_PARAMETER.
Proof.
  intros (Hn & _) H. cbn [exec]. unfold runE, dbn, fn, bind. replace (8 <? n) with true by lia. cbn. now rewrite !Hn.
Qed.
(* rewrite(): exactly the named bytes *)
Theorem rewrite_bytes s a off v n : run s a -> n = 1 \/ n = 2 \/ n = 4 \/ n = 8 -> 0 <= off -> off + n <= c_size (g_code s) ->
  exists s1, rewrite off v n s = Done s1 tt
    /\ le_read (c_mem (g_code s1)) off (Z.to_nat n) = v mod 2 ^ (8 * n)
    /\ (forall k, k < off \/ off + n <= k -> c_mem (g_code s1) k = c_mem (g_code s) k)
    /\ c_size (g_code s1) = c_size (g_code s) /\ c_top (g_code s1) = c_top (g_code s).
Proof.
  intros HR Hn H0 H1. pose proof (run_ok _ _ HR) as (_ & W & _). destruct W.
  assert (wp (rewrite off v n) s (fun s1 _ => le_read (c_mem (g_code s1)) off (Z.to_nat n) = v mod 2 ^ (8 * n)
    /\ (forall k, k < off \/ off + n <= k -> c_mem (g_code s1) k = c_mem (g_code s) k)
    /\ c_size (g_code s1) = c_size (g_code s) /\ c_top (g_code s1) = c_top (g_code s)) (fun _ _ => False)) as H.
  { apply wp_rewrite; auto; [lia|]. intros m Hm Hk. cbn [g_code set_code c_setmem c_mem c_size c_top]. split; [|auto].
    rewrite (le_read_bytes _ _ _ _ Hm). do 2 f_equal. lia. }
  unfold wp in H. destruct (rewrite off v n s) as [s1 []|s1 e|]; try contradiction. exists s1. auto.
Qed.
Lemma rewrite_bad s off v n : g_noexc s = false -> n <> 1 -> n <> 2 -> n <> 4 -> n <> 8 -> rewrite off v n s = Thrown s ERR_BAD_PARAMETER.
Proof.
  intros Hx H1 H2 H4 H8. unfold rewrite, fnS. replace (negb (n =? 1) && negb (n =? 2) && negb (n =? 4) && negb (n =? 8)) with true by lia.
  cbn [mthrow]. now rewrite Hx.
Qed.

(* ---- growth ---- *)
Theorem grow_never_full s a o : run s a -> isAutoGrowC (g_code s) = true -> emits o = true ->
  (forall m, o = OpEmit m -> forall env p, snd (m env p) <> Err ERR_CODE_IS_TOO_BIG) ->
  forall s1, exec o s <> Thrown s1 ERR_CODE_IS_TOO_BIG.
Proof.
  intros HR Ha He Hm s1 E. pose proof (nb_exec o He) as N. assert (nb (exec o)) as N' by (apply N; destruct o; auto).
  specialize (N' s (run_ok _ _ HR) Ha). rewrite E in N'. destruct N' as (_ & X). congruence.
Qed.

(* ---- failing calls ---- *)
Theorem failed_labels s a o s1 e a1 : run s a -> o <> OpReset ->
  legal a o (env_of s) (c_size (g_code s)) -> ids_left s o ->
  exec o s = Thrown s1 e -> spec_step a o (Some e) (env_of s) (c_size (g_code s)) (c_size (g_code s1)) = Some a1 ->
  run s1 a1 /\ sp_defs a1 = sp_defs a /\ forall r, In r (sp_refs a) -> In r (sp_refs a1).
Proof.
  intros HR Hn Hl Hid He Hs. split.
  { eapply run_more; [exact HR|]. eapply SH_thrown; eauto. constructor. }
  assert (forall l, sp_refs (touch a l) = sp_refs a) as HT by (intros [k|h]; auto; unfold touch; now destruct (labOf a h)).
  assert (forall its b, sp_refs (touch_items b its) = sp_refs b) as HTI.
  { induction its as [|[b|l rel d|x] its IH]; intros b0; cbn [touch_items]; auto. rewrite IH. destruct l as [k|h]; auto. unfold touch. now destruct (labOf b0 h). }
  assert (forall its b p q, sp_defs (spec_items b its p q) = sp_defs b) as HD.
  { induction its as [|[b|l rel d|x] its IH]; intros b0 p q; cbn [spec_items]; auto.
    - destruct (p + 1 <=? q); auto.
    - destruct (_ <=? q); auto. destruct (tid_of b0 l); auto. now rewrite IH. }
  destruct o; cbn [spec_step] in Hs.
  - destruct (_ && _); [discriminate|]. destruct (m _ _) as [its r]. match type of Hs with Some ?x = _ => assert (a1 = x) as -> by congruence end.
    rewrite HD, defs_touch_items. split; auto. intros r0 H. apply items_keep. now rewrite HTI.
  - destruct (_ && _); [discriminate|]. assert (a1 = touch a l) as -> by congruence. rewrite defs_touch, HT. auto.
  - destruct (_ && _); [discriminate|]. assert (a1 = a) as -> by congruence. auto.
  - destruct (_ && _); [discriminate|]. assert (a1 = touch a l) as -> by (destruct e; congruence). rewrite defs_touch, HT. auto.
  - destruct (_ && _); [discriminate|]. assert (a1 = a) as -> by (destruct e; congruence). auto.
  - inversion Hs; subst. auto.
  - inversion Hs; subst. auto.
  - inversion Hs; subst. auto.
  - exfalso. cbn [exec] in He. unfold copyLabel, incRefCount, with_lm, labelOf, mbind, get, put, mUB, mret in He.
    repeat match type of He with context [if ?b then _ else _] => destruct b end; discriminate.
  - inversion Hs; subst. auto.
  - exfalso. cbn [exec] in He. unfold destroyLabel, decRefCount, with_lm, labelOf, mbind, get, put, mUB, mret in He.
    repeat match type of He with context [if ?b then _ else _] => destruct b end; discriminate.
  - congruence.
  - assert (a1 = a) as -> by (destruct e; congruence). auto.
  - inversion Hs; subst. auto.
  - inversion Hs; subst. auto.
  - inversion Hs; subst. auto.
Qed.

(* setSize *)
Lemma set_size n s : ok_st s -> 0 <= n ->
  match setSize n s with
  | Done s1 _ => n <= c_max (g_code s) /\ s1 = set_code s (c_setsize (g_code s) n) /\ ok_st s1 /\ c_size (g_code s1) = n
                 /\ c_mem (g_code s1) = c_mem (g_code s)
  | Thrown s1 e => c_max (g_code s) < n /\ e = ERR_OFFSET_IS_TOO_BIG /\ s1 = s
  | UB => False
  end.
Proof.
  intros H N. pose proof H as (X & W & _). unfold setSize, fnS, mbind, get. destruct (c_max (g_code s) <? n) eqn:C.
  - cbn. rewrite X. split; [lia|auto].
  - unfold with_code, mbind, get, put, mret. cbn. split; [lia|]. split; [reflexivity|].
    split; [|split; reflexivity]. apply ok_set_code; auto. destruct W. split; cbn; auto; lia.
Qed.
