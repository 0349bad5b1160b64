(* What one call does to the code bytes, whatever the labels: the emission functions only append,
   and the bytes they append are known up to the label fields. *)
From Coq Require Import ZArith List Bool String Arith Lia ZifyBool.
From Verif Require Import Base Types Emit EmitFacts Encode State Code Label Gen Wp CodeFacts.
Import ListNotations.
Open Scope Z_scope.

(* bytes; None stands for a byte of a label field *)
Definition pat := list (option Z).
Fixpoint mem_pat (m : Z -> Z) (i : Z) (p : pat) : Prop :=
  match p with [] => True | b :: p' => match b with Some v => m i = v | None => True end /\ mem_pat m (i + 1) p' end.
Lemma mem_pat_ext m m' i p :
  (forall k, i <= k < i + Z.of_nat (List.length p) -> m' k = m k) -> mem_pat m i p -> mem_pat m' i p.
Proof.
  revert i; induction p as [|b p IH]; cbn [mem_pat List.length]; intros i H; auto.
  intros [H1 H2]. split.
  - destruct b; auto. rewrite H by lia. exact H1.
  - apply IH; [|exact H2]. intros k Hk. apply H. lia.
Qed.
Lemma mem_pat_app m i p1 p2 :
  mem_pat m i (p1 ++ p2) <-> mem_pat m i p1 /\ mem_pat m (i + Z.of_nat (List.length p1)) p2.
Proof.
  revert i; induction p1 as [|b p1 IH]; cbn [mem_pat List.length app]; intros i.
  - rewrite Z.add_0_r. tauto.
  - rewrite IH. replace (i + Z.of_nat (S (List.length p1))) with (i + 1 + Z.of_nat (List.length p1)) by lia. tauto.
Qed.
Lemma mem_pat_some m i l : mem_pat m i (map Some l) <-> mem_has m i l.
Proof. revert i; induction l as [|b l IH]; cbn; intros i; [tauto|]. rewrite IH. tauto. Qed.
Lemma mem_pat_none m i n : mem_pat m i (repeat None n).
Proof. revert i; induction n; cbn; auto. Qed.

(* bytes were only appended *)
Record grew (c c' : Code) : Prop := mkGrew {
  gw_type : c_type c' = c_type c;
  gw_size : c_size c <= c_size c';
  gw_mem : forall i, 0 <= i < c_size c -> c_mem c' i = c_mem c i;
  gw_fixed : isAutoGrowC c = false ->
     c_top c' = c_top c /\ c_max c' = c_max c /\ c_cap c' = c_cap c
     /\ (forall i, i < 0 \/ c_size c' <= i -> c_mem c' i = c_mem c i) }.
Lemma grew_refl c : grew c c.
Proof. constructor; auto; lia. Qed.
Lemma grew_auto c c' : grew c c' -> isAutoGrowC c' = isAutoGrowC c.
Proof. intros H. unfold isAutoGrowC. now rewrite (gw_type _ _ H). Qed.
Lemma grew_trans a b c : grew a b -> grew b c -> grew a c.
Proof.
  intros H1 H2. pose proof (gw_size _ _ H1). pose proof (gw_size _ _ H2).
  constructor.
  - now rewrite (gw_type _ _ H2), (gw_type _ _ H1).
  - lia.
  - intros i Hi. rewrite (gw_mem _ _ H2) by lia. apply (gw_mem _ _ H1); lia.
  - intros Ha. destruct (gw_fixed _ _ H1 Ha) as (A1 & A2 & A3 & A4).
    assert (isAutoGrowC b = false) as Hb by (rewrite (grew_auto _ _ H1); exact Ha).
    destruct (gw_fixed _ _ H2 Hb) as (B1 & B2 & B3 & B4).
    do 3 (split; [congruence|]). intros i Hi. rewrite B4 by lia. apply A4. lia.
Qed.
Lemma ext_grew c c' : ext c c' -> grew c c'.
Proof. intros []. constructor; auto. Qed.

(* c' is c with the bytes p appended *)
Definition apps (c c' : Code) (p : pat) : Prop :=
  grew c c' /\ c_size c' = c_size c + Z.of_nat (List.length p) /\ mem_pat (c_mem c') (c_size c) p.
Lemma apps_nil c c' : grew c c' -> c_size c' = c_size c -> apps c c' [].
Proof. intros H E. split; [exact H|]. split; [cbn; lia|exact I]. Qed.
Lemma apps_app c c1 c2 p1 p2 : 0 <= c_size c -> apps c c1 p1 -> apps c1 c2 p2 -> apps c c2 (p1 ++ p2).
Proof.
  intros H0 (G1 & S1 & M1) (G2 & S2 & M2). split; [eapply grew_trans; eauto|]. rewrite app_length. split; [lia|].
  apply mem_pat_app. split; [|now rewrite S1 in M2].
  eapply mem_pat_ext; [|exact M1]. intros k Hk. apply (gw_mem _ _ G2). lia.
Qed.

(* m appends p, or fails after appending something; it keeps the settings and the oracle *)
Definition keepcfg (s s' : St) : Prop := g_noexc s' = g_noexc s /\ g_or s' = g_or s /\ g_jmpNear s' = g_jmpNear s /\ g_enc0 s' = g_enc0 s /\ g_enc1 s' = g_enc1 s.
Definition appends {A} (m : M A) (s : St) (p : pat) : Prop :=
  match m s with
  | Done s' _ => apps (g_code s) (g_code s') p /\ ok_st s' /\ keepcfg s s'
  | Thrown s' _ => grew (g_code s) (g_code s') /\ ok_st s' /\ keepcfg s s'
  | UB => True
  end.
Lemma keepcfg_refl s : keepcfg s s.
Proof. unfold keepcfg; auto 10. Qed.
Lemma keepcfg_trans a b c : keepcfg a b -> keepcfg b c -> keepcfg a c.
Proof. unfold keepcfg. intuition congruence. Qed.
Lemma apps_refl c : apps c c [].
Proof. apply apps_nil; auto using grew_refl. Qed.

Lemma appends_ret {A} (a : A) s : ok_st s -> appends (mret a) s [].
Proof. intros H. cbn. auto using apps_refl, keepcfg_refl. Qed.
Lemma appends_throw {A} e s p : ok_st s -> appends (@mthrow A e) s p.
Proof. intros H. cbn. auto using grew_refl, keepcfg_refl. Qed.
Lemma appends_get {A} (f : St -> A) s : ok_st s -> appends (get f) s [].
Proof. intros H. cbn. auto using apps_refl, keepcfg_refl. Qed.
Lemma appends_bind {A B} (m : M A) (k : A -> M B) s p1 p2 :
  ok_st s -> appends m s p1 ->
  (forall s' a, m s = Done s' a -> ok_st s' -> apps (g_code s) (g_code s') p1 -> keepcfg s s' -> appends (k a) s' p2) ->
  appends (mbind m k) s (p1 ++ p2).
Proof.
  intros Hok Hm Hk. unfold appends, mbind in *. destruct (m s) as [s1 a|s1 e|]; auto. destruct Hm as (P1 & O1 & K1).
  specialize (Hk s1 a eq_refl O1 P1 K1). destruct (k a s1) as [s2 b|s2 e|]; auto; destruct Hk as (P2 & O2 & K2).
  - split; [|split; [exact O2|eapply keepcfg_trans; eauto]]. destruct Hok as (_ & W & _). destruct W. eapply apps_app; eauto.
  - split; [|split; [exact O2|eapply keepcfg_trans; eauto]]. destruct P1. eapply grew_trans; eauto.
Qed.
Lemma appends_bind0 {A B} (m : M A) (k : A -> M B) s p :
  ok_st s -> appends m s [] ->
  (forall s' a, m s = Done s' a -> ok_st s' -> apps (g_code s) (g_code s') [] -> keepcfg s s' -> appends (k a) s' p) ->
  appends (mbind m k) s p.
Proof. intros H1 H2 H3. now apply (appends_bind m k s [] p). Qed.
Lemma appends_fnS {A} (d : A) m s p : appends m s p -> appends (fnS d m) s p.
Proof.
  unfold appends, fnS. destruct (m s) as [s1 a|s1 e|] eqn:E; auto. intros (G & (N & O) & K). rewrite N. split; [exact G|]. split; [|exact K]. split; assumption.
Qed.
Lemma appends_wp {A} (m : M A) s p :
  ok_st s ->
  wp m s (fun s' _ => exists c', s' = set_code s c' /\ apps (g_code s) c' p /\ code_wf c')
         (fun s' _ => exists c', s' = set_code s c' /\ grew (g_code s) c' /\ code_wf c') -> appends m s p.
Proof.
  intros Hok. unfold wp, appends. destruct (m s); auto; intros (c' & -> & G & W); (split; [exact G|]); (split; [now apply ok_set_code|unfold keepcfg; auto]).
Qed.
(* a step that does not touch the code *)
Lemma appends_quiet (f : St -> St) s : ok_st s -> g_code (f s) = g_code s -> keepcfg s (f s) -> appends (put f) s [].
Proof.
  intros (H1 & H2 & H3) E K. unfold appends, put. rewrite E. split; [apply apps_refl|]. split; [|exact K].
  destruct K as (K1 & K2 & K3). unfold ok_st. now rewrite E, K1, K2.
Qed.

Lemma appends_dbM b s : ok_st s -> appends (dbM b) s [Some (w8 b)].
Proof.
  intros Hok. apply appends_wp; [exact Hok|]. eapply wp_mono; [now apply wp_dbM| |].
  - intros s' _ (c' & -> & E & W & Hs & Hm). exists c'. split; auto. split; [|exact W].
    split; [now apply ext_grew|]. split; [cbn; lia|]. cbn. auto.
  - intros s' e (_ & _ & c' & -> & E & W & Hs). exists c'. auto using ext_grew.
Qed.
Lemma appends_dbsM l s : ok_st s -> appends (dbsM l) s (map Some (map w8 l)).
Proof.
  intros Hok. apply appends_wp; [exact Hok|]. eapply wp_mono; [now apply wp_dbsM| |].
  - intros s' _ (c' & -> & E & W & Hs & Hm). exists c'. split; auto. split; [|exact W].
    split; [now apply ext_grew|]. rewrite !map_length. split; [lia|]. now apply mem_pat_some.
  - intros s' e (_ & _ & c' & -> & E & W & Hs). exists c'. auto using ext_grew.
Qed.
Lemma appends_dbnM v n s : ok_st s -> 0 <= n <= 8 -> appends (dbnM v n) s (map Some (le_bytes v (Z.to_nat n))).
Proof.
  intros Hok Hn. apply appends_wp; [exact Hok|]. eapply wp_mono; [now apply wp_dbnM| |].
  - intros s' _ (c' & -> & E & W & Hs & Hm). exists c'. split; auto. split; [|exact W].
    split; [now apply ext_grew|]. rewrite map_length, le_bytes_length. split; [lia|]. now apply mem_pat_some.
  - intros s' e (_ & _ & c' & -> & E & W & Hs). exists c'. auto using ext_grew.
Qed.
Lemma apps_none c c' p : apps c c' p -> apps c c' (repeat None (List.length p)).
Proof. intros (G & S & M). split; [exact G|]. rewrite repeat_length. split; [exact S|]. apply mem_pat_none. Qed.
Lemma appends_none {A} (m : M A) s p n : appends m s p -> n = List.length p -> appends m s (repeat None n).
Proof. intros H ->. unfold appends in *. destruct (m s); auto. destruct H as (P & O). split; [now apply apps_none|exact O]. Qed.

Lemma appends_grow s : ok_st s -> isAutoGrowC (g_code s) = true -> appends growMemory s [].
Proof.
  intros Hok Ha. pose proof Hok as (Hn & W & Hb). apply appends_wp; [exact Hok|].
  eapply wp_mono; [now apply wp_growMemory| |].
  - intros s' _ (c' & -> & E & W' & Hs & _). exists c'. auto using apps_nil, ext_grew.
  - intros s' e (_ & c' & -> & E & W' & Hs). exists c'. auto using ext_grew.
Qed.
Lemma appends_growIf s : ok_st s -> appends growIfNearFull s [].
Proof.
  intros Hok. unfold growIfNearFull. apply appends_bind0; auto using appends_get.
  intros s' c E Hok' _ _. inversion E; subst s' c. destruct (isAutoGrowC (g_code s) && nearFull (g_code s)) eqn:Hc; [|now apply appends_ret].
  apply andb_true_iff in Hc as [Ha _]. now apply appends_grow.
Qed.
Lemma appends_save off v n mode s : ok_st s -> appends (save off v n mode) s [].
Proof.
  intros (Hn & W & Hb). unfold save, with_code, appends, put. cbn [g_code set_code].
  split; [apply apps_nil; [|reflexivity]; constructor; auto; cbn; lia|]. split; [|unfold keepcfg; auto].
  split; [exact Hn|]. split; [|exact Hb]. destruct W. constructor; auto.
Qed.
Lemma appends_verify x s p : ok_st s -> p = [] -> appends (verifyInInt32M x) s p.
Proof. intros Hok ->. apply appends_fnS. destruct (IsInInt32 x); [now apply appends_ret|now apply appends_throw]. Qed.
Lemma appends_labelOf h s : ok_st s -> appends (labelOf h) s [].
Proof. intros H. unfold appends, labelOf. destruct (l_alive _); auto using apps_refl, keepcfg_refl. Qed.
Lemma appends_getIdM h s : ok_st s -> appends (getIdM h) s [].
Proof.
  intros H. unfold getIdM. apply appends_bind0; auto using appends_labelOf. intros s1 o E Ho _ _.
  destruct (l_id o =? 0); [|now apply appends_ret]. apply appends_bind0; auto using appends_get.
  intros s2 n E2 Ho2 _ _. inversion E2; subst s2 n. destruct (_ =? 2147483647); [exact I|].
  apply appends_bind0; auto.
  - apply appends_quiet; auto. unfold keepcfg; auto 10.
  - intros. now apply appends_ret.
Qed.
Lemma appends_getOffsetL l s : ok_st s -> appends (getOffsetL l) s [].
Proof.
  intros H. destruct l as [k|h]; cbn [getOffsetL].
  - apply appends_bind0; auto.
    + unfold getOffsetS. apply appends_fnS. apply appends_bind0; auto using appends_get. intros s1 lm E Ho _ _. inversion E; subst s1 lm.
      apply appends_bind0; auto; [|intros; now apply appends_ret].
      repeat match goal with |- appends (if ?b then _ else _) _ _ => destruct b end; first [now apply appends_ret|now apply appends_throw].
    + intros s1 [o k'] _ Ho _ _. now apply appends_ret.
  - apply appends_bind0; auto.
    + unfold getOffsetC. apply appends_bind0; auto using appends_getIdM. intros. apply appends_bind0; auto using appends_get. intros. now apply appends_ret.
    + intros. now apply appends_ret.
Qed.
Lemma appends_addUndefL l j s : ok_st s -> appends (addUndefL l j) s [].
Proof.
  intros H. destruct l as [k|h]; cbn [addUndefL].
  - apply appends_quiet; auto. unfold keepcfg; auto 10.
  - unfold addUndefC. apply appends_bind0; auto using appends_labelOf. intros. apply appends_quiet; auto. unfold keepcfg; auto 10.
Qed.

Definition putSize (rel : bool) : nat := if rel then 4%nat else 8%nat.
Lemma appends_putL l rel d s : ok_st s -> appends (putL_inner l rel d) s (repeat None (putSize rel)).
Proof.
  intros Hok. unfold putL_inner. apply appends_bind0; auto using appends_growIf. intros s1 _ _ Ho1 _ _.
  apply appends_bind0; auto using appends_getOffsetL. intros s2 [o l'] _ Ho2 _ _.
  apply appends_bind0; auto using appends_get. intros s3 c E Ho3 _ _. inversion E; subst s3 c.
  assert (forall v n s, ok_st s -> 0 <= n <= 8 -> appends (dbnM v n) s (repeat None (Z.to_nat n))) as D.
  { intros v n s0 H0 Hn. eapply appends_none; [apply (appends_dbnM v n); auto|]. now rewrite map_length, le_bytes_length. }
  destruct o as [off|].
  - destruct rel; cbn [putSize].
    + apply appends_bind0; [auto|now apply appends_verify|]. intros. apply (D a 4); auto; lia.
    + destruct (isAutoGrowC (g_code s2)).
      * rewrite <- (app_nil_r (repeat None 8)). apply appends_bind; [auto|apply (D 0 8); auto; lia|]. intros.
        apply appends_bind0; auto using appends_get. intros. now apply appends_save.
      * apply (D _ 8); auto; lia.
  - rewrite <- (app_nil_r (repeat None _)). apply appends_bind; [auto| |].
    + destruct rel; [apply (D 0 4)|apply (D 0 8)]; auto; lia.
    + intros. apply appends_bind0; auto using appends_get. intros. now apply appends_addUndefL.
Qed.

(* the bytes of an instruction *)
Definition pat_item (i : item) : pat :=
  match i with IDb b => [Some (w8 b)] | IPutL _ rel _ => repeat None (putSize rel) | IErr _ => [] end.
Definition pat_items (l : list item) : pat := flat_map pat_item l.
Lemma appends_items l : forall s, ok_st s -> appends (exec_items l) s (pat_items l).
Proof.
  induction l as [|i l IH]; intros s Hok; [now apply appends_ret|].
  cbn [exec_items]. change (pat_items (i :: l)) with (pat_item i ++ pat_items l). apply appends_bind; auto.
  destruct i as [b|l' rel d|e]; cbn [exec_item pat_item].
  - now apply appends_dbM.
  - now apply appends_putL.
  - apply appends_quiet; auto; unfold setError; destruct (g_err s); unfold keepcfg; auto 10.
Qed.
Lemma appends_runE m s : ok_st s -> appends (@runE unit m) s (pat_items (fst (m (env_of s) (c_size (g_code s))))).
Proof.
  intros Hok. unfold runE, appends. destruct (m (env_of s) (c_size (g_code s))) as [its r]. cbn [fst].
  pose proof (appends_bind (exec_items its) (fun _ => match r with Ok a => mret a | Err e => mthrow e end) s (pat_items its) []) as H.
  rewrite app_nil_r in H. apply H; auto.
  - now apply appends_items.
  - intros s' a _ Ho _ _. destruct r; [now apply appends_ret|now apply appends_throw].
Qed.

(* forgetting some bytes *)
Definition pat_weak (p q : pat) : Prop := Forall2 (fun x y => y = None \/ x = y) p q.
Lemma pat_weak_mem m p q : pat_weak p q -> forall i, mem_pat m i p -> mem_pat m i q.
Proof.
  induction 1 as [|x y p q H _ IH]; intros i; cbn [mem_pat]; auto. intros [H1 H2]. split; auto. destruct H as [-> | <-]; auto.
Qed.
Lemma appends_weak {A} (m : M A) s p q : appends m s p -> pat_weak p q -> appends m s q.
Proof.
  intros H W. unfold appends in *. destruct (m s); auto. destruct H as ((G & S & P) & O). split; [|exact O].
  split; [exact G|]. split; [|eapply pat_weak_mem; eauto]. rewrite S. f_equal. f_equal. clear -W. induction W; cbn; auto.
Qed.
Lemma pat_weak_refl p : pat_weak p p.
Proof. induction p; constructor; auto. Qed.
Lemma pat_weak_cons x p q : pat_weak p q -> pat_weak (x :: p) (x :: q).
Proof. intros; constructor; auto. Qed.
Lemma pat_weak_none p n : n = List.length p -> pat_weak p (repeat None n).
Proof. intros ->. induction p; cbn; constructor; auto. Qed.
Lemma pat_items_db l : pat_items (map IDb l) = map Some (map w8 l).
Proof. induction l; cbn; [reflexivity|]. f_equal. exact IHl. Qed.
