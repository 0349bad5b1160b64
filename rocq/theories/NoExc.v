(* The XBYAK_NO_EXCEPTION build: the first error is kept, and a call that throws in the exception
   build leaves an error in the no-exception build. *)
From Coq Require Import ZArith List Bool String Lia.
From Verif Require Import Base Types Emit Encode State Code Label Gen.
Import ListNotations.
Open Scope Z_scope.

(* the same generator compiled with XBYAK_NO_EXCEPTION *)
Definition nx (s : St) : St :=
  mkSt (g_code s) (g_lm s) (g_labels s) (g_jmpNear s) (g_enc0 s) (g_enc1 s) true (g_err s) (g_or s).
Definition nxe (e : Env) : Env := mkEnv (env_autoGrow e) (env_top e) true (env_jmpNear e) (env_enc0 e) (env_enc1 e).

(* ---- predicates on stateful functions ---- *)
Definition keepsErr {A} (m : M A) : Prop := forall s,
  match m s with
  | Done s' _ | Thrown s' _ => g_noexc s' = g_noexc s /\ (forall e, g_err s = Some e -> g_err s' = Some e)
  | UB => True
  end.
Definition sim {A} (m : M A) : Prop := forall s, g_noexc s = false ->
  match m s with
  | Done s1 a => m (nx s) = Done (nx s1) a
  | Thrown _ _ => match m (nx s) with Done s2 _ => g_err s2 <> None | _ => True end
  | UB => True
  end.
Definition nothrow {A} (m : M A) : Prop := forall s, g_noexc s = true -> match m s with Thrown _ _ => False | _ => True end.
Definition good {A} (m : M A) : Prop := keepsErr m /\ sim m.

Lemma good_ret {A} (a : A) : good (mret a).
Proof. split; intros s; cbn; auto. Qed.
Lemma good_UB {A} : good (@mUB A).
Proof. split; intros s; cbn; auto. Qed.
Lemma good_throw {A} e : good (@mthrow A e).
Proof. split; intros s; cbn; auto. Qed.
Lemma good_get {A} (f : St -> A) : (forall s, f (nx s) = f s) -> good (get f).
Proof. intros H. split; intros s; unfold get; auto. intros _. now rewrite H. Qed.
Lemma good_put f : (forall s, g_noexc s = false -> f (nx s) = nx (f s)) -> (forall s, g_noexc (f s) = g_noexc s) ->
  (forall s e, g_err s = Some e -> g_err (f s) = Some e) -> good (put f).
Proof. intros H1 H2 H3. split; intros s; unfold put; auto. intros Hn. now rewrite H1. Qed.
Lemma good_bind {A B} (m : M A) (k : A -> M B) : good m -> (forall a, good (k a)) -> good (mbind m k).
Proof.
  intros [K1 S1] H. split.
  - intros s. specialize (K1 s). unfold mbind. destruct (m s) as [s1 a|s1 e|]; auto.
    destruct (H a) as [K2 _]. specialize (K2 s1). destruct (k a s1) as [s2 b|s2 e|]; auto; destruct K1 as [N1 E1], K2 as [N2 E2]; split; auto; congruence.
  - intros s Hn. specialize (S1 s Hn). pose proof (K1 s) as K. unfold mbind. destruct (m s) as [s1 a|s1 e|].
    + rewrite S1. destruct (H a) as [_ S2]. destruct K as [N _]. apply S2. congruence.
    + pose proof (K1 (nx s)) as K'. destruct (m (nx s)) as [s2 a|s2 e'|]; auto.
      destruct (H a) as [K2 _]. specialize (K2 s2). destruct (k a s2) as [s3 b|s3 e'|]; auto. destruct K2 as [_ K2].
      destruct (g_err s2) as [x|] eqn:E; [|congruence]. rewrite (K2 x eq_refl). discriminate.
    + exact I.
Qed.
Lemma good_fnS {A} (d : A) m : good m -> good (fnS d m).
Proof.
  intros [K S]. split.
  - intros s. specialize (K s). unfold fnS. destruct (m s) as [s1 a|s1 e|]; auto. destruct K as [N K]. destruct (g_noexc s1) eqn:E; [|split; [congruence|exact K]].
    split; [unfold setError; destruct (g_err s1); cbn; congruence|]. intros x Hx. unfold setError. specialize (K x Hx). rewrite K. exact K.
  - intros s Hn. specialize (S s Hn). pose proof (K s) as K1. pose proof (K (nx s)) as K2. unfold fnS. destruct (m s) as [s1 a|s1 e|].
    + now rewrite S.
    + destruct K1 as [N1 _]. rewrite N1, Hn. destruct (m (nx s)) as [s2 a|s2 e'|]; auto. destruct (g_noexc s2); auto.
      unfold setError. destruct (g_err s2) eqn:E; cbn; congruence.
    + exact I.
Qed.
Lemma nt_ret {A} (a : A) : nothrow (mret a).
Proof. intros s; cbn; auto. Qed.
Lemma nt_get {A} (f : St -> A) : nothrow (get f).
Proof. intros s; cbn; auto. Qed.
Lemma nt_put f : nothrow (put f).
Proof. intros s; cbn; auto. Qed.
Lemma nt_UB {A} : nothrow (@mUB A).
Proof. intros s; cbn; auto. Qed.
Lemma nt_bind {A B} (m : M A) (k : A -> M B) : keepsErr m -> nothrow m -> (forall a, nothrow (k a)) -> nothrow (mbind m k).
Proof.
  intros K N H s Hn. specialize (N s Hn). specialize (K s). unfold mbind. destruct (m s) as [s1 a|s1 e|]; auto. apply H. destruct K. congruence.
Qed.
Lemma nt_fnS {A} (d : A) m : keepsErr m -> nothrow (fnS d m).
Proof. intros K s Hn. specialize (K s). unfold fnS. destruct (m s) as [s1 a|s1 e|]; auto. destruct K as [K _]. rewrite K, Hn. exact I. Qed.
(* a function of the library: well behaved and never throwing in the no-exception build *)
Definition fine {A} (m : M A) : Prop := good m /\ nothrow m.
Lemma fine_bind {A B} (m : M A) (k : A -> M B) : fine m -> (forall a, fine (k a)) -> fine (mbind m k).
Proof. intros [G N] H. split; [apply good_bind; auto; apply H|]. apply nt_bind; auto; [apply G|apply H]. Qed.
Lemma fine_fnS {A} (d : A) m : good m -> fine (fnS d m).
Proof. intros G. split; [now apply good_fnS|apply nt_fnS, G]. Qed.
Lemma fine_ret {A} (a : A) : fine (mret a).
Proof. split; auto using good_ret, nt_ret. Qed.
Lemma fine_get {A} (f : St -> A) : (forall s, f (nx s) = f s) -> fine (get f).
Proof. split; auto using good_get, nt_get. Qed.
Lemma fine_put f : (forall s, g_noexc s = false -> f (nx s) = nx (f s)) -> (forall s, g_noexc (f s) = g_noexc s) ->
  (forall s e, g_err s = Some e -> g_err (f s) = Some e) -> fine (put f).
Proof. split; auto using good_put, nt_put. Qed.
Lemma fine_UB {A} : fine (@mUB A).
Proof. split; auto using good_UB, nt_UB. Qed.

(* state changes that concern neither the build nor the error *)
Ltac plain := first [apply fine_put | apply good_put]; intros; cbn in *; auto.

Lemma fine_poke i v : fine (poke i v).
Proof. split; [split|]; intros s; unfold poke, nx; cbn; destruct (_ && _); cbn; auto. Qed.
Lemma fine_alloc n : fine (allocM n).
Proof. split; [split|]; intros s; cbn; auto. Qed.
Lemma fine_with_code f : fine (with_code f).
Proof. unfold with_code. plain. Qed.
Lemma fine_with_lm f : fine (with_lm f).
Proof. unfold with_lm. plain. Qed.
Lemma fine_labelOf h : fine (labelOf h).
Proof. split; [split|]; intros s; unfold labelOf, nx; cbn; destruct (l_alive _); cbn; auto. Qed.
Create HintDb nxdb discriminated.
#[export] Hint Resolve fine_poke fine_alloc fine_with_code fine_with_lm fine_labelOf fine_ret fine_UB good_throw good_UB good_ret : nxdb.
Lemma fine_good {A} (m : M A) : fine m -> good m.
Proof. intros [H _]. exact H. Qed.

Ltac nxs := intros;
  lazymatch goal with
  | |- fine (fnS _ _) => apply fine_fnS; nxs
  | |- fine (mbind _ _) => apply fine_bind; nxs
  | |- fine (get _) => apply fine_get; reflexivity
  | |- fine (if ?b then _ else _) => destruct b; nxs
  | |- fine (match ?x with _ => _ end) => destruct x; nxs
  | |- good (mthrow _) => apply good_throw
  | |- good (mbind _ _) => apply good_bind; nxs
  | |- good (get _) => apply good_get; reflexivity
  | |- good (if ?b then _ else _) => destruct b; nxs
  | |- good (match ?x with _ => _ end) => destruct x; nxs
  | |- good _ => first [solve [auto with nxdb] | apply fine_good; nxs | idtac]
  | |- fine _ => first [solve [auto with nxdb] | idtac]
  end.
Lemma fine_grow : fine growMemory.
Proof. unfold growMemory. nxs. Qed.
#[export] Hint Resolve fine_grow : nxdb.
Lemma fine_dbM b : fine (dbM b).
Proof. unfold dbM. nxs. Qed.
#[export] Hint Resolve fine_dbM : nxdb.
Lemma fine_dbsM l : fine (dbsM l).
Proof. induction l; cbn [dbsM]; nxs. Qed.
#[export] Hint Resolve fine_dbsM : nxdb.
Lemma fine_dbnM v n : fine (dbnM v n).
Proof. unfold dbnM. nxs. Qed.
#[export] Hint Resolve fine_dbnM : nxdb.
Lemma fine_pokes l : forall i, fine (pokes i l).
Proof. induction l; intros; cbn [pokes]; nxs. Qed.
#[export] Hint Resolve fine_pokes : nxdb.
Lemma fine_rewrite o d n : fine (rewrite o d n).
Proof. unfold rewrite. nxs. Qed.
Lemma fine_save o v n m : fine (save o v n m).
Proof. unfold save. nxs. Qed.
Lemma fine_verify x : fine (verifyInInt32M x).
Proof. unfold verifyInInt32M. nxs. Qed.
#[export] Hint Resolve fine_rewrite fine_save fine_verify : nxdb.
Lemma fine_getVal i t : fine (getVal i t).
Proof. unfold getVal. nxs. Qed.
#[export] Hint Resolve fine_getVal : nxdb.
Lemma fine_calcLoop l : fine (calcLoop l).
Proof. induction l; cbn [calcLoop]; nxs. Qed.
#[export] Hint Resolve fine_calcLoop : nxdb.
Lemma fine_calc : fine calcJmpAddress.
Proof. unfold calcJmpAddress. nxs. Qed.
Lemma fine_prot b : fine (setProtectMode b).
Proof. unfold setProtectMode. nxs. Qed.
#[export] Hint Resolve fine_calc fine_prot : nxdb.

(* labels *)
Lemma good_patchOne o j : good (patchOne o j).
Proof. unfold patchOne. nxs. Qed.
#[export] Hint Resolve good_patchOne : nxdb.
Lemma good_state {B} (k : St -> M B) : (forall s, good (k s)) -> (forall s s', k (nx s) s' = k s s') -> good (mbind (get (fun s => s)) k).
Proof.
  intros H E. split; intros s; unfold mbind, get.
  - exact (proj1 (H s) s).
  - intros Hn. pose proof (proj2 (H s) s Hn) as S. destruct (k s s) as [s1 a|s1 e|]; rewrite ?E; exact S.
Qed.
Lemma good_defLoop {K} eqb getU setU f : forall (k : K) o, good (defLoop eqb getU setU f k o).
Proof.
  induction f as [|f IH]; intros k o; cbn [defLoop]; [nxs|]. apply good_state; [|reflexivity].
  intros s. destruct (findErase _ _ _ _) as [[j rest]|]; nxs.
Qed.
#[export] Hint Resolve good_defLoop : nxdb.
Lemma fine_define_inner {K} eqb getU setU ins (k : K) o : fine (define_inner eqb getU setU ins k o).
Proof. unfold define_inner. nxs. Qed.
#[export] Hint Resolve fine_define_inner : nxdb.
Lemma fine_defS l : fine (defineSlabel l).
Proof. unfold defineSlabel. nxs. Qed.
Lemma fine_getOffsetS l : fine (getOffsetS l).
Proof. unfold getOffsetS. nxs. Qed.
Lemma fine_addUndefS l j : fine (addUndefS l j).
Proof. unfold addUndefS. nxs. Qed.
Lemma fine_enter : fine enterLocal.
Proof. unfold enterLocal. nxs. Qed.
Lemma fine_leave : fine leaveLocal.
Proof. unfold leaveLocal. nxs. Qed.
Lemma fine_getIdM h : fine (getIdM h).
Proof. unfold getIdM. nxs. plain. Qed.
#[export] Hint Resolve fine_defS fine_getOffsetS fine_addUndefS fine_enter fine_leave fine_getIdM : nxdb.
Lemma fine_link h : fine (linkLabel h).
Proof. unfold linkLabel. nxs. plain. Qed.
#[export] Hint Resolve fine_link : nxdb.
Lemma fine_defC h : fine (defineClabel h).
Proof. unfold defineClabel. nxs. Qed.
Lemma fine_assign d s : fine (assign d s).
Proof. unfold assign. nxs. Qed.
Lemma fine_getOffsetC h : fine (getOffsetC h).
Proof. unfold getOffsetC. nxs. Qed.
Lemma fine_addUndefC h j : fine (addUndefC h j).
Proof. unfold addUndefC. nxs. Qed.
Lemma fine_inc i h : fine (incRefCount i h).
Proof. unfold incRefCount. nxs. Qed.
Lemma fine_dec i h : fine (decRefCount i h).
Proof. unfold decRefCount. nxs. Qed.
#[export] Hint Resolve fine_defC fine_assign fine_getOffsetC fine_addUndefC fine_inc fine_dec : nxdb.
Lemma fine_new h : fine (newLabel h).
Proof. unfold newLabel. nxs. plain. Qed.
Lemma fine_copy d s : fine (copyLabel d s).
Proof. unfold copyLabel. nxs. plain. Qed.
Lemma fine_copyAssign d s : fine (copyAssign d s).
Proof. unfold copyAssign. nxs. plain. Qed.
Lemma fine_destroy h : fine (destroyLabel h).
Proof. unfold destroyLabel. nxs. plain. Qed.
Lemma fine_clearAll l : fine (clearAll l).
Proof. induction l; cbn [clearAll]; nxs. plain. Qed.
#[export] Hint Resolve fine_new fine_copy fine_copyAssign fine_destroy fine_clearAll : nxdb.
Lemma fine_getOffsetL l : fine (getOffsetL l).
Proof. unfold getOffsetL. nxs. Qed.
Lemma fine_addUndefL l j : fine (addUndefL l j).
Proof. unfold addUndefL. nxs. Qed.
#[export] Hint Resolve fine_getOffsetL fine_addUndefL : nxdb.
Lemma fine_growIf : fine growIfNearFull.
Proof. unfold growIfNearFull. nxs. Qed.
#[export] Hint Resolve fine_growIf : nxdb.
Lemma fine_putL l r d : fine (putL_inner l r d).
Proof. unfold putL_inner. nxs. Qed.
#[export] Hint Resolve fine_putL : nxdb.
Lemma fine_setError e : fine (put (fun s => setError s e)).
Proof.
  apply fine_put.
  - intros s _. unfold setError. cbn. destruct (g_err s); reflexivity.
  - intros s. unfold setError. destruct (g_err s); reflexivity.
  - intros s x H. unfold setError. now rewrite H.
Qed.
#[export] Hint Resolve fine_setError : nxdb.
Lemma fine_item i : fine (exec_item i).
Proof. unfold exec_item. destruct i; nxs. Qed.
#[export] Hint Resolve fine_item : nxdb.
Lemma fine_items l : fine (exec_items l).
Proof. induction l; cbn [exec_items]; nxs. Qed.
#[export] Hint Resolve fine_items : nxdb.

(* ---- encoders ---- *)
Definition isErrItem (i : item) : bool := match i with IErr _ => true | _ => false end.
Definition flagged (x : list item) : Prop := existsb isErrItem x = true.
Definition esim {A} (m : E A) : Prop := forall env pos, env_noexc env = false ->
  match m env pos with
  | (l, Ok a) => m (nxe env) pos = (l, Ok a)
  | (l, Err e) => match m (nxe env) pos with (l', Ok _) => flagged l' | (l', Err _) => True end
  end.
Definition enothrow {A} (m : E A) : Prop := forall env pos, env_noexc env = true -> exists l a, m env pos = (l, Ok a).
Definition efine {A} (m : E A) : Prop := esim m /\ enothrow m.
Lemma flagged_app l l' : flagged l \/ flagged l' -> flagged (l ++ l').
Proof. unfold flagged. rewrite existsb_app. intros [-> | ->]; auto using orb_true_r. Qed.
Lemma es_ret {A} (a : A) : esim (ret a).
Proof. intros env pos Hn. reflexivity. Qed.
Lemma es_throw {A} e : esim (@throw A e).
Proof. intros env pos Hn. cbn. auto. Qed.
Lemma es_emit i : esim (emit i).
Proof. intros env pos Hn. reflexivity. Qed.
Lemma es_bind {A B} (m : E A) (k : A -> E B) : esim m -> (forall a, esim (k a)) -> esim (bind m k).
Proof.
  intros Hm Hk env pos Hn. specialize (Hm env pos Hn). unfold bind. destruct (m env pos) as [l [a|e]].
  - rewrite Hm. specialize (Hk a env (pos + items_size l) Hn). destruct (k a env (pos + items_size l)) as [l2 [b|e]].
    + now rewrite Hk.
    + destruct (k a (nxe env) (pos + items_size l)) as [l3 [b|e']]; auto. apply flagged_app; auto.
  - destruct (m (nxe env) pos) as [l' [a|e']]; auto. destruct (k a (nxe env) (pos + items_size l')) as [l3 [b|e']]; auto. apply flagged_app; auto.
Qed.
Lemma es_fn {A} (d : A) m : esim m -> esim (fn d m).
Proof.
  intros Hm env pos Hn. specialize (Hm env pos Hn). unfold fn. destruct (m env pos) as [l [a|e]].
  - now rewrite Hm.
  - rewrite Hn. destruct (m (nxe env) pos) as [l' [a|e']]; auto. cbn [env_noexc nxe]. apply flagged_app. right. reflexivity.
Qed.
Lemma en_ret {A} (a : A) : enothrow (ret a).
Proof. intros env pos Hn. do 2 eexists. reflexivity. Qed.
Lemma en_emit i : enothrow (emit i).
Proof. intros env pos Hn. do 2 eexists. reflexivity. Qed.
Lemma en_bind {A B} (m : E A) (k : A -> E B) : enothrow m -> (forall a, enothrow (k a)) -> enothrow (bind m k).
Proof.
  intros Hm Hk env pos Hn. destruct (Hm env pos Hn) as (l & a & E). unfold bind. rewrite E.
  destruct (Hk a env (pos + items_size l) Hn) as (l2 & b & E2). rewrite E2. eauto.
Qed.
Lemma en_fn {A} (d : A) m : enothrow (fn d m).
Proof. intros env pos Hn. unfold fn. destruct (m env pos) as [l [a|e]]; [eauto|]. rewrite Hn. eauto. Qed.
Lemma ef_bind {A B} (m : E A) (k : A -> E B) : efine m -> (forall a, efine (k a)) -> efine (bind m k).
Proof. intros [S N] H. split; [apply es_bind; auto; apply H|apply en_bind; auto; apply H]. Qed.
Lemma ef_fn {A} (d : A) m : esim m -> efine (fn d m).
Proof. split; auto using es_fn, en_fn. Qed.
Lemma ef_ret {A} (a : A) : efine (ret a).
Proof. split; auto using es_ret, en_ret. Qed.
Lemma ef_emit i : efine (emit i).
Proof. split; auto using es_emit, en_emit. Qed.
Lemma ef_es {A} (m : E A) : efine m -> esim m.
Proof. intros [H _]. exact H. Qed.

Lemma items_flagged l : flagged l -> forall s, match exec_items l s with Done s' _ => g_err s' <> None | _ => True end.
Proof.
  induction l as [|i l IH]; intros H s; [discriminate|]. cbn [exec_items]. unfold mbind.
  pose proof (proj1 (proj1 (fine_item i)) s) as K. unfold flagged in H. cbn [existsb] in H.
  destruct (isErrItem i) eqn:Hi.
  - destruct i; try discriminate. cbn [exec_item put] in *.
    pose proof (proj1 (proj1 (fine_items l)) (setError s e)) as K2. destruct (exec_items l (setError s e)); auto. destruct K2 as [_ K2].
    unfold setError in K2. destruct (g_err s) as [x|] eqn:E; [rewrite (K2 x E)|rewrite (K2 e eq_refl)]; discriminate.
  - destruct (exec_item i s) as [s1 []|s1 e|]; auto. now apply IH.
Qed.
Lemma fine_runE m : efine m -> fine (@runE unit m).
Proof.
  intros [S N]. split; [split|].
  - intros s. unfold runE. destruct (m (env_of s) (c_size (g_code s))) as [its r].
    assert (good (mbind (exec_items its) (fun _ => match r with Ok a => mret a | Err e => mthrow e end))) as [G _] by (apply good_bind; nxs).
    apply (G s).
  - intros s Hn. specialize (S (env_of s) (c_size (g_code s)) Hn). unfold runE.
    change (env_of (nx s)) with (nxe (env_of s)). change (c_size (g_code (nx s))) with (c_size (g_code s)).
    destruct (m (env_of s) (c_size (g_code s))) as [its [[]|e]].
    + rewrite S. assert (good (mbind (exec_items its) (fun _ => mret tt))) as [_ G] by nxs. apply (G s Hn).
    + unfold mbind. pose proof (proj2 (proj1 (fine_items its)) s Hn) as S1. pose proof (proj1 (proj1 (fine_items its)) s) as K1.
      destruct (N (nxe (env_of s)) (c_size (g_code s)) eq_refl) as (l' & [] & E). rewrite E in *.
      pose proof (items_flagged l' S (nx s)) as F.
      pose proof (proj2 (fine_items l') (nx s) eq_refl) as T.
      destruct (exec_items its s) as [s1 []|s1 e1|].
      * cbn [mthrow]. destruct (exec_items l' (nx s)) as [s2 []|s2 e2|]; auto.
      * destruct (exec_items l' (nx s)) as [s2 []|s2 e2|]; auto.
      * destruct (exec_items l' (nx s)) as [s2 []|s2 e2|]; auto.
  - intros s Hn. unfold runE. destruct (N (env_of s) (c_size (g_code s)) Hn) as (l' & [] & E). rewrite E.
    assert (fine (mbind (exec_items l') (fun _ => mret tt))) as [_ T] by nxs. apply (T s Hn).
Qed.

Create HintDb efdb discriminated.
#[export] Hint Resolve ef_ret ef_emit es_throw es_ret es_emit : efdb.
Ltac efs := intros; cbv zeta;
  lazymatch goal with
  | |- efine (fn _ _) => apply ef_fn; efs
  | |- efine (bind _ _) => apply ef_bind; efs
  | |- efine (if ?b then _ else _) => destruct b; efs
  | |- efine (match ?x with _ => _ end) => destruct x; efs
  | |- esim (throw _) => apply es_throw
  | |- esim (bind _ _) => apply es_bind; efs
  | |- esim (if ?b then _ else _) => destruct b; efs
  | |- esim (match ?x with _ => _ end) => destruct x; efs
  | |- esim _ => first [solve [auto with efdb] | apply ef_es; efs | idtac]
  | |- efine _ => first [solve [auto with efdb] | idtac]
  end.
Lemma ef_db b : efine (db b).
Proof. apply ef_emit. Qed.
#[export] Hint Resolve ef_db : efdb.
Lemma ef_dbs l : efine (dbs l).
Proof. induction l; cbn [dbs]; efs. Qed.
#[export] Hint Resolve ef_dbs : efdb.
Lemma ef_dbn v n : efine (dbn v n).
Proof. unfold dbn. efs. Qed.
#[export] Hint Resolve ef_dbn : efdb.
Lemma ef_dw v : efine (dw v).
Proof. unfold dw. efs. Qed.
Lemma ef_dd v : efine (dd v).
Proof. unfold dd. efs. Qed.
Lemma ef_dq v : efine (dq v).
Proof. unfold dq. efs. Qed.
#[export] Hint Resolve ef_dw ef_dd ef_dq : efdb.
Lemma ef_makeJmp d ty sc lc lp : efine (makeJmp d ty sc lc lp).
Proof. unfold makeJmp. efs. Qed.

(* ---- the calls ---- *)
#[export] Hint Resolve fine_runE ef_makeJmp : nxdb.
Lemma fine_dbIf b : fine (dbIf b).
Proof. unfold dbIf. nxs. Qed.
#[export] Hint Resolve fine_dbIf : nxdb.
Lemma fine_opJmp l ty sc lc lp : fine (opJmp l ty sc lc lp).
Proof. unfold opJmp. nxs. Qed.
Lemma fine_opJmpAbs l ty sc lc lp : fine (opJmpAbs l ty sc lc lp).
Proof. unfold opJmpAbs. nxs. Qed.
Lemma fine_ready : fine ready.
Proof. unfold ready. apply fine_fnS. apply good_state; [|reflexivity]. nxs. Qed.
#[export] Hint Resolve fine_opJmp fine_opJmpAbs fine_ready : nxdb.
Definition encoder_fine (o : op) : Prop := match o with OpEmit m => efine m | _ => True end.
Lemma fine_exec o : encoder_fine o -> o <> OpReset -> fine (exec o).
Proof.
  intros H Hr. destruct o as [m|l ty sc lc lp|addr ty sc lc lp|l|d s0| | |h|d s0|d s0|h| | |b|en|en]; cbn [exec encoder_fine] in *; try congruence; nxs.
  - plain.
  - unfold setDefaultEncoding. nxs; plain.
  - unfold setDefaultEncodingAVX10. nxs; plain.
Qed.
Lemma clearAll_nothrow l : forall t x e, clearAll l t <> Thrown x e.
Proof.
  induction l as [|h l IH]; intros t x e He; cbn [clearAll] in He; [discriminate|]. unfold mbind, labelOf, put in He. destruct (l_alive _); [|discriminate]. eapply IH; eauto.
Qed.
Lemma reset_nothrow s x e : reset s <> Thrown x e.
Proof.
  unfold reset, resetSize, lmReset, resetLabelPtrList, with_code, with_lm. cbv beta delta [mbind put get] iota. intros E.
  destruct (clearAll _ _) eqn:Ec in E; try discriminate. eapply clearAll_nothrow; eauto.
Qed.
Lemma sim_resetLabels s : g_noexc s = false ->
  match reset s with Done s1 _ => reset (nx s) = Done (nx s1) tt | Thrown _ _ => False | UB => True end.
Proof.
  intros Hn. unfold reset. unfold mbind at 1 3. cbn [put].
  assert (fine (mbind resetSize (fun _ => lmReset))) as [[K S] T].
  { unfold resetSize, lmReset, resetLabelPtrList. nxs. }
  assert (g_noexc (set_err s None) = false) as Hn' by exact Hn. specialize (S _ Hn'). specialize (K (set_err s None)).
  change (set_err (nx s) None) with (nx (set_err s None)).
  destruct (mbind resetSize (fun _ => lmReset) (set_err s None)) as [s1 []|s1 e|] eqn:E; auto.
  eapply (reset_nothrow s). unfold reset. unfold mbind at 1. cbn [put]. exact E.
Qed.

Theorem noexc_same o s s1 : encoder_fine o -> g_noexc s = false -> exec o s = Done s1 tt -> exec o (nx s) = Done (nx s1) tt.
Proof.
  intros H Hn E. destruct (match o with OpReset => true | _ => false end) eqn:Hr.
  - destruct o; try discriminate. cbn [exec] in *. pose proof (sim_resetLabels s Hn) as S. rewrite E in S. exact S.
  - destruct (fine_exec o H) as [[_ S] _]; [intros ->; discriminate|]. specialize (S s Hn). rewrite E in S. exact S.
Qed.
Theorem noexc_reports o s s1 e : encoder_fine o -> g_noexc s = false -> exec o s = Thrown s1 e ->
  match exec o (nx s) with Done s2 _ => g_err s2 <> None | Thrown _ _ => False | UB => True end.
Proof.
  intros H Hn E. destruct (match o with OpReset => true | _ => false end) eqn:Hr.
  - destruct o; try discriminate. cbn [exec] in *. pose proof (sim_resetLabels s Hn) as S. rewrite E in S. destruct S.
  - destruct (fine_exec o H) as [[_ S] T]; [intros ->; discriminate|]. specialize (S s Hn). rewrite E in S. specialize (T (nx s) eq_refl).
    destruct (exec o (nx s)); auto.
Qed.
(* histories of the no-exception build: no call throws, the first error stays until reset() *)
Inductive nhistory : St -> list op -> St -> Prop :=
| NH_nil s : nhistory s [] s
| NH_cons s o s1 os s2 : encoder_fine o -> exec o s = Done s1 tt -> nhistory s1 os s2 -> nhistory s (o :: os) s2.
Theorem first_error os s s' e : nhistory s os s' -> g_err s = Some e -> ~ In OpReset os -> g_err s' = Some e.
Proof.
  induction 1 as [s|s o s1 os s2 Hf He Hh IH]; intros E Hr; auto. apply IH; [|intros X; apply Hr; now right].
  assert (o <> OpReset) as Hn by (intros ->; apply Hr; now left).
  destruct (fine_exec o Hf Hn) as [[K _] _]. specialize (K s). rewrite He in K. now apply K.
Qed.
Theorem never_throws o s s1 e : encoder_fine o -> g_noexc s = true -> exec o s <> Thrown s1 e.
Proof.
  intros Hf Hn E. destruct (match o with OpReset => true | _ => false end) eqn:Hr.
  - destruct o; try discriminate. cbn [exec] in *. exact (reset_nothrow _ _ _ E).
  - destruct (fine_exec o Hf) as [_ T]; [intros ->; discriminate|]. specialize (T s Hn). rewrite E in T. exact T.
Qed.
