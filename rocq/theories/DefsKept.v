(* L(), assignL() and ready(), also when they fail half-way, keep every definition made before. *)
From Coq Require Import ZArith List Bool String Arith Lia.
From Verif Require Import Base Types Emit Encode State Code Label Gen LabelFacts.
Import ListNotations.
Open Scope Z_scope.
Open Scope M_scope.

(* the string table of one scope, the table of Label ids *)
Definition sdef (lm : LabelMgr) (n : nat) (k : string) : option Z :=
  match n with O => assoc String.eqb k (ss_def (lm_front lm))
  | S i => assoc String.eqb k (ss_def (nth i (lm_stack lm) emptySS)) end.
Definition cdef (lm : LabelMgr) (id : Z) : option (Z * Z) := assoc Z.eqb id (lm_def lm).
Definition defs_kept (s s' : St) : Prop :=
  (forall n k v, sdef (g_lm s) n k = Some v -> sdef (g_lm s') n k = Some v)
  /\ (forall id v, cdef (g_lm s) id = Some v -> cdef (g_lm s') id = Some v).
Lemma dk_refl s : defs_kept s s. Proof. split; auto. Qed.
Lemma dk_trans a b c : defs_kept a b -> defs_kept b c -> defs_kept a c.
Proof. intros [H1 H2] [H3 H4]. split; auto. Qed.
Lemma dk_lm s s' : g_lm s' = g_lm s -> defs_kept s s'.
Proof. intros E. split; rewrite E; auto. Qed.
Definition pres {A} (m : M A) : Prop :=
  forall s, match m s with Done s' _ | Thrown s' _ => defs_kept s s' | UB => True end.
Lemma pres_bind {A B} (m : M A) (k : A -> M B) : pres m -> (forall a, pres (k a)) -> pres (mbind m k).
Proof.
  intros H1 H2 s. specialize (H1 s). unfold mbind. destruct (m s) as [s' a|s' e|]; auto.
  specialize (H2 a s'). destruct (k a s'); auto; eapply dk_trans; eauto.
Qed.
Lemma pres_bind_get {A B} (f : St -> A) (k : A -> M B) :
  (forall s, match k (f s) s with Done s' _ | Thrown s' _ => defs_kept s s' | UB => True end) -> pres (mbind (get f) k).
Proof. intros H s. apply H. Qed.
Lemma pres_fn {A} (d : A) m : pres m -> pres (fnS d m).
Proof.
  intros H s. specialize (H s). unfold fnS. destruct (m s) as [s' a|s' e|]; auto. destruct (g_noexc s'); auto.
  eapply dk_trans; [exact H|]. apply dk_lm. unfold setError. now destruct (g_err s').
Qed.
Lemma pres_ret {A} (a : A) : pres (mret a). Proof. intros s. apply dk_refl. Qed.
Lemma pres_throw {A : Type} e : pres (A := A) (mthrow e). Proof. intros s. apply dk_refl. Qed.
Lemma pres_UB {A : Type} : pres (A := A) mUB. Proof. intros s. exact I. Qed.
Lemma pres_get {A} (f : St -> A) : pres (get f). Proof. intros s. apply dk_refl. Qed.
Lemma pres_with_code f : pres (with_code f). Proof. intros s. now apply dk_lm. Qed.
Lemma pres_when (b : bool) m : pres m -> pres (whenM b do m). Proof. intros H. destruct b; auto. apply pres_ret. Qed.
Lemma pres_poke p b : pres (poke p b).
Proof. intros s. unfold poke. destruct (_ && _); auto. now apply dk_lm. Qed.
Lemma pres_pokes l : forall p, pres (pokes p l).
Proof. induction l; intros p; cbn [pokes]; [apply pres_ret|]. apply pres_bind; auto using pres_poke. Qed.
Lemma pres_rewrite o d n : pres (rewrite o d n).
Proof. unfold rewrite. apply pres_fn. destruct (_ && _); auto using pres_throw, pres_pokes. Qed.
Lemma pres_patch o j : pres (patchOne o j).
Proof.
  unfold patchOne. apply pres_bind; [apply pres_get|]. intros c. apply pres_bind.
  - destruct (j_mode j); auto using pres_ret. destruct (_ && _); auto using pres_throw. destruct (_ && _); auto using pres_throw, pres_ret.
  - intros d. destruct (isAutoGrowC c); [apply pres_with_code|apply pres_rewrite].
Qed.
Definition keepsdef (f : LabelMgr -> LabelMgr) : Prop :=
  (forall lm n k v, sdef lm n k = Some v -> sdef (f lm) n k = Some v) /\ (forall lm id v, cdef lm id = Some v -> cdef (f lm) id = Some v).
Lemma pres_with_lm f : keepsdef f -> pres (with_lm f).
Proof. intros [H1 H2] s. split; intros; cbn; auto. Qed.
Lemma pres_defLoop {K} (eqb : K -> K -> bool) getU setU : (forall r, keepsdef (fun lm => setU lm r)) ->
  forall fuel k o, pres (defLoop eqb getU setU fuel k o).
Proof.
  intros H. induction fuel as [|f IH]; intros k o; cbn [defLoop]; [apply pres_UB|].
  apply pres_bind; [apply pres_get|]. intros s. destruct (findErase _ _ _ _) as [[j rest]|]; [|apply pres_ret].
  apply pres_bind; [apply pres_patch|]. intros _. apply pres_bind; [apply pres_with_lm, H|]. intros _. apply IH.
Qed.
Lemma pres_define {K} (eqb : K -> K -> bool) getU setU ins k o : (forall r, keepsdef (fun lm => setU lm r)) ->
  (forall lm lm', ins lm = Some lm' -> (forall n k v, sdef lm n k = Some v -> sdef lm' n k = Some v) /\ (forall id v, cdef lm id = Some v -> cdef lm' id = Some v)) ->
  pres (define_inner eqb getU setU ins k o).
Proof.
  intros H1 H2. unfold define_inner. apply pres_fn, pres_bind_get. intros s. destruct (ins (g_lm s)) as [lm'|] eqn:E; [|apply dk_refl].
  specialize (H2 _ _ E). unfold mbind. cbn [with_lm put].
  assert (defs_kept s (set_lm s lm')) as D. { destruct H2 as [A B]. split; intros; cbn; auto. }
  pose proof (pres_defLoop eqb getU setU H1 (S (List.length (getU (g_lm s)))) k o (set_lm s lm')) as P.
  unfold with_lm, put. destruct (defLoop _ _ _ _ _ _ _); auto; eapply dk_trans; eauto.
Qed.
Lemma keeps_setUS k r : keepsdef (fun lm => setUS k lm r).
Proof.
  split; intros lm; unfold setUS, setSS.
  - intros n k' v H. destruct (isLocalStr k); destruct n as [|n]; auto. destruct n as [|n].
    + revert H. cbn [sdef lm_stack nth ss_def]. unfold getSS. destruct (lm_stack lm); exact (fun H => H).
    + revert H. cbn [sdef lm_stack nth]. destruct (lm_stack lm); [destruct n; discriminate|exact (fun H => H)].
  - intros id v H. destruct (isLocalStr k); exact H.
Qed.
Lemma ins_S k o lm lm' : insertS k o lm = Some lm' ->
  (forall n k v, sdef lm n k = Some v -> sdef lm' n k = Some v) /\ (forall id v, cdef lm id = Some v -> cdef lm' id = Some v).
Proof.
  unfold insertS. destruct (assoc String.eqb k (ss_def (getSS lm (isLocalStr k)))) eqn:E; [discriminate|]. intros H. inversion H; subst lm'. clear H.
  assert (forall k' v d, assoc String.eqb k d = None -> assoc String.eqb k' d = Some v -> assoc String.eqb k' ((k, o) :: d) = Some v) as A.
  { intros k' v d H1 H2. cbn [assoc]. destruct (String.eqb k' k) eqn:Ek; auto. apply String.eqb_eq in Ek. subst. congruence. }
  unfold setSS. destruct (isLocalStr k); cbn [getSS] in *.
  - split; [|auto]. intros n k' v H. destruct n as [|n]; [exact H|]. cbn [sdef lm_stack] in *. destruct n as [|n].
    + cbn [nth ss_def]. apply A; auto. revert H. destruct (lm_stack lm); exact (fun H => H).
    + revert H. cbn [nth]. destruct (lm_stack lm); [destruct n; discriminate|exact (fun H => H)].
  - split; [|auto]. intros n k' v H. destruct n as [|n]; [|exact H]. cbn [sdef lm_front ss_def] in *. now apply A.
Qed.
Lemma ins_C i o lm lm' : insertC i o lm = Some lm' ->
  (forall n k v, sdef lm n k = Some v -> sdef lm' n k = Some v) /\ (forall id v, cdef lm id = Some v -> cdef lm' id = Some v).
Proof.
  unfold insertC. destruct (assoc Z.eqb i (lm_def lm)) eqn:E; [discriminate|]. intros H. inversion H; subst lm'. split; [auto|].
  intros id v Hv. unfold cdef in *. cbn [lm_def set_cdef assoc]. destruct (Z.eqb id i) eqn:Ek; auto. apply Z.eqb_eq in Ek. subst. congruence.
Qed.
Lemma pres_link h : pres (linkLabel h).
Proof.
  unfold linkLabel. apply pres_bind. { intros s. unfold labelOf. destruct (l_alive _); auto using dk_refl. }
  intros o s. cbn. unfold ptrsInsert. destruct (existsb _ _); split; auto.
Qed.
Lemma pres_L l : l <> LStr "@@"%string -> pres (exec (OpL l)).
Proof.
  intros Hn. destruct l as [k|h]; cbn [exec].
  - unfold defineSlabel. apply pres_fn. destruct (_ || _); auto using pres_throw.
    assert (String.eqb k "@@" = false) as -> by (apply String.eqb_neq; congruence).
    apply pres_bind; [apply pres_ret|]. intros k'. apply pres_bind; [apply pres_get|]. intros c.
    apply pres_define; [apply keeps_setUS|apply ins_S].
  - unfold defineClabel. apply pres_bind.
    + unfold getIdM. apply pres_bind. { intros s. unfold labelOf. destruct (l_alive _); auto using dk_refl. }
      intros o. destruct (_ =? 0); auto using pres_ret. apply pres_bind; [apply pres_get|]. intros n. destruct (_ =? _); auto using pres_UB.
      apply pres_bind; [|intros; apply pres_ret]. intros s. cbn. split; auto.
    + intros id. apply pres_bind; [apply pres_get|]. intros c. apply pres_bind; [|intros; apply pres_link].
      apply pres_define; [|apply ins_C]. intros r. split; auto.
Qed.
Lemma pres_assign d s0 : pres (exec (OpAssign d s0)).
Proof.
  cbn [exec]. unfold assign. apply pres_fn. apply pres_bind. { intros s. unfold labelOf. destruct (l_alive _); auto using dk_refl. }
  intros o. apply pres_bind; [apply pres_get|]. intros lm. destruct (assoc _ _ _) as [[off r]|]; auto using pres_throw.
  apply pres_bind. { intros s. unfold labelOf. destruct (l_alive _); auto using dk_refl. } intros d'.
  apply pres_bind; [|intros; apply pres_link]. apply pres_define; [|apply ins_C]. intros r0. split; auto.
Qed.
Lemma pres_calcLoop l : pres (calcLoop l).
Proof.
  induction l as [|i l IH]; cbn [calcLoop]; auto using pres_ret. apply pres_bind; [apply pres_get|]. intros c. apply pres_bind.
  - unfold getVal. destruct (_ =? 4); auto using pres_ret.
    unfold verifyInInt32M. apply pres_fn. destruct (IsInInt32 _); auto using pres_throw, pres_ret.
  - intros v. apply pres_bind; auto using pres_rewrite.
Qed.
Lemma pres_ready : pres (exec OpReady).
Proof.
  cbn [exec]. unfold ready. apply pres_fn. apply pres_bind; [apply pres_get|]. intros s. destruct (hasUndefinedLabel s); auto using pres_throw.
  destruct (isAutoGrowC (g_code s)); auto using pres_ret. apply pres_bind.
  - unfold calcJmpAddress. apply pres_bind; [apply pres_get|]. intros c. destruct (c_called c); auto using pres_ret. apply pres_bind; [apply pres_calcLoop|]. intros _. apply pres_with_code.
  - intros _. apply pres_when. apply pres_bind; [|intros; apply pres_ret]. unfold setProtectMode. apply pres_fn. apply pres_bind; [apply pres_get|]. intros ok. destruct ok; auto using pres_ret, pres_throw.
Qed.
