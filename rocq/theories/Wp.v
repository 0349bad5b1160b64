(* Weakest preconditions for the state monad: [wp m s Q X] says that m, run in s, does not reach
   UB, and a normal result satisfies Q, an exception X. *)
From Coq Require Import ZArith List Bool Lia.
From Verif Require Import Base Types Emit State.
Import ListNotations.
Open Scope Z_scope.

Definition wp {A} (m : M A) (s : St) (Q : St -> A -> Prop) (X : St -> xerr -> Prop) : Prop :=
  match m s with Done s' a => Q s' a | Thrown s' e => X s' e | UB => False end.

Lemma wp_ret {A} (a : A) s (Q : St -> A -> Prop) X : Q s a -> wp (mret a) s Q X.
Proof. auto. Qed.
Lemma wp_throw {A} e s (Q : St -> A -> Prop) (X : St -> xerr -> Prop) : X s e -> wp (mthrow e) s Q X.
Proof. auto. Qed.
Lemma wp_bind {A B} (m : M A) (f : A -> M B) s (Q : St -> B -> Prop) X :
  wp m s (fun s' a => wp (f a) s' Q X) X -> wp (mbind m f) s Q X.
Proof. unfold wp, mbind. destruct (m s); auto. Qed.
Lemma wp_get {A} (f : St -> A) s (Q : St -> A -> Prop) X : Q s (f s) -> wp (get f) s Q X.
Proof. auto. Qed.
Lemma wp_put f s (Q : St -> unit -> Prop) X : Q (f s) tt -> wp (put f) s Q X.
Proof. auto. Qed.
Lemma wp_fnS {A} (d : A) m s (Q : St -> A -> Prop) X :
  wp m s Q (fun s' e => g_noexc s' = false /\ X s' e) -> wp (fnS d m) s Q X.
Proof.
  unfold wp, fnS. destruct (m s); auto. intros [H HX]. rewrite H. exact HX.
Qed.
Lemma wp_mono {A} (m : M A) s (Q Q' : St -> A -> Prop) (X X' : St -> xerr -> Prop) :
  wp m s Q X -> (forall s' a, Q s' a -> Q' s' a) -> (forall s' e, X s' e -> X' s' e) -> wp m s Q' X'.
Proof. unfold wp. destruct (m s); auto. Qed.
Lemma wp_done {A} (m : M A) s s' a Q X : wp m s Q X -> m s = Done s' a -> Q s' a.
Proof. unfold wp. intros H E. now rewrite E in H. Qed.
Lemma wp_thrown {A} (m : M A) s s' e Q X : wp m s Q X -> m s = Thrown s' e -> X s' e.
Proof. unfold wp. intros H E. now rewrite E in H. Qed.
Lemma wp_noUB {A} (m : M A) s Q X : wp m s Q X -> m s <> UB.
Proof. unfold wp. intros H E. now rewrite E in H. Qed.
Lemma wp_if {A} (b : bool) (m1 m2 : M A) s Q X :
  (b = true -> wp m1 s Q X) -> (b = false -> wp m2 s Q X) -> wp (if b then m1 else m2) s Q X.
Proof. destruct b; auto. Qed.

(* consecutive bytes in a memory *)
Fixpoint mem_has (m : Z -> Z) (i : Z) (l : list Z) : Prop :=
  match l with [] => True | b :: l' => m i = b /\ mem_has m (i + 1) l' end.
Lemma mem_has_ext m m' i l :
  (forall k, i <= k < i + Z.of_nat (length l) -> m' k = m k) -> mem_has m i l -> mem_has m' i l.
Proof.
  revert i; induction l as [|b l IH]; cbn [mem_has length]; intros i H; auto.
  intros [H1 H2]. split.
  - rewrite H by lia. exact H1.
  - apply IH; [|exact H2]. intros k Hk. apply H. lia.
Qed.
Lemma mem_has_app m i l1 l2 :
  mem_has m i (l1 ++ l2) <-> mem_has m i l1 /\ mem_has m (i + Z.of_nat (length l1)) l2.
Proof.
  revert i; induction l1 as [|b l1 IH]; cbn [mem_has length app]; intros i.
  - rewrite Z.add_0_r. tauto.
  - rewrite IH. replace (i + Z.of_nat (S (length l1))) with (i + 1 + Z.of_nat (length l1)) by lia. tauto.
Qed.
