(* Inversion lemmas for the encoder monad in exception mode. *)
From Coq Require Import ZArith List Bool Lia.
From Verif Require Import Base Types Emit.
Import ListNotations.
Open Scope Z_scope.

(* bytes of an item list; label fields are filled with the values sigma assigns to them *)
Definition sigma_t := LabelRef -> bool -> Z -> Z.
Definition render1 (sigma : sigma_t) (i : item) : list Z :=
  match i with
  | IDb b => [b]
  | IPutL l rel d => le_bytes (sigma l rel d) (if rel then 4%nat else 8%nat)
  | IErr _ => []
  end.
Fixpoint render (sigma : sigma_t) (l : list item) : list Z :=
  match l with [] => [] | i :: l' => render1 sigma i ++ render sigma l' end.

Lemma render_app s a b : render s (a ++ b) = render s a ++ render s b.
Proof. induction a; simpl; auto. now rewrite IHa, app_assoc. Qed.

Lemma le_bytes_length v n : length (le_bytes v n) = n.
Proof. revert v; induction n; simpl; intros; auto. Qed.

Lemma items_size_app a b : items_size (a ++ b) = items_size a + items_size b.
Proof. induction a; simpl; lia. Qed.

Lemma item_size_nonneg i : 0 <= item_size i.
Proof. destruct i; simpl; try lia. destruct relative; lia. Qed.
Lemma items_size_nonneg l : 0 <= items_size l.
Proof. induction l; simpl; [lia|]. pose proof (item_size_nonneg a); lia. Qed.

Lemma render_size s l : Z.of_nat (length (render s l)) = items_size l.
Proof.
  induction l; simpl; auto. rewrite app_length, Nat2Z.inj_add, IHl. f_equal.
  destruct a; simpl; auto. destruct relative; reflexivity.
Qed.

(* run in exception mode, successful *)
Definition emits {A} (m : E A) (env : Env) (pos : Z) (its : list item) (a : A) : Prop :=
  env_noexc env = false /\ m env pos = (its, Ok a).

Lemma emits_ret {A} (x : A) env pos its a : emits (ret x) env pos its a -> its = [] /\ a = x.
Proof. intros [_ H]; inversion H; auto. Qed.
Lemma emits_bind {A B} (m : E A) (f : A -> E B) env pos its b :
  emits (bind m f) env pos its b ->
  exists i1 i2 a, emits m env pos i1 a /\ emits (f a) env (pos + items_size i1) i2 b /\ its = i1 ++ i2.
Proof.
  intros [Hn H]. unfold bind in H. destruct (m env pos) as [l [a|e]] eqn:Hm; [|discriminate].
  destruct (f a env (pos + items_size l)) as [l' r] eqn:Hf. inversion H; subst.
  exists l, l', a. repeat split; auto.
Qed.
Lemma emits_fn {A} (d : A) m env pos its a : emits (fn d m) env pos its a -> emits m env pos its a.
Proof.
  intros [Hn H]. split; auto. unfold fn in H. destruct (m env pos) as [l [x|e]]; auto.
  rewrite Hn in H; discriminate.
Qed.
Lemma emits_throw {A} e env pos its (a : A) : emits (throw e) env pos its a -> False.
Proof. intros [_ H]; discriminate. Qed.
Lemma emits_emit i env pos its a : emits (emit i) env pos its a -> its = [i].
Proof. intros [_ H]; inversion H; auto. Qed.
Lemma emits_db b env pos its a : emits (db b) env pos its a -> its = [IDb (w8 b)].
Proof. apply emits_emit. Qed.
Lemma emits_ask env pos its a : emits ask env pos its a -> its = [] /\ a = env.
Proof. intros [_ H]; inversion H; auto. Qed.
Lemma emits_getCurr env pos its a : emits getCurr env pos its a -> its = [] /\ a = w64 (env_top env + pos).
Proof. intros [_ H]; inversion H; auto. Qed.
Lemma emits_noexc {A} (m : E A) env pos its a : emits m env pos its a -> env_noexc env = false.
Proof. intros [H _]; auto. Qed.

Lemma emits_dbs l env pos its a : emits (dbs l) env pos its a -> its = map (fun b => IDb (w8 b)) l.
Proof.
  revert pos its a; induction l as [|b l IH]; simpl; intros pos its a H.
  - now apply emits_ret in H as [-> _].
  - apply emits_bind in H as (i1 & i2 & x & H1 & H2 & ->).
    apply emits_db in H1 as ->. apply IH in H2 as ->. reflexivity.
Qed.
Lemma emits_dbn c n env pos its a :
  emits (dbn c n) env pos its a -> n <= 8 /\ its = map (fun b => IDb (w8 b)) (le_bytes (w64 c) (Z.to_nat n)).
Proof.
  unfold dbn; intros H. apply emits_fn in H. apply emits_bind in H as (i1 & i2 & x & H1 & H2 & ->).
  destruct (8 <? n) eqn:Hn; [now apply emits_throw in H1|].
  apply emits_ret in H1 as [-> _]. apply emits_dbs in H2 as ->. split; auto. apply Z.ltb_ge in Hn; lia.
Qed.

Lemma w8_idem x : w8 (w8 x) = w8 x.
Proof. unfold w8. apply Z.mod_mod. lia. Qed.
Lemma le_bytes_w8 v n : map (fun b => IDb (w8 b)) (le_bytes v n) = map IDb (le_bytes v n).
Proof. revert v; induction n; simpl; intros; auto. rewrite w8_idem, IHn. auto. Qed.
Lemma render_IDb s l : render s (map IDb l) = l.
Proof. induction l; simpl; congruence. Qed.
Lemma le_bytes_mod n k v : (k <= n)%nat -> le_bytes (v mod 256 ^ Z.of_nat n) k = le_bytes v k.
Proof.
  revert k v. induction n; intros k0 v0 H0.
  - destruct k0; [reflexivity | lia].
  - destruct k0 as [|k1]; [reflexivity|]. cbn [le_bytes].
    rewrite Nat2Z.inj_succ, Z.pow_succ_r by lia.
    assert (0 < 256 ^ Z.of_nat n) by (apply Z.pow_pos_nonneg; lia).
    rewrite Z.rem_mul_r by lia. pose proof (Z.mod_pos_bound v0 256 ltac:(lia)).
    f_equal.
    + unfold w8. rewrite Z.mul_comm, Z.mod_add by lia. apply Z.mod_mod; lia.
    + rewrite (Z.mul_comm 256), Z.div_add by lia. rewrite (Z.div_small (v0 mod 256)) by lia.
      simpl. apply IHn; lia.
Qed.
Lemma le_bytes_w64 v n : (n <= 8)%nat -> le_bytes (w64 v) n = le_bytes v n.
Proof. apply (le_bytes_mod 8). Qed.
Lemma le_bytes_w32 v n : (n <= 4)%nat -> le_bytes (w32 v) n = le_bytes v n.
Proof. apply (le_bytes_mod 4). Qed.
