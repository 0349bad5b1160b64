(* Finite sweeps and bit-field lemmas. *)
From Coq Require Import ZArith List Bool Lia.
From Verif Require Import Base Types.
Import ListNotations.
Open Scope Z_scope.

Fixpoint upto (n : nat) : list Z :=
  match n with O => [] | S k => upto k ++ [Z.of_nat k] end.
Lemma upto_in n x : 0 <= x < Z.of_nat n -> In x (upto n).
Proof.
  induction n; intros H; simpl; [lia|]. apply in_or_app.
  destruct (Z.eq_dec x (Z.of_nat n)); [right; simpl; auto | left; apply IHn; lia].
Qed.
Lemma sweep1 n (P : Z -> bool) :
  forallb P (upto n) = true -> forall x, 0 <= x < Z.of_nat n -> P x = true.
Proof. intros H x Hx. rewrite forallb_forall in H. apply H, upto_in, Hx. Qed.
Lemma sweep2 n m (P : Z -> Z -> bool) :
  forallb (fun x => forallb (P x) (upto m)) (upto n) = true ->
  forall x y, 0 <= x < Z.of_nat n -> 0 <= y < Z.of_nat m -> P x y = true.
Proof. intros H x y Hx Hy. apply sweep1 with (n := m); auto. apply (sweep1 n) with (x := x) in H; auto. Qed.
Lemma sweep3 n m k (P : Z -> Z -> Z -> bool) :
  forallb (fun x => forallb (fun y => forallb (P x y) (upto k)) (upto m)) (upto n) = true ->
  forall x y z, 0 <= x < Z.of_nat n -> 0 <= y < Z.of_nat m -> 0 <= z < Z.of_nat k -> P x y z = true.
Proof. intros H x y z Hx Hy Hz. apply sweep1 with (n := k); auto. apply (sweep2 n m (fun x y => forallb (P x y) (upto k))) with (x := x) (y := y) in H; auto. Qed.

Lemma land7 x : Z.land x 7 = x mod 8.
Proof. change 7 with (Z.ones 3). rewrite Z.land_ones by lia. reflexivity. Qed.
Lemma land15 x : Z.land x 15 = x mod 16.
Proof. change 15 with (Z.ones 4). rewrite Z.land_ones by lia. reflexivity. Qed.
Lemma land31 x : Z.land x 31 = x mod 32.
Proof. change 31 with (Z.ones 5). rewrite Z.land_ones by lia. reflexivity. Qed.
Lemma land3 x : Z.land x 3 = x mod 4.
Proof. change 3 with (Z.ones 2). rewrite Z.land_ones by lia. reflexivity. Qed.

Lemma getIdx_range r : 0 <= getIdx r < 32.
Proof. unfold getIdx. rewrite land31. apply Z.mod_pos_bound; lia. Qed.
Lemma getIdx_low7 r : 0 <= Z.land (getIdx r) 7 < 8.
Proof. rewrite land7. apply Z.mod_pos_bound; lia. Qed.

Lemma modrm_sum md a b : 0 <= md < 4 -> 0 <= a < 8 -> 0 <= b < 8 ->
  (md <<< 6) ||| (a <<< 3) ||| b = md * 64 + a * 8 + b.
Proof.
  intros. apply Z.eqb_eq.
  apply (sweep3 4 8 8 (fun md a b => ((md <<< 6) ||| (a <<< 3) ||| b) =? md * 64 + a * 8 + b)); auto.
Qed.

Lemma has_testbit_pow x i : 0 <= i -> has x (1 <<< i) = Z.testbit x i.
Proof.
  intros Hi. unfold has. rewrite Z.shiftl_1_l.
  destruct (Z.testbit x i) eqn:T.
  - destruct (Z.land x (2 ^ i) =? 0) eqn:Q; auto. apply Z.eqb_eq in Q.
    assert (Z.testbit (Z.land x (2 ^ i)) i = true).
    { rewrite Z.land_spec, T, Z.pow2_bits_true by lia. auto. }
    rewrite Q, Z.bits_0 in H. discriminate.
  - assert (Z.land x (2 ^ i) = 0) as ->; auto.
    apply Z.bits_inj'. intros n Hn. rewrite Z.land_spec, Z.bits_0, Z.pow2_bits_eqb by lia.
    destruct (i =? n) eqn:Q; [apply Z.eqb_eq in Q; subst; rewrite T; auto | apply andb_false_r].
Qed.

(* decomposition of a register number *)
Definition bit3 (r : Reg) : bool := Z.testbit (idx_ r) 3.
Definition bit4 (r : Reg) : bool := Z.testbit (idx_ r) 4.
Definition low3 (r : Reg) : Z := getIdx r mod 8.
Definition z01 (b : bool) : Z := if b then 1 else 0.
Lemma low3_range r : 0 <= low3 r < 8.
Proof. apply Z.mod_pos_bound; lia. Qed.
Lemma idx_split r : getIdx r = 16 * z01 (bit4 r) + 8 * z01 (bit3 r) + low3 r.
Proof.
  unfold low3, bit3, bit4, getIdx. rewrite land31.
  assert (H3 : Z.testbit (idx_ r) 3 = Z.testbit (idx_ r mod 32) 3).
  { change 32 with (2 ^ 5). rewrite Z.mod_pow2_bits_low; auto; lia. }
  assert (H4 : Z.testbit (idx_ r) 4 = Z.testbit (idx_ r mod 32) 4).
  { change 32 with (2 ^ 5). rewrite Z.mod_pow2_bits_low; auto; lia. }
  rewrite H3, H4. pose proof (Z.mod_pos_bound (idx_ r) 32 ltac:(lia)) as R.
  revert R. generalize (idx_ r mod 32). intros x R. apply Z.eqb_eq.
  apply (sweep1 32 (fun x => x =? 16 * z01 (Z.testbit x 4) + 8 * z01 (Z.testbit x 3) + x mod 8)); auto.
Qed.
Lemma hasIdxBit3 r : hasIdxBit r 3 = bit3 r.
Proof. unfold hasIdxBit. now rewrite has_testbit_pow by lia. Qed.
Lemma hasIdxBit4 r : hasIdxBit r 4 = bit4 r.
Proof. unfold hasIdxBit. now rewrite has_testbit_pow by lia. Qed.
Lemma isExtIdx_bit3 r : isExtIdx r = bit3 r.
Proof.
  unfold isExtIdx, bit3, getIdx. change 8 with (1 <<< 3). rewrite has_testbit_pow by lia.
  rewrite Z.land_spec. change 31 with (Z.ones 5). rewrite Z.ones_spec_low by lia. apply andb_true_r.
Qed.
Lemma isExtIdx2_bit4 r : isExtIdx2 r = bit4 r.
Proof.
  unfold isExtIdx2, bit4, getIdx. change 16 with (1 <<< 4). rewrite has_testbit_pow by lia.
  rewrite Z.land_spec. change 31 with (Z.ones 5). rewrite Z.ones_spec_low by lia. apply andb_true_r.
Qed.
Lemma getIdx_land7 r : Z.land (getIdx r) 7 = low3 r.
Proof. apply land7. Qed.
Lemma isExt8bit_bit5 r : isExt8bit r = Z.testbit (idx_ r) 5.
Proof. unfold isExt8bit, EXT8BIT. change 32 with (1 <<< 5). now rewrite has_testbit_pow by lia. Qed.

Lemma lor_lt_16 a b : 0 <= a -> 0 <= b -> (Z.lor a b < 16 <-> a < 16 /\ b < 16).
Proof.
  intros Ha Hb.
  assert (S : forall x, 0 <= x -> (x < 16 <-> Z.shiftr x 4 = 0)).
  { intros x Hx. rewrite Z.shiftr_div_pow2 by lia. change (2 ^ 4) with 16. split; intros.
    - apply Z.div_small; lia.
    - apply Z.div_small_iff in H; lia. }
  assert (0 <= Z.lor a b) by (apply Z.lor_nonneg; lia).
  rewrite !S by lia. rewrite Z.shiftr_lor, Z.lor_eq_0_iff. tauto.
Qed.

Lemma w8_range x : 0 <= w8 x < 256.
Proof. apply Z.mod_pos_bound; lia. Qed.
Lemma w32_range x : 0 <= w32 x < 4294967296.
Proof. apply Z.mod_pos_bound; lia. Qed.
Lemma w64_range x : 0 <= w64 x < 18446744073709551616.
Proof. apply Z.mod_pos_bound; lia. Qed.
Lemma w8_small x : 0 <= x < 256 -> w8 x = x.
Proof. apply Z.mod_small. Qed.
Lemma w32_small x : 0 <= x < 4294967296 -> w32 x = x.
Proof. apply Z.mod_small. Qed.
Lemma w64_small x : 0 <= x < 18446744073709551616 -> w64 x = x.
Proof. apply Z.mod_small. Qed.
