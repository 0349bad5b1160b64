(* Model of sample/quantize.cpp:50-123 (Quantize::ilog2, udiv): division by a constant.  udiv chooses a multiplier and a shift in
   the generator (udiv_plan) and then emits a few instructions (UdivRun).  int is 32 bits; long is 32 bits, too (the sample is for
   the 32-bit build), so 0xFFFFFFFFL is unsigned.  UBshift: 1 << 31 (int); NoEnd: a loop does not end within fuel rounds. *)
From Coq Require Import ZArith List Bool Lia Znumtheory.
From Verif Require Import Base.
Open Scope Z_scope.

Inductive plan := Shr_ (e : Z) | Mul_ (m : Z) (a : bool) (len : Z).
Inductive outcome := Plan (p : plan) | UBshift | NoEnd.
(* quantize.cpp:51-56: while ((1 << shift) <= x) shift++; return shift - 1 *)
Fixpoint ilog2_from (n : nat) (shift x : Z) : option Z :=
  match n with O => None | S n => if 2 ^ shift <=? x then ilog2_from n (shift + 1) x else Some (shift - 1) end.
Definition ilog2 (x : Z) : option Z := ilog2_from 31 0 x.
(* quantize.cpp:68-71: while ((odd & 1) == 0) { odd >>= 1; exponent++; } *)
Fixpoint strip (fuel : nat) (odd ex : Z) : option (Z * Z) :=
  match fuel with O => None | S n => if Z.even odd then strip n (odd / 2) (ex + 1) else Some (odd, ex) end.
(* quantize.cpp:89-91: while (((mLow >> 1) < (mHigh >> 1)) && (len > 0)); n is len *)
Fixpoint reduce (n : nat) (mLow mHigh : Z) : Z * Z :=
  match n with O => (mHigh, 0) | S n' => if mLow / 2 <? mHigh / 2 then reduce n' (mLow / 2) (mHigh / 2) else (mHigh, Z.of_nat n) end.
(* quantize.cpp:104-106: while ((m & 1) == 0) { m >>= 1; len--; } *)
Fixpoint norm (fuel : nat) (m len : Z) : option (Z * Z) :=
  match fuel with O => None | S n => if Z.even m then norm n (m / 2) (len - 1) else Some (m, len) end.
Definition F : Z := 0xFFFFFFFF.
(* quantize.cpp:62-107 *)
Definition udiv_plan (fuel : nat) (dividend : Z) : outcome :=
  match strip fuel (s32 dividend) 0 with
  | None => NoEnd
  | Some (odd, ex) =>
  if odd =? 1 then Plan (Shr_ ex) else
  match ilog2 odd with
  | None => UBshift
  | Some l =>
      let len := l + 1 in let u := w64 odd in
      let roundUp := 2 ^ (32 + len) in let k := roundUp / (F - F mod w32 odd) in
      let '(mHigh, len) := reduce (Z.to_nat len) (roundUp / u) ((roundUp + k) / u) in
      let '(m, a, len) :=
        if mHigh / 2 ^ 32 =? 0 then (mHigh, false, len)
        else let roundDown := 2 ^ (32 + l) in let mLow := roundDown / u in
             ((if roundDown mod u <=? odd / 2 then mLow else mLow + 1), true, l) in
      match norm fuel m len with None => NoEnd | Some (m, len) => Plan (Mul_ m a (len + ex)) end
  end end.
(* what the instructions compute: the upper half of x * m (+ m), shifted *)
Definition value (p : plan) (x : Z) : Z :=
  match p with Shr_ e => x / 2 ^ e | Mul_ m a len => (x * m + if a then m else 0) / 2 ^ 32 / 2 ^ len end.

(* ---- loops ---- *)
Lemma even_half n : Z.even n = true -> n = 2 * (n / 2).
Proof. intros H. apply Z.even_spec in H as [k ->]. now rewrite Z.mul_comm, Z.div_mul, Z.mul_comm. Qed.
Lemma strip_ok fuel : forall d ex, 0 < d < 2 ^ Z.of_nat fuel -> exists o e, strip fuel d ex = Some (o, ex + e) /\ d = o * 2 ^ e /\ 0 <= e /\ Z.odd o = true /\ 0 < o.
Proof.
  induction fuel as [|n IH]; intros d ex H; [cbn in H; lia|]. rewrite Nat2Z.inj_succ, Z.pow_succ_r in H by lia. cbn [strip]. destruct (Z.even d) eqn:E.
  - pose proof (even_half d E) as H2. destruct (IH (d / 2) (ex + 1) ltac:(lia)) as (o & e & -> & D & E0 & O & P). exists o, (e + 1). split; [do 2 f_equal; lia|].
    split; [|split; [lia|split; assumption]]. rewrite Z.pow_add_r by lia. rewrite H2, D. ring.
  - exists d, 0. rewrite Z.add_0_r, Z.pow_0_r, Z.mul_1_r. split; [reflexivity|]. split; [reflexivity|]. split; [lia|]. split; [|lia]. rewrite <- Z.negb_even, E. reflexivity.
Qed.
Lemma norm_ok fuel : forall m len, 0 < m < 2 ^ Z.of_nat fuel -> exists m' j, norm fuel m len = Some (m', len - j) /\ m = m' * 2 ^ j /\ 0 <= j /\ 0 < m'.
Proof.
  induction fuel as [|n IH]; intros m len H; [cbn in H; lia|]. rewrite Nat2Z.inj_succ, Z.pow_succ_r in H by lia. cbn [norm]. destruct (Z.even m) eqn:E.
  - pose proof (even_half m E) as H2. destruct (IH (m / 2) (len - 1) ltac:(lia)) as (o & e & -> & D & E0 & P). exists o, (e + 1). split; [do 2 f_equal; lia|].
    split; [|split; [lia|assumption]]. rewrite Z.pow_add_r by lia. rewrite H2, D. ring.
  - exists m, 0. rewrite Z.sub_0_r, Z.pow_0_r, Z.mul_1_r. repeat split; lia.
Qed.
Lemma norm_odd fuel m len : Z.odd m = true -> norm (S fuel) m len = Some (m, len).
Proof. intros H. cbn [norm]. rewrite <- Z.negb_odd, H. reflexivity. Qed.
Lemma ilog2_from_ok n : forall sh x, 0 <= sh -> sh + Z.of_nat n = 31 -> (sh = 0 \/ 2 ^ (sh - 1) <= x) -> 0 < x < 2 ^ 30 -> ilog2_from n sh x = Some (Z.log2 x).
Proof.
  induction n as [|n IH]; intros sh x H0 Hn Hl Hx.
  - exfalso. replace sh with 31 in Hl by lia. destruct Hl as [Hl|Hl]; [lia|]. change (2 ^ (31 - 1)) with (2 ^ 30) in Hl. lia.
  - cbn [ilog2_from]. destruct (Z.leb_spec (2 ^ sh) x) as [H|H].
    + apply IH; [lia|lia|right; now replace (sh + 1 - 1) with sh by lia|exact Hx].
    + f_equal. symmetry. destruct Hl as [->|Hl]; [cbn in H; lia|]. apply Z.log2_unique; [|split; [exact Hl|now replace (Z.succ (sh - 1)) with sh by lia]].
      destruct (Z.eq_dec sh 0) as [->|]; [cbn in H; lia|lia].
Qed.
Lemma ilog2_ok x : 0 < x < 2 ^ 30 -> ilog2 x = Some (Z.log2 x).
Proof. intros H. apply ilog2_from_ok; [lia|reflexivity|now left|exact H]. Qed.
(* j rounds of reduce *)
Lemma reduce_ok n : forall a b, a < b -> exists j, 0 <= j <= Z.of_nat n /\ reduce n a b = (b / 2 ^ j, Z.of_nat n - j) /\ a / 2 ^ j < b / 2 ^ j
  /\ (j < Z.of_nat n -> a / 2 ^ j / 2 >= b / 2 ^ j / 2) /\ (0 < Z.of_nat n -> a / 2 < b / 2 -> 1 <= j).
Proof.
  induction n as [|n IH]; intros a b H.
  - exists 0. rewrite Z.pow_0_r, !Z.div_1_r. cbn. repeat split; try lia.
  - cbn [reduce]. destruct (Z.ltb_spec (a / 2) (b / 2)) as [L|L].
    + destruct (IH _ _ L) as (j & J & -> & A & B & _). exists (j + 1). assert (forall v, v / 2 ^ (j + 1) = v / 2 / 2 ^ j) as D.
      { intros v. rewrite Z.add_comm, Z.pow_add_r, Z.pow_1_r, Z.div_div by lia. reflexivity. }
      rewrite !D. split; [lia|]. split; [f_equal; lia|]. split; [exact A|]. split; [intros; apply B; lia|lia].
    + exists 0. rewrite Z.pow_0_r, !Z.div_1_r, Z.sub_0_r. split; [lia|]. split; [reflexivity|]. split; [lia|]. split; [intros _; lia|]. intros _ K. lia.
Qed.

(* ---- arithmetic ---- *)
Lemma odd_prime_2 d n : Z.odd d = true -> 0 <= n -> rel_prime d (2 ^ n).
Proof.
  intros H Hn. assert (rel_prime d 2) as P.
  { apply rel_prime_sym, prime_rel_prime; [exact prime_2|]. intros [k ->]. rewrite Z.odd_mul, andb_comm in H. discriminate. }
  pattern n. apply natlike_ind; [rewrite Z.pow_0_r; apply rel_prime_sym, rel_prime_1| |exact Hn]. intros m Hm IH. rewrite Z.pow_succ_r by exact Hm. apply rel_prime_mult; assumption.
Qed.
Lemma no_divide d n : Z.odd d = true -> 1 < d -> 0 <= n -> ~ (d | 2 ^ n).
Proof.
  intros H H1 Hn D. pose proof (odd_prime_2 d n H Hn) as P. assert (d | 1) as K by (apply P; [apply Z.divide_refl|exact D]). apply Z.divide_1_r in K. lia.
Qed.
Lemma quot_is a b q : 0 < b -> q * b <= a -> a < (q + 1) * b -> a / b = q.
Proof. intros H1 H2 H3. symmetry. apply (Z.div_unique a b q (a - q * b)); lia. Qed.
(* rounding up: m d = R + e with 0 < e and e nc <= R *)
Lemma up_ok d m R e x : 1 < d -> Z.odd d = true -> d <= F -> m * d = R + e -> 0 < e -> e * (F - F mod d) <= R -> 0 <= x <= F -> x * m / R = x / d.
Proof.
  intros H1 Ho HF Hm He Hn Hx. set (nc := F - F mod d) in *. pose proof (Z.mod_pos_bound F d ltac:(lia)) as MF. pose proof (Z.div_mod F d ltac:(lia)) as DF.
  assert (nc = d * (F / d)) as NC by (unfold nc; lia). assert (1 <= F / d) as Q1 by (apply Z.div_le_lower_bound; lia). assert (d <= nc) by nia.
  assert (0 < R) as HR by nia. pose proof (Z.div_mod x d ltac:(lia)) as DX. pose proof (Z.mod_pos_bound x d ltac:(lia)) as MX. set (q := x / d) in *. set (r := x mod d) in *.
  assert (0 <= q) by (unfold q; apply Z.div_pos; lia).
  apply quot_is; [exact HR| |].
  - assert (q * R * d <= x * m * d); [|nia]. replace (x * m * d) with (x * R + x * e) by (rewrite <- Z.mul_assoc, Hm; ring). nia.
  - assert (x * m * d < (q + 1) * R * d); [|nia]. replace (x * m * d) with (x * R + x * e) by (rewrite <- Z.mul_assoc, Hm; ring).
    assert (x * e < (d - r) * R); [|replace (x * R) with ((d * q + r) * R) by (rewrite <- DX; reflexivity); nia].
    destruct (Z.eq_dec r (d - 1)) as [Er|Er].
    + assert (x < nc) as X.
      { destruct (Z.lt_ge_cases x nc) as [|L]; [assumption|]. exfalso. assert (q = F / d) as Eq by nia. assert (F mod d = d - 1) as Em by nia.
        apply (no_divide d 32 Ho H1 ltac:(lia)). exists (F / d + 1). change (2 ^ 32) with (F + 1). lia. }
      nia.
    + assert (F < 2 * nc) by (unfold nc in *; lia). assert (x * e <= F * e) by nia. assert (F * e < 2 * nc * e) by nia. nia.
Qed.
(* rounding down: m d = R - r, 0 < r, 2^32 r <= R *)
Lemma down_ok d m R r x : 1 < d -> m * d = R - r -> 0 < r -> 0 < R -> (F + 1) * r <= R -> 0 <= x <= F -> (x * m + m) / R = x / d.
Proof.
  intros H1 Hm Hr HR Hn Hx. replace (x * m + m) with ((x + 1) * m) by ring.
  pose proof (Z.div_mod x d ltac:(lia)) as DX. pose proof (Z.mod_pos_bound x d ltac:(lia)) as MX. set (q := x / d) in *. set (t := x mod d) in *. assert (0 <= q) by (unfold q; apply Z.div_pos; lia).
  apply quot_is; [exact HR| |].
  - assert (q * R * d <= (x + 1) * m * d); [|nia]. replace ((x + 1) * m * d) with ((x + 1) * R - (x + 1) * r) by (rewrite <- (Z.mul_assoc (x + 1) m d), Hm; ring).
    assert ((x + 1) * r <= R) by nia. replace ((x + 1) * R) with ((d * q + t + 1) * R) by (rewrite <- DX; reflexivity). nia.
  - assert ((x + 1) * m * d < (q + 1) * R * d); [|nia]. replace ((x + 1) * m * d) with ((x + 1) * R - (x + 1) * r) by (rewrite <- (Z.mul_assoc (x + 1) m d), Hm; ring).
    assert (0 < (x + 1) * r) by nia. replace ((x + 1) * R) with ((d * q + t + 1) * R) by (rewrite <- DX; reflexivity). nia.
Qed.

(* ---- the choice of m, a and len ---- *)
Lemma w64_id v : 0 <= v < 2 ^ 31 -> w64 v = v.
Proof. intros H. unfold w64. apply Z.mod_small. lia. Qed.
Lemma w32_id v : 0 <= v < 2 ^ 31 -> w32 v = v.
Proof. intros H. unfold w32. apply Z.mod_small. lia. Qed.
Lemma s32_id v : 0 <= v < 2 ^ 31 -> s32 v = v.
Proof. intros H. unfold s32. rewrite w32_id by exact H. destruct (Z.ltb_spec v 2147483648); lia. Qed.
Definition choose (fuel : nat) (odd l : Z) : option (Z * bool * Z) :=
  let roundUp := 2 ^ (32 + (l + 1)) in let k := roundUp / (F - F mod odd) in
  let '(mHigh, len) := reduce (Z.to_nat (l + 1)) (roundUp / odd) ((roundUp + k) / odd) in
  let '(m, a, len) :=
    if mHigh / 2 ^ 32 =? 0 then (mHigh, false, len)
    else let roundDown := 2 ^ (32 + l) in let mLow := roundDown / odd in ((if roundDown mod odd <=? odd / 2 then mLow else mLow + 1), true, l) in
  match norm fuel m len with None => None | Some (m, len) => Some (m, a, len) end.
Lemma pow32 n : 0 <= n -> 2 ^ (32 + n) = 2 ^ 32 * 2 ^ n.
Proof. intros. apply Z.pow_add_r; lia. Qed.
Lemma choose_ok fuel d : 1 < d < 2 ^ 30 -> Z.odd d = true -> (64 <= fuel)%nat ->
  exists m a len, choose fuel d (Z.log2 d) = Some (m, a, len) /\ 0 < m < 2 ^ 32 /\ 0 <= len <= Z.log2 d + 1
    /\ forall x, 0 <= x <= F -> (x * m + if a then m else 0) / 2 ^ 32 / 2 ^ len = x / d.
Proof.
  intros Hd Ho Hf. pose proof (Z.log2_spec d ltac:(lia)) as LS. pose proof (Z.log2_nonneg d) as L0. assert (Z.log2 d < 30) as L30 by (apply Z.log2_lt_pow2; lia).
  set (l := Z.log2 d) in *. replace (Z.succ l) with (l + 1) in LS by lia.
  assert (2 ^ (l + 1) = 2 * 2 ^ l) as P1 by (rewrite Z.pow_add_r by lia; lia). assert (0 < 2 ^ l) as Pl by (apply Z.pow_pos_nonneg; lia).
  assert (2 ^ l <= 2 ^ 29) as Pu by (apply Z.pow_le_mono_r; lia).
  assert (1 <= l) as L1. { destruct (Z.eq_dec l 0) as [E|]; [|lia]. rewrite E in LS. cbn in LS. lia. }
  assert (2 ^ l < d) as Lt. { destruct (Z.eq_dec d (2 ^ l)) as [E|]; [|lia]. rewrite E in Ho. rewrite Z.odd_pow in Ho by lia. discriminate. }
  set (R := 2 ^ (32 + (l + 1))). set (R2 := 2 ^ (32 + l)). assert (R = 2 * R2) as RR by (unfold R, R2; rewrite !pow32 by lia; lia).
  assert (R2 = 2 ^ 32 * 2 ^ l) as ER2 by (apply pow32; lia).
  set (nc := F - F mod d). pose proof (Z.mod_pos_bound F d ltac:(lia)) as MF. assert (2 ^ 31 < nc <= F) as NC by (unfold nc, F in *; lia).
  set (k := R / nc). assert (k * nc <= R) as K1 by (unfold k; rewrite Z.mul_comm; apply Z.mul_div_le; lia).
  assert (2 ^ (l + 1) <= k) as K2. { unfold k. apply Z.div_le_lower_bound; [lia|]. unfold F in *. nia. }
  assert (k < 2 ^ 33) as K3. { unfold k. apply Z.div_lt_upper_bound; [lia|]. nia. }
  assert (R / d < (R + k) / d) as LH.
  { assert (R / d + 1 <= (R + k) / d); [|lia]. replace (R / d + 1) with ((R + 1 * d) / d) by (rewrite Z.div_add by lia; lia). apply Z.div_le_mono; lia. }
  unfold choose. fold R. fold R2. fold nc. fold k. destruct (reduce_ok (Z.to_nat (l + 1)) _ _ LH) as (j & J & E & A & B & C). rewrite Z2Nat.id in * by lia. rewrite E.
  assert (0 < 2 ^ j) as Pj by (apply Z.pow_pos_nonneg; lia).
  set (mh := (R + k) / d / 2 ^ j) in *. set (ml := R / d / 2 ^ j) in *.
  destruct fuel as [|fuel]; [lia|].
  destruct (Z.eqb_spec (mh / 2 ^ 32) 0) as [Z0|Z0].
  - set (R' := 2 ^ (32 + (l + 1 - j))). assert (R = R' * 2 ^ j) as RJ. { unfold R, R'. rewrite <- Z.pow_add_r by lia. f_equal. lia. }
    assert (0 < R') as PR by (apply Z.pow_pos_nonneg; lia).
    assert (ml = R' / d) as EML. { unfold ml. rewrite Z.div_div, RJ by lia. apply Z.div_mul_cancel_r; lia. }
    assert (mh * (d * 2 ^ j) <= R + k) as U. { unfold mh. rewrite Z.div_div by lia. rewrite Z.mul_comm. apply Z.mul_div_le. nia. }
    assert (R' < mh * d) as V. { pose proof (Z.mul_succ_div_gt R' d ltac:(lia)). rewrite <- EML in *. nia. }
    set (e := mh * d - R'). assert (e * 2 ^ j <= k) as EK by (unfold e; nia).
    assert (e * nc <= R') as EN. { assert (e * nc * 2 ^ j <= R' * 2 ^ j); [|nia]. rewrite <- RJ. nia. }
    assert (0 < mh) as PM by nia. assert (mh < 2 ^ 32) as BM. { pose proof (Z.div_small_iff mh (2 ^ 32) ltac:(lia)) as D. apply D in Z0. lia. }
    assert (Z.odd mh = true) as OM.
    { destruct (Z.eq_dec j (l + 1)) as [Ej|Ej].
      - assert (R' = 2 ^ 32) as E2 by (unfold R'; f_equal; lia). assert (e = 1) as E1 by (rewrite E2 in EN; nia).
        assert (Z.odd (mh * d) = true) as O2. { replace (mh * d) with (2 ^ 32 + 1) by (unfold e in E1; lia). reflexivity. }
        rewrite Z.odd_mul in O2. apply andb_prop in O2. tauto.
      - specialize (B ltac:(lia)). destruct (Z.odd mh) eqn:O; [reflexivity|]. exfalso. rewrite <- Z.negb_even in O. apply negb_false_iff, even_half in O.
        assert (ml / 2 <= (mh - 1) / 2) by (apply Z.div_le_mono; lia). assert ((mh - 1) / 2 < mh / 2); [|lia]. apply Z.div_lt_upper_bound; lia. }
    rewrite norm_odd by exact OM. exists mh, false, (l + 1 - j). split; [reflexivity|]. split; [lia|]. split; [lia|]. intros x Hx. rewrite Z.add_0_r, Z.div_div by (try apply Z.pow_pos_nonneg; lia).
    rewrite <- pow32 by lia. fold R'. apply (up_ok d mh R' e x); try assumption; unfold F, e in *; lia.
  - pose proof (Z.div_mod R2 d ltac:(lia)) as DR. pose proof (Z.mod_pos_bound R2 d ltac:(lia)) as MR. set (r := R2 mod d) in *. set (m := R2 / d) in *.
    assert (r <> 0) as R0. { intros Z1. apply (no_divide d (32 + l) Ho ltac:(lia) ltac:(lia)). exists m. fold R2. lia. }
    assert (r <= d / 2) as RD.
    { destruct (Z.le_gt_cases r (d / 2)) as [|G]; [assumption|]. exfalso. pose proof (Z.div_mod d 2 ltac:(lia)) as D2. pose proof (Z.mod_pos_bound d 2 ltac:(lia)) as M2.
      assert (R / d / 2 = m) as Em. { unfold m. rewrite Z.div_div, RR by lia. rewrite (Z.mul_comm d 2). apply Z.div_mul_cancel_l; lia. }
      assert (m + 1 <= (R + k) / d / 2) as Em1. { rewrite Z.div_div by lia. apply Z.div_le_lower_bound; lia. }
      specialize (C ltac:(lia) ltac:(lia)). apply Z0. apply Z.div_small. split; [unfold mh; apply Z.div_pos; [apply Z.div_pos; lia|lia]|].
      unfold mh. rewrite Z.div_div by lia. apply Z.div_lt_upper_bound; [nia|]. assert (2 <= 2 ^ j) by (change 2 with (2 ^ 1) at 1; apply Z.pow_le_mono_r; lia).
      assert (R + k < d * 2 * 2 ^ 32) by nia. nia. }
    destruct (Z.leb_spec r (d / 2)) as [_|]; [|lia].
    assert (0 < m < 2 ^ 32) as BM by nia.
    destruct (norm_ok (S fuel) m l) as (m' & i & -> & Em & I0 & Pm').
    { split; [lia|]. apply Z.lt_le_trans with (2 ^ 32); [lia|]. apply Z.pow_le_mono_r; lia. }
    assert (i <= l) as IL.
    { destruct (Z.le_gt_cases i l) as [|G]; [assumption|]. exfalso. assert (2 ^ i = 2 ^ (l + 1) * 2 ^ (i - (l + 1))) as Ei by (rewrite <- Z.pow_add_r by lia; f_equal; lia).
      assert (R2 = 2 ^ (l + 1) * 2 ^ 31) as E2 by (rewrite ER2, P1; lia). set (c := 2 ^ 31 - d * m' * 2 ^ (i - (l + 1))). assert (r = 2 ^ (l + 1) * c) as Er.
      { unfold c. rewrite Z.mul_sub_distr_l, <- E2. rewrite Em, Ei in DR. lia. }
      assert (0 < c) as C0 by (apply (Z.mul_pos_cancel_l (2 ^ (l + 1))); lia).
      assert (2 ^ (l + 1) * 1 <= 2 ^ (l + 1) * c) by (apply Z.mul_le_mono_nonneg_l; lia). lia. }
    assert (0 < 2 ^ i) as Pi by (apply Z.pow_pos_nonneg; lia).
    exists m', true, (l - i). split; [reflexivity|]. split; [nia|]. split; [lia|]. intros x Hx. rewrite Z.div_div by (try apply Z.pow_pos_nonneg; lia).
    rewrite <- pow32 by lia. assert (R2 = 2 ^ (32 + (l - i)) * 2 ^ i) as E2 by (unfold R2; rewrite <- Z.pow_add_r by lia; f_equal; lia).
    assert (0 < 2 ^ (32 + (l - i))) by (apply Z.pow_pos_nonneg; lia).
    rewrite <- (Z.div_mul_cancel_r _ _ (2 ^ i)) by lia. rewrite <- E2. replace ((x * m' + m') * 2 ^ i) with (x * m + m) by (rewrite Em; ring).
    pose proof (Z.div_mod d 2 ltac:(lia)). pose proof (Z.mod_pos_bound d 2 ltac:(lia)).
    apply (down_ok d m R2 r x); try lia. unfold F. nia.
Qed.

(* the odd part of d is below 2^30: every d below 2^30, and the even ones below 2^31 *)
Definition divisor (d : Z) : Prop := 0 < d < 2 ^ 30 \/ (0 < d < 2 ^ 31 /\ Z.even d = true).
Definition plan_ok (p : plan) : Prop :=
  match p with Shr_ e => 0 <= e < 32 | Mul_ m _ len => 0 < m < 2 ^ 32 /\ 0 <= len < 32 end.
Lemma udiv_plan_ok fuel d : divisor d -> (64 <= fuel)%nat -> exists p, udiv_plan fuel d = Plan p /\ plan_ok p /\ forall x, 0 <= x < 2 ^ 32 -> value p x = x / d.
Proof.
  intros H Hf. assert (0 < d < 2 ^ 31) as Hd by (destruct H as [|[]]; lia). unfold udiv_plan. rewrite s32_id by lia.
  destruct (strip_ok fuel d 0) as (o & e & Es & D & E0 & O & P).
  { split; [lia|]. apply Z.lt_le_trans with (2 ^ 31); [lia|]. apply Z.pow_le_mono_r; lia. }
  rewrite Es. cbn [Z.add]. change (0 + e) with e. assert (0 < 2 ^ e) as Pe by (apply Z.pow_pos_nonneg; lia).
  assert (o < 2 ^ 30) as O30.
  { destruct H as [H|[H Ev]]; [nia|]. destruct (Z.eq_dec e 0) as [->|].
    - rewrite Z.pow_0_r, Z.mul_1_r in D. subst o. rewrite <- Z.negb_even, Ev in O. discriminate.
    - assert (2 <= 2 ^ e) by (change 2 with (2 ^ 1) at 1; apply Z.pow_le_mono_r; lia). nia. }
  destruct (Z.eqb_spec o 1) as [E1|E1].
  - exists (Shr_ e). split; [reflexivity|]. split; [cbn|intros x _; cbn; rewrite D, E1, Z.mul_1_l; reflexivity]. split; [lia|].
    apply (Z.pow_lt_mono_r_iff 2); [lia|lia|]. assert (2 ^ 31 < 2 ^ 32) by reflexivity. nia.
  - rewrite ilog2_ok by lia. destruct (choose_ok fuel o ltac:(lia) O Hf) as (m & a & len & Ec & Bm & Bl & Hx).
    rewrite w64_id, w32_id by lia. unfold choose in Ec.
    destruct (reduce _ _ _) as [mh ln]. destruct (if mh / 2 ^ 32 =? 0 then _ else _) as [[m1 a1] l1].
    destruct (norm fuel m1 l1) as [[m2 l2]|]; [|discriminate Ec]. injection Ec as -> -> ->. exists (Mul_ m a (len + e)). split; [reflexivity|]. split.
    + cbn. split; [exact Bm|]. split; [lia|]. pose proof (Z.log2_spec o P) as LS. assert (2 ^ (Z.log2 o + e) < 2 ^ 31) as B. { rewrite Z.pow_add_r by (try apply Z.log2_nonneg; lia). nia. }
      apply Z.pow_lt_mono_r_iff in B; lia.
    + intros x Bx. cbn [value]. rewrite Z.pow_add_r by lia. assert (0 < 2 ^ len) by (apply Z.pow_pos_nonneg; lia).
      rewrite <- (Z.div_div _ (2 ^ len)) by lia. rewrite Hx by (unfold F; lia). rewrite D, Z.div_div by lia. reflexivity.
Qed.

(* ---- the other divisors ---- *)
Lemma strip_zero fuel : forall ex, strip fuel 0 ex = None.
Proof. induction fuel; intros ex; [reflexivity|]. cbn [strip]. change (Z.even 0) with true. apply IHfuel. Qed.
Lemma norm_zero fuel : forall len, norm fuel 0 len = None.
Proof. induction fuel; intros len; [reflexivity|]. cbn [norm]. change (Z.even 0) with true. apply IHfuel. Qed.
Lemma strip_neg fuel : forall d ex o e, d < 0 -> strip fuel d ex = Some (o, e) -> d <= o < 0.
Proof.
  induction fuel as [|n IH]; intros d ex o e H; [discriminate|]. cbn [strip]. destruct (Z.even d) eqn:E; [|intros K; injection K as <- <-; lia].
  intros K. pose proof (even_half d E). apply IH in K; lia.
Qed.
Lemma ilog2_from_none n : forall sh x, 0 <= sh -> sh + Z.of_nat n = 31 -> 2 ^ 30 <= x -> ilog2_from n sh x = None.
Proof.
  induction n as [|n IH]; intros sh x H0 Hn Hx; [reflexivity|]. cbn [ilog2_from]. assert (2 ^ sh <= 2 ^ 30) by (apply Z.pow_le_mono_r; lia).
  destruct (Z.leb_spec (2 ^ sh) x); [|lia]. apply IH; lia.
Qed.
Lemma udiv_zero fuel : udiv_plan fuel 0 = NoEnd.
Proof. unfold udiv_plan. change (s32 0) with 0. now rewrite strip_zero. Qed.
Lemma udiv_negative fuel d : 2 ^ 31 <= d < 2 ^ 32 -> udiv_plan fuel d = NoEnd.
Proof.
  intros H. unfold udiv_plan. assert (s32 d = d - 2 ^ 32) as ->. { unfold s32, w32. rewrite Z.mod_small by lia. destruct (Z.ltb_spec d 2147483648); lia. }
  destruct (strip fuel (d - 2 ^ 32) 0) as [[o e]|] eqn:Es; [|reflexivity]. apply strip_neg in Es; [|lia]. destruct (Z.eqb_spec o 1); [lia|].
  assert (ilog2 o = Some (-1)) as ->. { unfold ilog2. cbn [ilog2_from]. destruct (Z.leb_spec (2 ^ 0) o) as [K|K]; [change (2 ^ 0) with 1 in K; lia|reflexivity]. }
  change (Z.to_nat (-1 + 1)) with O. cbn [reduce]. assert (w64 o = 2 ^ 64 + o) as ->. { unfold w64. symmetry. apply (Z.mod_unique _ _ (-1)); lia. }
  assert (w32 o = 2 ^ 32 + o) as ->. { unfold w32. symmetry. apply (Z.mod_unique _ _ (-1)); lia. }
  change (2 ^ (32 + (-1 + 1))) with (2 ^ 32). set (k := 2 ^ 32 / (F - F mod (2 ^ 32 + o))).
  assert (0 <= k <= 2) as K.
  { pose proof (Z.div_mod F (2 ^ 32 + o) ltac:(lia)) as D. assert (1 <= F / (2 ^ 32 + o)) by (apply Z.div_le_lower_bound; unfold F; lia).
    assert (2 ^ 31 <= F - F mod (2 ^ 32 + o)) as L by nia. unfold k. split; [apply Z.div_pos; lia|]. apply Z.lt_succ_r, Z.div_lt_upper_bound; lia. }
  rewrite (Z.div_small (2 ^ 32 + k)) by lia. change (0 / 2 ^ 32 =? 0) with true. cbn [fst]. cbv beta iota. now rewrite norm_zero.
Qed.
Lemma udiv_odd fuel d : 2 ^ 30 <= d < 2 ^ 31 -> Z.even d = false -> (0 < fuel)%nat -> udiv_plan fuel d = UBshift.
Proof.
  intros H Ev Hf. destruct fuel as [|fuel]; [lia|]. unfold udiv_plan. rewrite s32_id by lia. cbn [strip]. rewrite Ev. destruct (Z.eqb_spec d 1); [lia|].
  unfold ilog2. rewrite ilog2_from_none; [reflexivity|lia|reflexivity|lia].
Qed.
Lemma udiv_domain fuel d : 0 <= d < 2 ^ 32 -> (64 <= fuel)%nat -> ((exists p, udiv_plan fuel d = Plan p) <-> divisor d).
Proof.
  intros H Hf. split; [|intros K; destruct (udiv_plan_ok fuel d K Hf) as (p & Ep & _); eauto]. intros [p Ep].
  destruct (Z.eq_dec d 0) as [->|]; [rewrite udiv_zero in Ep; discriminate Ep|].
  destruct (Z.lt_ge_cases d (2 ^ 31)) as [L|L]; [|rewrite udiv_negative in Ep by lia; discriminate Ep].
  destruct (Z.lt_ge_cases d (2 ^ 30)) as [L'|L']; [left; lia|]. right. destruct (Z.even d) eqn:Ev; [split; [lia|reflexivity]|].
  rewrite udiv_odd in Ep by (try assumption; lia). discriminate Ep.
Qed.
