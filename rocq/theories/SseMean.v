(* What SSE instructions do to lanes, to the rest of the registers and to memory. *)
From Coq Require Import ZArith List Bool String Lia ZifyBool.
From Verif Require Import Base Types SpecX86 SpecAddr SpecIsa SpecLeg SpecExec SpecVec VecFacts SpecSse.
Import ListNotations.
Open Scope list_scope.
Open Scope Z_scope.

(* ---- lanes ---- *)
Lemma lane_bit e i v j : 0 <= e -> 0 <= i -> 0 <= j -> Z.testbit (lane e i v) j = (j <? e) && Z.testbit v (j + e * i).
Proof.
  intros He Hi Hj. unfold lane. destruct (j <? e) eqn:Q.
  - rewrite Z.mod_pow2_bits_low, Z.div_pow2_bits by nia. reflexivity.
  - rewrite Z.mod_pow2_bits_high by lia. reflexivity.
Qed.
Lemma lane_lane w d v : 0 < w -> 0 <= d -> lane 8 (d mod w) (lane (8 * w) (d / w) v) = lane 8 d v.
Proof.
  intros Hw Hd. pose proof (Z.mod_pos_bound d w Hw). pose proof (Z.div_pos d w Hd Hw). pose proof (Z.div_mod d w ltac:(lia)).
  apply Z.bits_inj'. intros j Hj. rewrite !lane_bit by nia. destruct (j <? 8) eqn:Q; [|reflexivity]. cbn [andb].
  replace (j + 8 * (d mod w) <? 8 * w) with true by nia. cbn [andb]. f_equal. nia.
Qed.
Lemma low_lane es i a c : 0 < es -> 0 <= i -> es * (i + 1) <= 128 -> lane es i (a mod low128 + c * low128) = lane es i a.
Proof.
  intros He Hi H. unfold low128. pose proof (Z.mod_pos_bound a (2 ^ 128) ltac:(reflexivity)) as B. apply Z.bits_inj'. intros j Hj. rewrite !lane_bit by lia.
  destruct (j <? es) eqn:Q; [|reflexivity]. cbn [andb].
  assert (forall v k, 0 <= k < 128 -> Z.testbit v k = Z.testbit (v mod 2 ^ 128) k) as Hk by (intros; now rewrite Z.mod_pow2_bits_low by lia).
  rewrite Hk by nia. rewrite Z.mod_add by discriminate. rewrite Z.mod_mod by discriminate. symmetry. apply Hk. nia.
Qed.
Lemma low_high a c : (a mod low128 + c * low128) / low128 = c.
Proof. unfold low128. pose proof (Z.mod_pos_bound a (2 ^ 128) ltac:(reflexivity)). rewrite Z.div_add by discriminate. rewrite Z.div_small by lia. lia. Qed.

Section Dest.
  Context (q : sserow) (imm : Z) (r : Reg) (src : Operand) (s : st).
  Hypothesis Hr : opmask r = false.
  Hypothesis Hm : is_one (q_m q) = false.
  Let i8 := if q_imm q then imm else 0.
  Let s' := smeans q imm [OReg r; src] s.
  Let p := perform (q_m q) 128 0 i8 0 false false (XReg (regno r)) (match q_form q with Two => [XReg (regno r); where_ s src] | _ => [where_ s src] end) s.
  Lemma smeans_keep : s' = keep (regno r) s p.
  Proof.
    unfold s', smeans. cbn [where_]. rewrite Hr. fold i8. unfold sse_do. fold p. rewrite Hm. destruct (where_ s src); reflexivity.
  Qed.
  (* bits 128 and up of the destination, and everything else, do not change *)
  Theorem smeans_upper : vx s' (regno r) / low128 = vx s (regno r) / low128.
  Proof. rewrite smeans_keep. unfold keep, set_x, set_v, vx at 1. cbn [vu xr]. unfold upd at 1. rewrite Z.eqb_refl. apply low_high. Qed.
  Theorem smeans_rest : rg s' = rg s /\ mm s' = mm s /\ fl s' = fl s /\ vk s' = vk s /\ forall n, n <> regno r -> vx s' n = vx s n.
  Proof.
    rewrite smeans_keep. repeat split. intros n Hn. unfold keep, set_x, set_v, vx at 1. cbn [vu xr]. unfold upd at 1. destruct (Z.eqb_spec n (regno r)); [contradiction|].
    unfold p, perform, set_x, set_v, vx at 1. cbn [vu xr]. unfold upd. destruct (Z.eqb_spec n (regno r)); [contradiction|reflexivity].
  Qed.
  (* lanes of the destination *)
  Theorem smeans_lane o es i : q_m q = MLane o es -> 0 < es -> 0 <= i < 128 / es ->
    lane es i (vx s' (regno r)) =
    apply (fpu (vu s)) o es 0 i8 (lane es i (vx s (regno r)))
      (map (fun l => lane es i (source (MLane o es) 128 false s l)) (match q_form q with Two => [XReg (regno r); where_ s src] | _ => [where_ s src] end)) mod 2 ^ es.
  Proof.
    intros Q He Hi. rewrite smeans_keep. unfold keep, set_x, set_v, vx at 1. cbn [vu xr]. unfold upd at 1. rewrite Z.eqb_refl.
    assert (es * (128 / es) <= 128) by (apply Z.mul_div_le; lia). rewrite low_lane by nia. unfold p. rewrite Q. unfold perform, set_x, set_v, vx at 1. cbn [vu xr].
    unfold upd. rewrite Z.eqb_refl. unfold lanes, one_lane, esize. rewrite lane_build by lia. cbn [Z.eqb orb]. unfold result. now rewrite !map_map.
  Qed.
End Dest.

(* ---- stores ---- *)
Lemma store_at n : forall m a v z, 0 <= z < 2 ^ 64 -> Z.of_nat n <= 2 ^ 64 ->
  store m a v n z = let d := (z - a) mod 2 ^ 64 in if d <? Z.of_nat n then v / 256 ^ d mod 256 else m z.
Proof.
  induction n as [|n IH]; intros m a v z Hz Hn; cbv zeta; pose proof (Z.mod_pos_bound (z - a) (2 ^ 64) ltac:(reflexivity)) as B.
  - cbn [store]. destruct (Z.ltb_spec ((z - a) mod 2 ^ 64) (Z.of_nat 0)); [lia|reflexivity].
  - cbn [store]. rewrite IH by lia. cbv zeta. set (d := (z - a) mod 2 ^ 64) in *.
    assert ((z - (a + 1)) mod 2 ^ 64 = (d - 1) mod 2 ^ 64) as Ed by (unfold d; rewrite Zminus_mod_idemp_l; f_equal; ring). rewrite Ed.
    destruct (Z.eq_dec d 0) as [D|D].
    + rewrite D. change ((0 - 1) mod 2 ^ 64) with (2 ^ 64 - 1). replace (2 ^ 64 - 1 <? Z.of_nat n) with false by lia. replace (0 <? Z.of_nat (S n)) with true by lia.
      unfold upd. assert (z = addr64 a) as ->.
      { unfold d in D. unfold addr64. apply Z.mod_divide in D as [k D]; [|discriminate]. replace a with (z + - k * 2 ^ 64) by lia. rewrite Z.mod_add by discriminate. symmetry. now apply Z.mod_small. }
      rewrite Z.eqb_refl. change (256 ^ 0) with 1. now rewrite Z.div_1_r.
    + rewrite Z.mod_small by lia. replace (d <? Z.of_nat (S n)) with (d - 1 <? Z.of_nat n) by lia. destruct (d - 1 <? Z.of_nat n).
      * rewrite Z.div_div by (try apply Z.pow_pos_nonneg; lia). do 2 f_equal. replace (256 * 256 ^ (d - 1)) with (256 ^ (1 + (d - 1))) by (rewrite Z.pow_add_r by lia; reflexivity). f_equal. ring.
      * unfold upd. destruct (Z.eqb_spec z (addr64 a)) as [E|]; [|reflexivity]. exfalso. apply D. unfold d. rewrite E. unfold addr64. rewrite Zminus_mod_idemp_l, Z.sub_diag. reflexivity.
Qed.
Lemma store_lanes_at n w f a m z : 0 < w -> 0 <= z < 2 ^ 64 -> Z.of_nat n * w <= 2 ^ 64 ->
  store_lanes n (8 * w) (fun _ => true) f a m z =
  let d := (z - a) mod 2 ^ 64 in if d <? Z.of_nat n * w then lane 8 (d mod w) (f (d / w) mod 2 ^ (8 * w)) else m z.
Proof.
  intros Hw Hz. cbv zeta. pose proof (Z.mod_pos_bound (z - a) (2 ^ 64) ltac:(reflexivity)) as B. induction n as [|n IH]; intros Hn.
  - cbn [store_lanes]. destruct (Z.ltb_spec ((z - a) mod 2 ^ 64) (Z.of_nat 0 * w)); [lia|reflexivity].
  - cbn [store_lanes]. replace (8 * w / 8) with w by (rewrite Z.mul_comm, Z.div_mul; lia). rewrite store_at by nia. cbv zeta. rewrite IH by nia.
    set (d := (z - a) mod 2 ^ 64) in *. rewrite Z2Nat.id by lia.
    assert ((z - (a + Z.of_nat n * w)) mod 2 ^ 64 = (d - Z.of_nat n * w) mod 2 ^ 64) as Ed by (unfold d; rewrite Zminus_mod_idemp_l; f_equal; ring). rewrite Ed.
    destruct (d <? Z.of_nat n * w) eqn:L.
    + replace ((d - Z.of_nat n * w) mod 2 ^ 64) with (d - Z.of_nat n * w + 2 ^ 64); [|rewrite <- (Z.mod_add _ 1) by discriminate; rewrite Z.mod_small; nia].
      replace (d - Z.of_nat n * w + 2 ^ 64 <? w) with false by nia. replace (d <? Z.of_nat (S n) * w) with true by nia. reflexivity.
    + rewrite Z.mod_small by nia. replace (d <? Z.of_nat (S n) * w) with (d - Z.of_nat n * w <? w) by nia. destruct (d - Z.of_nat n * w <? w) eqn:L2; [|reflexivity].
      replace (d / w) with (Z.of_nat n) by (apply (Z.div_unique d w (Z.of_nat n) (d - Z.of_nat n * w)); lia).
      replace (d mod w) with (d - Z.of_nat n * w) by (apply (Z.mod_unique d w (Z.of_nat n)); lia).
      unfold lane. rewrite (Z.pow_mul_r 2 8 (d - Z.of_nat n * w)) by lia. reflexivity.
Qed.
(* a plain store of a register: 16 bytes at the address, nothing else *)
Section Store.
  Context (q : sserow) (imm : Z) (a : Address) (r : Reg) (s : st) (w : Z).
  Hypothesis Hr : opmask r = false.
  Hypothesis Hq : q_m q = MLane Mov (8 * w).
  Hypothesis Hf : q_form q = Store.
  Hypothesis Hw : w = 1 \/ w = 2 \/ w = 4 \/ w = 8.
  Let s' := smeans q imm [OMem a; OReg r] s.
  Let ad := written (rg s) (a_e a) mod addr_size (uses32 (a_e a)).
  Theorem stores_rest : rg s' = rg s /\ fl s' = fl s /\ vu s' = vu s.
  Proof. unfold s', smeans, sse_do. cbn [where_]. rewrite Hf. repeat split. Qed.
  Theorem stores_bytes z : 0 <= z < 2 ^ 64 ->
    mm s' z = let d := (z - ad) mod 2 ^ 64 in if d <? 16 then lane 8 d (vx s (regno r)) else mm s z.
  Proof.
    intros Hz. unfold s', smeans, sse_do. cbn [where_]. rewrite Hr, Hf, Hq. fold ad. unfold perform, set_m. cbn [mm Z.eqb orb esize lanes one_lane map].
    rewrite (store_lanes_at _ w) by (try exact Hz; destruct Hw as [-> |[-> |[-> | ->]]]; vm_compute; (reflexivity || discriminate)).
    cbv zeta. pose proof (Z.mod_pos_bound (z - ad) (2 ^ 64) ltac:(reflexivity)) as B. set (d := (z - ad) mod 2 ^ 64) in *.
    replace (Z.of_nat (Z.to_nat (128 / (8 * w))) * w) with 16 by (destruct Hw as [-> |[-> |[-> | ->]]]; reflexivity).
    destruct (d <? 16); [|reflexivity]. cbn [result apply nth map source]. 
    assert (lane (8 * w) (d / w) (vx s (regno r)) mod 2 ^ (8 * w) = lane (8 * w) (d / w) (vx s (regno r))) as -> by (unfold lane; apply Z.mod_mod, Z.pow_nonzero; lia).
    apply lane_lane; lia.
  Qed.
End Store.
(* reading it back *)
Lemma load_lanes m a v n : (forall i, 0 <= i < Z.of_nat n -> m (addr64 (a + i)) = lane 8 i v) -> load m a n = v mod 2 ^ (8 * Z.of_nat n).
Proof.
  revert a v. induction n as [|n IH]; intros a v H; [cbn; now rewrite Z.mod_1_r|]. cbn [load]. rewrite (IH (a + 1) (v / 256)).
  - pose proof (H 0 ltac:(lia)) as H0. rewrite Z.add_0_r in H0. rewrite H0. unfold lane. change (2 ^ (8 * 0)) with 1. change (2 ^ 8) with 256. rewrite Z.div_1_r.
    replace (8 * Z.of_nat (S n)) with (8 + 8 * Z.of_nat n) by lia. rewrite Z.pow_add_r by lia. change (2 ^ 8) with 256. symmetry. apply Z.rem_mul_r; [lia|apply Z.pow_pos_nonneg; lia].
  - intros i Hi. specialize (H (i + 1) ltac:(lia)). replace (a + 1 + i) with (a + (i + 1)) by ring. rewrite H. unfold lane. rewrite Z.div_div by (try apply Z.pow_pos_nonneg; lia).
    do 2 f_equal. replace (8 * (i + 1)) with (8 + 8 * i) by ring. rewrite Z.pow_add_r by lia. reflexivity.
Qed.
