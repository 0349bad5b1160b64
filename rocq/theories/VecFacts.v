(* Lanes of vectors: what is built, what is loaded. *)
From Coq Require Import ZArith List Bool Lia.
From Verif Require Import Base Types SpecX86 SpecAddr SpecIsa SpecExec SpecVec.
Import ListNotations.
Open Scope Z_scope.

Lemma build_bound n es f : 0 <= es -> 0 <= build n es f < 2 ^ (es * Z.of_nat n).
Proof.
  intros He. induction n as [|n IH]; [cbn [build]; rewrite Z.mul_0_r; cbn; lia|]. cbn [build].
  replace (es * Z.of_nat (S n)) with (es + es * Z.of_nat n) by lia. rewrite Z.pow_add_r by lia.
  assert (0 < 2 ^ es) by (apply Z.pow_pos_nonneg; lia). pose proof (Z.mod_pos_bound (f (Z.of_nat n)) (2 ^ es) ltac:(lia)). nia.
Qed.
Theorem lane_build n es f i : 0 <= es -> 0 <= i < Z.of_nat n -> lane es i (build n es f) = f i mod 2 ^ es.
Proof.
  intros He Hi. unfold lane. induction n as [|n IH]; [lia|]. cbn [build].
  assert (0 < 2 ^ es) as P by (apply Z.pow_pos_nonneg; lia).
  destruct (Z.eq_dec i (Z.of_nat n)) as [->|Hn].
  - assert (0 < 2 ^ (es * Z.of_nat n)) by (apply Z.pow_pos_nonneg; lia). rewrite Z.div_add by lia.
    rewrite (Z.div_small (build n es f)) by (now apply build_bound). cbn [Z.add]. now rewrite Z.mod_mod by lia.
  - rewrite <- IH by lia. assert (0 < 2 ^ (es * i)) by (apply Z.pow_pos_nonneg; lia).
    replace (es * Z.of_nat n) with (es * i + (es + es * (Z.of_nat n - i - 1))) by lia. rewrite Z.pow_add_r, Z.pow_add_r by nia.
    set (q := f (Z.of_nat n) mod 2 ^ es). replace (q * (2 ^ (es * i) * (2 ^ es * 2 ^ (es * (Z.of_nat n - i - 1))))) with (q * 2 ^ (es * (Z.of_nat n - i - 1)) * 2 ^ es * 2 ^ (es * i)) by ring.
    rewrite Z.div_add by lia. now rewrite Z.mod_add by lia.
Qed.
(* what is above the lanes is zero *)
Theorem build_above n es f i : 0 <= es -> Z.of_nat n <= i -> lane es i (build n es f) = 0.
Proof.
  intros He Hi. unfold lane. pose proof (build_bound n es f He). rewrite Z.div_small; [apply Z.mod_0_l; apply Z.pow_nonzero; lia|].
  split; [lia|]. eapply Z.lt_le_trans; [apply H|]. apply Z.pow_le_mono_r; nia.
Qed.
Definition bytes_mem (m : Z -> Z) : Prop := forall a, 0 <= m a < 256.
Lemma load_bound m a n : bytes_mem m -> 0 <= load m a n < 2 ^ (8 * Z.of_nat n).
Proof.
  intros Hb. revert a. induction n as [|n IH]; intros a; [cbn; lia|]. cbn [load]. specialize (IH (a + 1)). specialize (Hb (addr64 a)).
  replace (8 * Z.of_nat (S n)) with (8 + 8 * Z.of_nat n) by lia. rewrite Z.pow_add_r by lia. change (2 ^ 8) with 256. lia.
Qed.
Lemma load_split m a n k : load m a (n + k) = load m a n + 2 ^ (8 * Z.of_nat n) * load m (a + Z.of_nat n) k.
Proof.
  revert a. induction n as [|n IH]; intros a; [change (8 * Z.of_nat 0) with 0; rewrite Z.add_0_r; cbn [load Nat.add]; change (2 ^ 0) with 1; ring|]. cbn [load Nat.add]. rewrite IH.
  replace (8 * Z.of_nat (S n)) with (8 + 8 * Z.of_nat n) by lia. rewrite Z.pow_add_r by lia. change (2 ^ 8) with 256.
  replace (a + 1 + Z.of_nat n) with (a + Z.of_nat (S n)) by lia. ring.
Qed.
(* lane i of a vector loaded from a is what is loaded from its own address *)
Theorem lane_load m a n w i : bytes_mem m -> 0 <= i -> Z.of_nat w * i + Z.of_nat w <= Z.of_nat n ->
  lane (8 * Z.of_nat w) i (load m a n) = load m (a + Z.of_nat w * i) w.
Proof.
  intros Hb Hi Hn. unfold lane. set (p := Z.to_nat (Z.of_nat w * i)). assert (Z.of_nat p = Z.of_nat w * i) as Ep by (unfold p; nia).
  replace n with (p + (w + (n - p - w)))%nat by lia. rewrite !load_split, Ep.
  replace (8 * Z.of_nat w * i) with (8 * (Z.of_nat w * i)) by ring.
  assert (0 < 2 ^ (8 * (Z.of_nat w * i))) by (apply Z.pow_pos_nonneg; nia). assert (0 < 2 ^ (8 * Z.of_nat w)) by (apply Z.pow_pos_nonneg; lia).
  rewrite (Z.mul_comm (2 ^ (8 * (Z.of_nat w * i)))), Z.div_add by lia.
  pose proof (load_bound m a p Hb) as L1. rewrite Ep in L1. rewrite Z.div_small by exact L1. cbn [Z.add].
  rewrite (Z.mul_comm (2 ^ (8 * Z.of_nat w))), Z.mod_add by lia. apply Z.mod_small. now apply load_bound.
Qed.
(* ---- what [means] says of the destination ---- *)
Section Dest.
  Context (o : lop) (es vl imm : Z) (r : Reg) (src : list Operand) (s : st).
  Let ops := (OReg r :: src)%list.
  Let k := pick (map omask ops).
  Let s' := means (MLane o es) vl imm ops s.
  Theorem means_lane i : opmask r = false -> 0 < es -> 0 <= i < vl / es ->
    lane es i (vx s' (regno r)) =
    if (k =? 0) || Z.testbit (vk s k) i
    then apply (fpu (vu s)) o es (pick (map ornd ops)) imm (lane es i (vx s (regno r))) (map (fun q => lane es i (source (MLane o es) vl (existsb bcast ops) s (where_ s q))) src) mod 2 ^ es
    else if existsb ozero ops then 0 else lane es i (vx s (regno r)).
  Proof.
    intros Hr He Hi. unfold s', means, ops. cbn [where_]. rewrite Hr. fold ops. fold k. unfold perform. unfold set_x, set_v, vx at 1. cbn [vu xr upd]. unfold upd. rewrite Z.eqb_refl.
    unfold lanes, esize, one_lane. rewrite lane_build by lia. destruct ((k =? 0) || Z.testbit (vk s k) i) eqn:Ek; cbn beta iota.
    - unfold result. now rewrite !map_map.
    - destruct (k =? 0); [discriminate|]. cbn [negb andb]. destruct (existsb ozero ops); [now apply Z.mod_0_l, Z.pow_nonzero; lia|].
      unfold lane. apply Z.mod_mod, Z.pow_nonzero; lia.
  Qed.
  Theorem means_above i : opmask r = false -> 0 < es -> 0 <= vl -> vl / es <= i -> lane es i (vx s' (regno r)) = 0.
  Proof.
    intros Hr He Hv Hi. unfold s', means, ops. cbn [where_]. rewrite Hr. unfold perform, set_x, set_v, vx at 1. cbn [vu xr upd]. unfold upd. rewrite Z.eqb_refl.
    unfold lanes, esize, one_lane. apply build_above; [lia|]. assert (0 <= vl / es) by (apply Z.div_pos; lia). lia.
  Qed.
  Theorem means_rest : opmask r = false -> rg s' = rg s /\ mm s' = mm s /\ fl s' = fl s /\ vk s' = vk s /\ forall n, n <> regno r -> vx s' n = vx s n.
  Proof.
    intros Hr. unfold s', means, ops. cbn [where_]. rewrite Hr. repeat split. intros n Hn. unfold perform, set_x, set_v, vx at 1. cbn [vu xr]. unfold upd.
    destruct (Z.eqb_spec n (regno r)); [contradiction|reflexivity].
  Qed.
End Dest.
