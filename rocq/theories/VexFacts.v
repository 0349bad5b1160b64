(* Decoding of the VEX and EVEX encodings (opVex). *)
From Coq Require Import ZArith List Bool Lia.
From Verif Require Import Base Types Emit Encode SpecX86 SpecAddr EmitFacts BitFacts Wf MemFacts LegacyFacts.
Import ListNotations.
Open Scope Z_scope.

Definition is_ymm_vl (type : Z) (reg : Reg) : bool :=
  if has type T_L1 then true else if has type T_L0 then false else isYMM reg.
Definition vreg (v : option Reg) : Z := match v with Some v => regno v | None => 0 end.

Lemma lor3_lt16 a b c : 0 <= a -> 0 <= b -> 0 <= c -> (16 <=? (a ||| b ||| c)) = false -> a < 16 /\ b < 16 /\ c < 16.
Proof.
  intros Ha Hb Hc H. apply Z.leb_gt in H.
  assert (0 <= a ||| b) by (apply Z.lor_nonneg; auto).
  apply lor_lt_16 in H as [H H3]; auto. apply lor_lt_16 in H as [H1 H2]; auto.
Qed.
Lemma regno_range r : 0 <= regno r < 32.
Proof. apply Z.mod_pos_bound. lia. Qed.
Lemma regno_lt16 r : regno r < 16 -> bit4 r = false /\ regno r = 8 * z01 (bit3 r) + low3 r.
Proof.
  intros H. rewrite regno_split in *. pose proof (low3_range r). destruct (bit4 r), (bit3 r); cbn [z01] in *; split; auto; lia.
Qed.

Lemma vvvv_bits idx l pp : 0 <= idx < 16 -> 0 <= pp < 4 ->
  let q := ((Z.lnot idx &&& 15) <<< 3) ||| (if l : bool then 4 else 0) ||| pp in
  0 <= q < 128 /\ q / 8 = 15 - idx /\ tb q 2 = l /\ q mod 4 = pp.
Proof.
  intros H Hp.
  assert (S : forallb (fun i => forallb (fun p => forallb (fun l : bool =>
     let q := ((Z.lnot i &&& 15) <<< 3) ||| (if l then 4 else 0) ||| p in
     (0 <=? q) && (q <? 128) && (q / 8 =? 15 - i) && Bool.eqb (tb q 2) l && (q mod 4 =? p)) [true; false]) (upto 4)) (upto 16) = true) by reflexivity.
  pose proof (sweep2 16 4 _ S idx pp H Hp) as T. rewrite forallb_forall in T.
  specialize (T l ltac:(destruct l; simpl; auto)). cbv zeta in *.
  repeat (apply andb_true_iff in T as [T ?]).
  apply Z.leb_le in T. apply Z.ltb_lt in H3. apply Z.eqb_eq in H2, H0. apply Bool.eqb_prop in H1. auto.
Qed.
(* a high bit on top of a 7-bit value *)
Lemma high_bit (b : bool) q : 0 <= q < 128 ->
  w8 ((if b then 0x80 else 0) ||| q) = (if b then 128 else 0) + q /\
  tb ((if b then 128 else 0) + q) 7 = b /\ tb ((if b then 128 else 0) + q) 2 = tb q 2 /\
  ((if b then 128 else 0) + q) / 8 mod 16 = q / 8 /\ ((if b then 128 else 0) + q) mod 4 = q mod 4.
Proof.
  intros H.
  assert (S : forallb (fun q => forallb (fun b : bool => let v := (if b then 128 else 0) + q in
     (w8 ((if b then 0x80 else 0) ||| q) =? v) && Bool.eqb (tb v 7) b && Bool.eqb (tb v 2) (tb q 2)
     && (v / 8 mod 16 =? q / 8) && (v mod 4 =? q mod 4)) [true; false]) (upto 128) = true) by reflexivity.
  pose proof (sweep1 128 _ S q H) as T. rewrite forallb_forall in T.
  specialize (T b ltac:(destruct b; simpl; auto)). cbv zeta in T.
  repeat (apply andb_true_iff in T as [T ?]).
  apply Z.eqb_eq in T, H0, H1. apply Bool.eqb_prop in H2, H3. auto.
Qed.

(* the decoded header of a VEX instruction *)
Definition vex_header (a32 : bool) (type code : Z) (r : Reg) (v : option Reg) (R X B : Z) : header :=
  mkHeader false a32 false false false None Vex true (getMap type) (getPP type) (has type T_W1)
     R X B (vreg v) false (z01 (is_ymm_vl type r)) false false 0 true false false 0 (w8 code).

Lemma getPP_range type : 0 <= getPP type < 4.
Proof. unfold getPP. destruct (has type T_66), (has type T_F3), (has type T_F2); lia. Qed.
Lemma getMap_range type : 0 <= getMap type < 4.
Proof. unfold getMap. destruct (has type T_0F), (has type T_0F38), (has type T_0F3A); lia. Qed.

Lemma vex_dec s reg base v type code x env pos its u a32 :
  emits (vex reg base v type code x) env pos its u ->
  regno reg < 16 /\ regno base < 16 /\ vreg v < 16 /\
  forall rest, dec_header (opt a32 0x67 ++ render s its ++ rest)
    = Some (vex_header a32 type code reg v (8 * z01 (bit3 reg)) (8 * z01 x) (8 * z01 (bit3 base)), rest).
Proof.
  intros H. unfold vex in H. apply emits_fn in H. cbv zeta in H. rewrite !isExtIdx_bit3 in H.
  fold (is_ymm_vl type reg) in H.
  assert (Hv : match v with Some v0 => getIdx v0 | None => 0 end = vreg v).
  { destruct v; simpl; auto. apply regno_getIdx. }
  rewrite Hv, !regno_getIdx in H. clear Hv.
  destruct (16 <=? (vreg v ||| regno reg ||| regno base)) eqn:R; [einv H|].
  pose proof (regno_range reg) as RR1. pose proof (regno_range base) as RR2.
  assert (RR3 : 0 <= vreg v < 32) by (destruct v; simpl; [apply regno_range | lia]).
  apply lor3_lt16 in R as (R1 & R2 & R3); try lia.
  repeat split; auto. intros rest.
  destruct (vvvv_bits (vreg v) (is_ymm_vl type reg) (getPP type) ltac:(lia) (getPP_range type)) as (Q1 & Q2 & Q3 & Q4).
  set (q := ((Z.lnot (vreg v) &&& 15) <<< 3) ||| (if is_ymm_vl type reg then 4 else 0) ||| getPP type) in *.
  assert (P : forall b l, b = 0xC5 \/ b = 0xC4 -> scan_prefixes pfx0 (opt a32 0x67 ++ b :: l) = (mkPfx false a32 false false false None, b :: l)).
  { intros b l Hb. change (opt a32 103) with (pfx_bytes false false false a32). rewrite scan_pfx.
    apply scan_stop. destruct Hb as [-> | ->]; reflexivity. }
  ebind H i1 i2 u1 H1 H2. apply emits_db in H2 as ->. rewrite render_app.
  destruct (negb (bit3 base) && negb x && (b2z (has type T_W1) =? 0) && has type T_0F) eqn:C.
  - apply andb_true_iff in C as [C M]. apply andb_true_iff in C as [C W]. apply andb_true_iff in C as [B X].
    apply negb_true_iff in B, X. apply Z.eqb_eq in W.
    assert (HW : has type T_W1 = false) by (destruct (has type T_W1); auto; discriminate).
    einv H1. rewrite render_app. cbn [render render1 app].
    destruct (high_bit (negb (bit3 reg)) q Q1) as (G1 & G2 & G3 & G4 & G5).
    assert (E1 : w8 ((if bit3 reg then 0 else 128) ||| q) = (if negb (bit3 reg) then 128 else 0) + q).
    { rewrite <- G1. destruct (bit3 reg); reflexivity. }
    rewrite E1. change (w8 197) with 0xC5. clear E1 G1. set (q1 := (if negb (bit3 reg) then 128 else 0) + q) in *. clearbody q1.
    unfold dec_header. rewrite P by auto. cbn -[Z.mul Z.add Z.sub bit3 vex_header tb Z.modulo Z.div w8].
    rewrite G2, G3, G4, G5, Q2, Q3, Q4. unfold vex_header. rewrite negb_involutive, HW, B.
    assert (getMap type = 1) as -> by (unfold getMap; rewrite M; reflexivity).
    replace (15 - (15 - vreg v)) with (vreg v) by lia. reflexivity.
  - ebind H1 i3 i4 u2 H1 H3. apply emits_db in H1 as ->. ebind H3 i5 i6 u3 H1 H3.
    apply emits_db in H1 as ->. apply emits_db in H3 as ->. rewrite !render_app. cbn [render render1 app].
    destruct (high_bit (has type T_W1) q Q1) as (G1 & G2 & G3 & G4 & G5).
    assert (E1 : w8 ((b2z (has type T_W1) <<< 7) ||| q) = (if has type T_W1 then 128 else 0) + q).
    { rewrite <- G1. destruct (has type T_W1); reflexivity. }
    rewrite E1. change (w8 196) with 0xC4. clear E1 G1. set (q1 := (if has type T_W1 then 128 else 0) + q) in *. clearbody q1.
    unfold dec_header. rewrite P by auto. cbn -[Z.mul Z.add Z.sub bit3 vex_header tb Z.modulo Z.div w8 Z.lor].
    rewrite G2, G3, G4, G5, Q2, Q3, Q4. unfold vex_header.
    replace (15 - (15 - vreg v)) with (vreg v) by lia.
    pose proof (getMap_range type) as MR.
    assert (MM : getMap type = 0 \/ getMap type = 1 \/ getMap type = 2 \/ getMap type = 3) by lia.
    destruct (bit3 reg), x, (bit3 base), MM as [-> |[-> |[-> | ->]]]; reflexivity.
Qed.

(* ---- EVEX ---- *)
Definition allb (P : bool -> bool) : bool := P true && P false.
Lemma allb_spec P : allb P = true -> forall b, P b = true.
Proof. unfold allb. intros H. apply andb_true_iff in H as [H1 H2]. now intros []. Qed.

Definition zb (c v : bool) (w : Z) : Z := if v then (if c then 0 else w) else if c then w else 0.
Lemma evex_b1 (R X B Rp b4 : bool) mmm : 0 <= mmm < 8 ->
  let q := w8 ((if R then 0 else 0x80) ||| (if X then 0 else 0x40) ||| (if B then 0 else 0x20)
       ||| (if Rp then 0 else 0x10) ||| (if b4 then 8 else 0) ||| mmm) in
  tb q 7 = negb R /\ tb q 6 = negb X /\ tb q 5 = negb B /\ tb q 4 = negb Rp /\ tb q 3 = b4 /\ q mod 8 = mmm.
Proof.
  intros H.
  assert (S : forallb (fun mmm => allb (fun R => allb (fun X => allb (fun B => allb (fun Rp => allb (fun b4 =>
     let q := w8 ((if R then 0 else 0x80) ||| (if X then 0 else 0x40) ||| (if B then 0 else 0x20)
       ||| (if Rp then 0 else 0x10) ||| (if b4 then 8 else 0) ||| mmm) in
     eqb (tb q 7) (negb R) && eqb (tb q 6) (negb X) && eqb (tb q 5) (negb B) && eqb (tb q 4) (negb Rp)
     && eqb (tb q 3) b4 && (q mod 8 =? mmm))))))) (upto 8) = true) by reflexivity.
  pose proof (sweep1 8 _ S mmm H) as T. cbv beta in T.
  apply allb_spec with (b := R) in T. apply allb_spec with (b := X) in T. apply allb_spec with (b := B) in T.
  apply allb_spec with (b := Rp) in T. apply allb_spec with (b := b4) in T. cbv zeta in *.
  do 5 (apply andb_true_iff in T as [T ?]). apply Z.eqb_eq in H0.
  repeat split; auto using eqb_prop.
Qed.
Lemma evex_b2 (w : bool) idx (u : bool) pp : 0 <= idx < 16 -> 0 <= pp < 4 ->
  let q := w8 ((if w then 0x80 else 0) ||| ((Z.lnot idx &&& 15) <<< 3) ||| (if u then 4 else 0) ||| (pp &&& 3)) in
  tb q 7 = w /\ q / 8 mod 16 = 15 - idx /\ tb q 2 = u /\ q mod 4 = pp.
Proof.
  intros H Hp.
  assert (S : forallb (fun idx => forallb (fun pp => allb (fun w => allb (fun u =>
     let q := w8 ((if w then 0x80 else 0) ||| ((Z.lnot idx &&& 15) <<< 3) ||| (if u then 4 else 0) ||| (pp &&& 3)) in
     eqb (tb q 7) w && (q / 8 mod 16 =? 15 - idx) && eqb (tb q 2) u && (q mod 4 =? pp)))) (upto 4)) (upto 16) = true) by reflexivity.
  pose proof (sweep2 16 4 _ S idx pp H Hp) as T. cbv beta in T.
  apply allb_spec with (b := w) in T. apply allb_spec with (b := u) in T. cbv zeta in *.
  do 3 (apply andb_true_iff in T as [T ?]). apply Z.eqb_eq in H0, H2.
  repeat split; auto using eqb_prop.
Qed.
Lemma evex_b3 (z : bool) LL (b v4 : bool) aaa : 0 <= LL < 4 -> 0 <= aaa < 8 ->
  let q := w8 ((if z then 0x80 else 0) ||| ((LL &&& 3) <<< 5) ||| (if b then 0x10 else 0)
       ||| (if v4 then 0 else 8) ||| (aaa &&& 7)) in
  tb q 7 = z /\ q / 32 mod 4 = LL /\ tb q 4 = b /\ tb q 3 = negb v4 /\ q mod 8 = aaa.
Proof.
  intros H Hp.
  assert (S : forallb (fun LL => forallb (fun aaa => allb (fun z => allb (fun b => allb (fun v4 =>
     let q := w8 ((if z then 0x80 else 0) ||| ((LL &&& 3) <<< 5) ||| (if b then 0x10 else 0)
       ||| (if v4 then 0 else 8) ||| (aaa &&& 7)) in
     eqb (tb q 7) z && (q / 32 mod 4 =? LL) && eqb (tb q 4) b && eqb (tb q 3) (negb v4) && (q mod 8 =? aaa))))) (upto 8)) (upto 4) = true) by reflexivity.
  pose proof (sweep2 4 8 _ S LL aaa H Hp) as T. cbv beta in T.
  apply allb_spec with (b := z) in T. apply allb_spec with (b := b) in T. apply allb_spec with (b := v4) in T. cbv zeta in *.
  do 4 (apply andb_true_iff in T as [T ?]). apply Z.eqb_eq in H0, H3.
  repeat split; auto using eqb_prop.
Qed.

(* modifiers given on the operands: the common non-zero value *)
Definition agreed (a b c v : Z) : Prop :=
  (v <> 0 -> a = v \/ b = v \/ c = v) /\ (a = 0 \/ a = v) /\ (b = 0 \/ b = v) /\ (c = 0 \/ c = v).
Lemma verifyDuplicate_agreed a b c err env pos its v :
  0 <= a -> 0 <= b -> 0 <= c ->
  emits (verifyDuplicate a b c err) env pos its v -> its = [] /\ agreed a b c v.
Proof.
  intros Ha Hb Hc H. unfold verifyDuplicate in H. apply emits_fn in H. cbv zeta in H.
  destruct (_ || _) eqn:Q; [einv H|]. apply emits_ret in H as [-> ->]. split; auto.
  apply orb_false_iff in Q as [Q Q3]. apply orb_false_iff in Q as [Q1 Q2].
  assert (K : forall x v, 0 <= x -> (0 <? x) && negb (x =? v) = false -> x = 0 \/ x = v).
  { intros x v Hx K. destruct (Z.ltb_spec 0 x); simpl in K; [|lia]. apply negb_false_iff, Z.eqb_eq in K. auto. }
  apply K in Q1, Q2, Q3; auto. repeat split; auto.
  intros Hv. destruct Q1 as [A|]; auto. destruct Q2 as [B|]; auto. destruct Q3 as [C|]; auto. exfalso. apply Hv. rewrite A, B, C. reflexivity.
Qed.

Definition ovl (v : option Reg) (f : Reg -> Z) : Z := match v with Some v => f v | None => 0 end.
Definition ovb (v : option Reg) (f : Reg -> bool) : bool := match v with Some v => f v | None => false end.
Definition omods_ok (v : option Reg) : Prop := match v with Some v => mods_ok v | None => True end.
Definition evex_map (type : Z) : Z := getMap type ||| (if has type T_FP16 then 4 else 0).
(* vector length field *)
Definition LL_of (VL : Z) : Z := if VL =? 512 then 2 else if VL =? 256 then 1 else 0.
Lemma LL_of_range VL : 0 <= LL_of VL < 4.
Proof. unfold LL_of. destruct (VL =? 512), (VL =? 256); lia. Qed.
Definition evex_VL (reg base : Reg) (v : option Reg) (VL0 : Z) : Z :=
  Z.max (Z.max (bit_ reg) (bit_ base)) (match v with Some v => Z.max VL0 (bit_ v) | None => VL0 end).

Record evex_fields (reg base : Reg) (v x : option Reg) (b0 hi : bool) (aaa0 VL0 type code : Z) (a32 : bool)
    (h : header) (d8 : Z) : Prop := {
  ef_pfx : h_66 h = false /\ h_67 h = a32 /\ h_F2 h = false /\ h_F3 h = false /\ h_lock h = false /\ h_seg h = None
           /\ h_rex h = true;
  ef_space : h_space h = Evex;
  ef_map : h_map h = evex_map type;
  ef_pp : h_pp h = getPP type;
  ef_W : h_W h = has type T_EW1;
  ef_R : h_R h + low3 reg = regno reg;
  ef_X3 : tb (h_X h) 3 = ovb x bit3 || (isSIMD base && bit4 base);
  ef_B : h_B h = 16 * z01 (isREG base && bit4 base) + 8 * z01 (bit3 base);
  ef_V : h_V h = (if ovb v bit4 || hi then 16 else 0) + ovl v regno mod 16;
  ef_V4 : h_vbit4 h = ovb v bit4 || hi;
  ef_opc : h_opc h = w8 code;
  ef_mask : (aaa0 = 0 -> agreed (mask_ base) (mask_ reg) (ovl v mask_) (h_aaa h)) /\ (aaa0 <> 0 -> h_aaa h = aaa0);
  ef_z : h_z h = negb (h_aaa h =? 0) && (zero_ reg || zero_ base || ovb v zero_);
  ef_round : exists rnd, agreed (rounding_ reg) (rounding_ base) (ovl v rounding_) rnd /\
     (rnd = 0 -> h_b h = b0 /\ h_L h = LL_of (evex_VL reg base v VL0) /\ d8 = evexDisp8N type (evex_VL reg base v VL0) b0
                 /\ h_u h = negb (ovb x isREG && ovb x bit4)
                 /\ h_X h = 16 * z01 (ovb x isREG && ovb x bit4) + 8 * z01 (ovb x bit3 || (isSIMD base && bit4 base))) /\
     (rnd = 5 -> h_b h = true /\ h_L h = 0 /\ d8 = 1) /\
     (1 <= rnd <= 4 -> h_b h = true /\ h_L h = rnd - 1 /\ d8 = 1)
}.

Lemma lnot_land15 x : Z.lnot x &&& 15 = Z.lnot (x mod 16) &&& 15.
Proof.
  change 15 with (Z.ones 4). rewrite !Z.land_ones by lia. unfold Z.lnot. change (2 ^ 4) with 16.
  rewrite <- (Z.opp_involutive x) at 1. rewrite Z.opp_involutive.
  rewrite !Z.sub_1_r || idtac. unfold Z.pred.
  rewrite Zplus_mod, (Zplus_mod (- (x mod 16))). f_equal. f_equal.
  rewrite (Z.mod_eq x 16) by lia. replace (- (x - 16 * (x / 16))) with (- x + (x / 16) * 16) by lia.
  symmetry. apply Z.mod_add. lia.
Qed.
Lemma evex_map_range type : 0 <= evex_map type < 8.
Proof.
  unfold evex_map, getMap. destruct (has type T_0F), (has type T_0F38), (has type T_0F3A), (has type T_FP16); simpl; lia.
Qed.
Lemma agreed_range a b c v lo hi : agreed a b c v -> lo <= 0 <= hi -> lo <= a <= hi -> lo <= b <= hi -> lo <= c <= hi -> lo <= v <= hi.
Proof. intros (H & _) L A B C. destruct (Z.eq_dec v 0); [lia|]. destruct (H n) as [|[|]]; lia. Qed.

Lemma evex_dec s reg base v type code x b0 aaa0 VL0 hi env pos its d8 a32 :
  mods_ok reg -> mods_ok base -> omods_ok v -> 0 <= aaa0 < 8 ->
  emits (evex reg base v type code x b0 aaa0 VL0 hi) env pos its d8 ->
  has type (T_EVEX ||| T_MUST_EVEX) = true /\
  exists h, (forall rest, dec_header (opt a32 0x67 ++ render s its ++ rest) = Some (h, rest))
    /\ evex_fields reg base v x b0 hi aaa0 VL0 type code a32 h d8.
Proof.
  intros [Mr1 Mr2] [Mb1 Mb2] Mv Ha H. unfold evex in H. apply emits_fn in H. cbv zeta in H.
  destruct (has type (T_EVEX ||| T_MUST_EVEX)) eqn:EV; cbn [negb] in H; [|einv H]. split; auto.
  rewrite !isExtIdx_bit3, !isExtIdx2_bit4 in H.
  cbn [negb] in H.
  ebind H i1 i2 rnd H1 H. ebind H i3 i4 p H2 H.
  assert (Mv' : 0 <= ovl v mask_ < 8 /\ 0 <= ovl v rounding_ <= 5) by (destruct v; simpl in *; [exact Mv | lia]).
  destruct Mv' as [Mv1 Mv2].
  apply verifyDuplicate_agreed in H1 as [-> AG]; try lia.
  2: { fold (ovl v rounding_). lia. }
  fold (ovl v rounding_) in AG.
  assert (RR : 0 <= rnd <= 5) by (eapply agreed_range; eauto; lia).
  set (xr := match x with Some x0 => isREG x0 && isExtIdx2 x0 | None => false end) in *.
  assert (Exr : xr = ovb x isREG && ovb x bit4).
  { unfold xr. destruct x; simpl; auto. rewrite isExtIdx2_bit4. auto. }
  (* the second group of fields *)
  assert (G : exists U b LL, p = (if U : bool then 4 else 0, b, LL, snd p) /\ 0 <= LL < 4 /\ i3 = [] /\
     (rnd = 0 -> b = b0 /\ LL = LL_of (evex_VL reg base v VL0) /\ snd p = evexDisp8N type (evex_VL reg base v VL0) b0
                 /\ U = negb xr) /\
     (rnd = 5 -> b = true /\ LL = 0 /\ snd p = 1) /\ (1 <= rnd <= 4 -> b = true /\ LL = rnd - 1 /\ snd p = 1)).
  { destruct (rnd =? 0) eqn:R0; cbn [negb] in H2.
    - apply Z.eqb_eq in R0. apply emits_ret in H2 as [-> ->]. exists (negb xr), b0, (LL_of (evex_VL reg base v VL0)). simpl.
      split. { unfold LL_of, evex_VL, getBit. destruct xr; reflexivity. }
      split. { apply LL_of_range. }
      repeat split; auto; lia.
    - apply Z.eqb_neq in R0. ebind H2 j1 j2 uz J1 J2.
      assert (j1 = []).
      { destruct (rnd =? 5); unfold verifySAE, verifyER in J1; einv J1; auto. }
      subst j1. apply emits_ret in J2 as [-> ->].
      destruct (rnd =? 5) eqn:R5; [apply Z.eqb_eq in R5 | apply Z.eqb_neq in R5].
      + exists (if uz then false else negb xr), true, 0. simpl. repeat split; auto; try lia. destruct uz, xr; reflexivity.
      + exists (if uz then false else negb xr), true, (rnd - 1). simpl. repeat split; auto; try lia. destruct uz, xr; reflexivity. }
  destruct G as (U & b & LL & Ep & HLL & -> & G0 & G5 & G14). rewrite Ep in H. clear H2.
  ebind H i5 i6 aaa H2 H.
  fold (ovl v mask_) in H2.
  assert (AA : i5 = [] /\ 0 <= aaa < 8 /\ (aaa0 = 0 -> agreed (mask_ base) (mask_ reg) (ovl v mask_) aaa) /\ (aaa0 <> 0 -> aaa = aaa0)).
  { destruct (aaa0 =? 0) eqn:A0.
    - apply Z.eqb_eq in A0. apply verifyDuplicate_agreed in H2 as [-> AG2]; try lia.
      split; auto. split; [|split; auto; lia].
      assert (0 <= aaa <= 7); [|lia]. eapply agreed_range; eauto; lia.
    - apply Z.eqb_neq in A0. apply emits_ret in H2 as [-> ->]. repeat split; auto; lia. }
  destruct AA as (-> & RA & AG0 & AG1).
  ebind H j0 j1 u0 J0 H. apply emits_db in J0 as ->.
  ebind H j2 j3 u1 J0 H. apply emits_db in J0 as ->.
  ebind H j4 j5 u2 J0 H. apply emits_db in J0 as ->.
  ebind H j6 j7 u3 J0 H. apply emits_db in J0 as ->.
  ebind H j8 j9 u4 J0 H. apply emits_db in J0 as ->. apply emits_ret in H as [-> Ed8].
  fold (ovb v isExtIdx2) in *. fold (ovb x isExtIdx) in *. fold (ovb v zero_) in *. fold (ovl v getIdx) in *.
  fold (evex_map type) in *. rewrite lnot_land15.
  assert (E1 : ovb v isExtIdx2 = ovb v bit4) by (destruct v; simpl; auto using isExtIdx2_bit4).
  assert (E2 : ovb x isExtIdx = ovb x bit3) by (destruct x; simpl; auto using isExtIdx_bit3).
  assert (E3 : ovl v getIdx = ovl v regno) by (destruct v; simpl; auto using regno_getIdx).
  rewrite E1, E2, E3 in *.
  set (X3 := ovb x bit3 || isSIMD base && bit4 base).
  set (B4 := isREG base && bit4 base). fold (if B4 then 8 else 0).
  set (z := if aaa =? 0 then false else zero_ reg || zero_ base || ovb v zero_).
  destruct (evex_b1 (bit3 reg) X3 (bit3 base) (bit4 reg) B4 (evex_map type) (evex_map_range type)) as (P1 & P2 & P3 & P4 & P5 & P6).
  destruct (evex_b2 (has type T_EW1) (ovl v regno mod 16) U (getPP type) (Z.mod_pos_bound _ 16 ltac:(lia)) (getPP_range type)) as (Q1 & Q2 & Q3 & Q4).
  destruct (evex_b3 z LL b (ovb v bit4 || hi) aaa HLL RA) as (S1 & S2 & S3 & S4 & S5).
  eexists. split.
  { intros rest. rewrite !render_app. cbn [render render1 app].
    set (q1 := w8 (_ ||| evex_map type)) in *. set (q2 := w8 (_ ||| (getPP type &&& 3))) in *. set (q3 := w8 (_ ||| (aaa &&& 7))) in *.
    change (w8 98) with 0x62. unfold dec_header.
    assert (PP : scan_prefixes pfx0 (opt a32 0x67 ++ 0x62 :: q1 :: q2 :: q3 :: w8 code :: rest)
       = (mkPfx false a32 false false false None, 0x62 :: q1 :: q2 :: q3 :: w8 code :: rest)).
    { change (opt a32 103) with (pfx_bytes false false false a32). rewrite scan_pfx. apply scan_stop. reflexivity. }
    rewrite PP. cbn -[Z.mul Z.add Z.sub tb Z.modulo Z.div w8 q1 q2 q3].
    reflexivity. }
  rewrite P1, P2, P3, P4, P5, P6, Q1, Q2, Q3, Q4, S1, S2, S3, S4, S5, !negb_involutive.
  constructor; cbn [h_66 h_67 h_F2 h_F3 h_lock h_seg h_rex h_space h_map h_pp h_W h_R h_X h_B h_V h_vbit4 h_opc h_aaa h_z h_b h_L h_u]; auto 10.
  - rewrite regno_split. unfold z_of, z01. lia.
  - fold X3. destruct U, X3; reflexivity.
  - unfold z_of, z01. destruct (ovb v bit4 || hi); lia.
  - unfold z. destruct (aaa =? 0); reflexivity.
  - exists rnd. split; auto. rewrite <- Exr. fold X3. rewrite Ed8. clear Ed8. repeat split; intros; try (subst rnd).
    + apply G0; auto.
    + apply G0; auto.
    + apply G0; auto.
    + apply G0; auto.
    + destruct (G0 eq_refl) as (_ & _ & _ & ->). rewrite negb_involutive. unfold z_of, z01. lia.
    + apply G5; auto.
    + apply G5; auto.
    + apply G5; auto.
    + apply G14; auto.
    + apply G14; auto.
    + apply G14; auto.
Qed.

Lemma d8_ok_in n : existsb (Z.eqb n) [1; 2; 4; 8; 16; 32; 64; 128] = true -> d8_ok n /\ n <> 0.
Proof.
  intros H. apply existsb_exists in H as (x & Hi & Hx). apply Z.eqb_eq in Hx. subst x. unfold d8_ok.
  simpl in Hi. destruct Hi as [<-|[<-|[<-|[<-|[<-|[<-|[<-|[<-|[]]]]]]]]]; split; auto 12; discriminate.
Qed.
Lemma evexDisp8N_ok type VL b : d8_ok (evexDisp8N type VL b) /\ evexDisp8N type VL b <> 0.
Proof.
  apply d8_ok_in. unfold evexDisp8N. destruct b.
  - destruct (_ =? T_B16); [reflexivity|]. destruct (has type T_B32); reflexivity.
  - destruct (type &&& T_NX_MASK =? T_DUP) eqn:D. { destruct (VL =? 128), (VL =? 256); reflexivity. }
    set (t := if _ =? 0 then _ else type).
    assert (R : 0 <= t &&& T_NX_MASK < 7).
    { unfold t. destruct (type &&& (T_NX_MASK ||| T_N_VL) =? 0) eqn:Q.
      - apply Z.eqb_eq in Q. rewrite Z.land_lor_distr_r in Q. apply Z.lor_eq_0_iff in Q as [Q _].
        rewrite !Z.land_lor_distr_l, Q. split; [discriminate | reflexivity].
      - apply Z.eqb_neq in D. unfold T_NX_MASK, T_DUP in *. rewrite land7 in *.
        pose proof (Z.mod_pos_bound type 8 ltac:(lia)). lia. }
    generalize dependent (t &&& T_NX_MASK). intros n R.
    destruct (0 <? n) eqn:P; [|reflexivity]. apply Z.ltb_lt in P.
    assert (HN : n = 1 \/ n = 2 \/ n = 3 \/ n = 4 \/ n = 5 \/ n = 6) by lia.
    destruct (has t T_N_VL), (VL =? 512), (VL =? 256); destruct HN as [->|[->|[->|[->|[->| ->]]]]]; reflexivity.
Qed.

Lemma wf_modrm_ext a b : a_e a = a_e b -> a_mode a = a_mode b -> kind_ (a_op a) = kind_ (a_op b) -> wf_modrm a -> wf_modrm b.
Proof. intros E1 E2 E3 [A B C D]. split; congruence. Qed.
Lemma mods_no_reg r : no_reg r -> bit3 r = false /\ bit4 r = false.
Proof. apply no_reg_bits. Qed.

Definition imm_bytes (imm8 : Z) : list Z := if imm8 =? NONE then [] else [w8 imm8].
Definition uses_evex_reg (r : Reg) (p1 : option Reg) (base : Reg) (type : Z) : bool :=
  has type T_MUST_EVEX || hasEvex r || ovb p1 hasEvex || hasEvex base.
Definition uses_evex_mem (r : Reg) (p1 : option Reg) (a : Address) (type : Z) : bool :=
  has type (T_MUST_EVEX ||| T_MEM_EVEX) || hasEvex r || ovb p1 hasEvex || a_broadcast a
  || negb (mask_ (a_op a) =? 0) || addrHasRex2 a.

(* register form *)
Lemma opVex_reg_dec s r p1 base type code imm8 env pos its rest u :
  mods_ok r -> mods_ok base -> omods_ok p1 ->
  emits (opVex r p1 (OReg base) type code imm8) env pos its u ->
  exists h g v, decode false 1 (render s its ++ rest) = Some (h, regno r, RReg g v, imm_bytes imm8 ++ rest)
    /\ (isSIMD base = true -> v = regno base) /\ (isREG base = true -> g = regno base)
    /\ (bit4 base = false -> g = regno base /\ v = regno base)
    /\ if uses_evex_reg r p1 base type
       then has type (T_EVEX ||| T_MUST_EVEX) = true /\ exists d8, evex_fields r base p1 None false false 0 0 type code false h d8
       else h = vex_header false type code r p1 (8 * z01 (bit3 r)) 0 (8 * z01 (bit3 base))
            /\ regno r < 16 /\ regno base < 16 /\ vreg p1 < 16 /\ g = regno base /\ v = regno base.
Proof.
  intros Mr Mb Mp H. unfold opVex in H. apply emits_fn in H. ebind H i1 i2 u1 H1 H2.
  apply emits_bind in H1 as (i3 & i4 & u2 & H1 & H3 & ->). apply emits_db in H3 as ->.
  apply (render_when_db s) in H2.
  assert (Himm : render s i2 = imm_bytes imm8) by (rewrite H2; unfold imm_bytes; destruct (imm8 =? NONE); reflexivity).
  destruct (modrm_fields 3 (getIdx r) (getIdx base) ltac:(lia)) as (F1 & F2 & F3).
  fold (ovb p1 hasEvex) in H1. fold (uses_evex_reg r p1 base type) in H1.
  destruct (uses_evex_reg r p1 base type).
  - ebind H1 i5 i6 d8 H4 H5. apply emits_ret in H5 as [-> _].
    apply (evex_dec s _ _ _ _ _ _ _ _ _ _ _ _ _ _ false) in H4 as (HE & h & HH & EF); auto; [|lia].
    exists h, (h_B h + low3 base), (16 * z_of (tb (h_X h) 3) + 8 * z_of (tb (h_B h) 3) + low3 base).
    pose proof (ef_B _ _ _ _ _ _ _ _ _ _ _ _ _ EF) as HB. pose proof (ef_X3 _ _ _ _ _ _ _ _ _ _ _ _ _ EF) as HX.
    cbn [ovb] in HX. rewrite orb_false_l in HX.
    assert (TB : tb (h_B h) 3 = bit3 base).
    { rewrite HB. destruct (isREG base && bit4 base), (bit3 base); reflexivity. }
    split.
    { unfold decode. rewrite !render_app, Himm. cbn [render render1 app]. rewrite <- !app_assoc. cbn [app].
      specialize (HH (w8 (w8 ((3 <<< 6) ||| ((getIdx r &&& 7) <<< 3) ||| (getIdx base &&& 7))) :: imm_bytes imm8 ++ rest)).
      cbn [opt app] in HH. rewrite HH. rewrite (ef_space _ _ _ _ _ _ _ _ _ _ _ _ _ EF).
      rewrite w8_idem. fold (modrm_byte 3 (getIdx r) (getIdx base)).
      unfold dec_rm. cbv zeta. rewrite F1, F2, F3. cbn [Z.eqb Pos.eqb].
      rewrite (ef_space _ _ _ _ _ _ _ _ _ _ _ _ _ EF).
      fold (low3 r) (low3 base). rewrite (ef_R _ _ _ _ _ _ _ _ _ _ _ _ _ EF). reflexivity. }
    rewrite TB, HX, HB. rewrite regno_split. unfold z_of, z01.
    split. { intros ->. reflexivity. } split. { intros ->. reflexivity. }
    split. { intros ->. rewrite !andb_false_r. auto. }
    split; [auto | exists d8; exact EF].
  - apply (vex_dec s _ _ _ _ _ _ _ _ _ _ false) in H1 as (R1 & R2 & R3 & HH).
    exists (vex_header false type code r p1 (8 * z01 (bit3 r)) 0 (8 * z01 (bit3 base))), (regno base), (regno base).
    split.
    { unfold decode. rewrite !render_app, Himm. cbn [render render1 app]. rewrite <- !app_assoc. cbn [app].
      specialize (HH (w8 (w8 ((3 <<< 6) ||| ((getIdx r &&& 7) <<< 3) ||| (getIdx base &&& 7))) :: imm_bytes imm8 ++ rest)).
      cbn [opt app] in HH. rewrite HH. cbn [vex_header h_space z01].
      rewrite w8_idem. fold (modrm_byte 3 (getIdx r) (getIdx base)).
      unfold dec_rm. cbv zeta. rewrite F1, F2, F3. cbn [Z.eqb Pos.eqb].
      cbn [vex_header h_space h_R h_B]. fold (low3 r) (low3 base).
      apply regno_lt16 in R1 as [_ <-]. apply regno_lt16 in R2 as [_ <-]. reflexivity. }
    repeat split; auto.
Qed.

(* facts common to memory operands *)
Lemma addr_gpr_not_simd r : addr_gpr r -> isSIMD r = false.
Proof. intros (H & _). unfold isSIMD, is_. rewrite H. reflexivity. Qed.
Lemma no_reg_not_simd r : no_reg r -> isSIMD r = false.
Proof. intros (H & _). unfold isSIMD, is_. rewrite H. reflexivity. Qed.
Lemma vec_isSIMD r : vec_reg r -> isSIMD r = true /\ isREG r = false.
Proof. intros ([(H & _)|[(H & _)|(H & _)]] & _); unfold isSIMD, isREG, is_; rewrite H; auto. Qed.
Lemma no_reg_isREG r : no_reg r -> isREG r = false.
Proof. intros (H & _). unfold isREG, is_. rewrite H. reflexivity. Qed.
Lemma base_not_simd e : wf_regexp e -> isSIMD (e_base e) = false.
Proof. intros [[H|H] _ _]; auto using addr_gpr_not_simd, no_reg_not_simd. Qed.

(* rounding modifiers are not combined with a memory operand *)
Definition no_rounding (r : Reg) (p1 : option Reg) (base : Reg) : Prop :=
  rounding_ r = 0 /\ rounding_ base = 0 /\ ovl p1 rounding_ = 0.
Lemma agreed_zero v : agreed 0 0 0 v -> v = 0.
Proof. intros (H & _). destruct (Z.eq_dec v 0); auto. specialize (H n). lia. Qed.

Record evex_mem_fields (reg : Reg) (v : option Reg) (a : Address) (type code : Z) (h : header) (d8 : Z) : Prop := {
  em_pfx : h_66 h = false /\ h_67 h = uses32 (a_e a) /\ h_F2 h = false /\ h_F3 h = false /\ h_lock h = false /\ h_seg h = None
           /\ h_rex h = true;
  em_space : h_space h = Evex;
  em_map : h_map h = evex_map type;
  em_pp : h_pp h = getPP type;
  em_W : h_W h = has type T_EW1;
  em_R : h_R h + low3 reg = regno reg;
  em_V : h_V h = (if ovb v bit4 || (isVsib a && bit4 (e_index (getRegExp a))) then 16 else 0) + ovl v regno mod 16;
  em_opc : h_opc h = w8 code;
  em_mask : (mask_ (a_op a) = 0 -> agreed (mask_ (e_base (getRegExp a))) (mask_ reg) (ovl v mask_) (h_aaa h))
            /\ (mask_ (a_op a) <> 0 -> h_aaa h = mask_ (a_op a));
  em_z : h_z h = negb (h_aaa h =? 0) && (zero_ reg || zero_ (e_base (getRegExp a)) || ovb v zero_);
  em_b : h_b h = a_broadcast a;
  em_L : h_L h = LL_of (evex_VL reg (e_base (getRegExp a)) v (if isVsib a then bit_ (e_index (getRegExp a)) else 0));
  em_d8 : d8 = evexDisp8N type (evex_VL reg (e_base (getRegExp a)) v (if isVsib a then bit_ (e_index (getRegExp a)) else 0)) (a_broadcast a)
}.

(* prefix part of the memory form *)
Lemma opVex_mem_split s r p1 addr type code imm8 env pos its u :
  wf_regexp (a_e addr) -> disp8N addr = 0 ->
  mods_ok r -> omods_ok p1 -> mods_ok (e_base (getRegExp addr)) -> 0 <= mask_ (a_op addr) < 8 ->
  no_rounding r p1 (e_base (getRegExp addr)) ->
  (uses_evex_mem r p1 addr type = false -> isVsib addr = true -> bit4 (e_index (getRegExp addr)) = false) ->
  (isVsib addr = true -> uses_evex_mem r p1 addr type = true -> ovb p1 bit4 = false) ->
  emits (opVex r p1 (OMem addr) type code imm8) env pos its u ->
  let e := getRegExp addr in
  exists h d8 addr' i1 i2 i3,
    its = i1 ++ i2 ++ i3 /\ render s i3 = imm_bytes imm8
    /\ emits (opAddr addr' (getIdx r)) env (pos + items_size i1) i2 tt
    /\ addr' = set_immSize (set_disp8N (if has type T_VSIB then set_permitVsib addr else addr) d8)
                           (if imm8 =? NONE then immSize addr else 1)
    /\ (forall rest, dec_header (render s i1 ++ rest) = Some (h, rest))
    /\ h_R h + low3 r = regno r
    /\ (present (e_base e) = true -> h_B h + low3 (e_base e) = regno (e_base e))
    /\ (isVsib addr = false -> h_X h + low3 (e_index e) = regno (e_index e))
    /\ (isVsib addr = true -> (match h_space h with
          | Evex => 16 * z_of (h_vbit4 h) + 8 * z_of (tb (h_X h) 3) + low3 (e_index e)
          | _ => h_X h + low3 (e_index e) end) = regno (e_index e))
    /\ d8_ok d8 /\ h_67 h = uses32 (a_e addr) /\
    if uses_evex_mem r p1 addr type
    then d8 <> 0 /\ has type (T_EVEX ||| T_MUST_EVEX) = true /\ evex_mem_fields r p1 addr type code h d8
         /\ (mask_ (a_op addr) <> 0 -> has type T_M_K = true)
         /\ (a_broadcast addr = true -> has type (T_B32 ||| T_B64) = true)
    else d8 = 0 /\ h = vex_header (uses32 (a_e addr)) type code r p1 (8 * z01 (bit3 r)) (8 * z01 (bit3 (e_index e))) (8 * z01 (bit3 (e_base e)))
         /\ regno r < 16 /\ vreg p1 < 16.
Proof.
  intros Wa Hd8 Mr Mp Mb Mk Hnr Hhv Hpv4 H e. unfold opVex in H. apply emits_fn in H. ebind H i1 i2 u1 H1 H2.
  apply (render_when_db s) in H2.
  assert (Himm : render s i2 = imm_bytes imm8) by (rewrite H2; unfold imm_bytes; destruct (imm8 =? NONE); reflexivity).
  cbv zeta in H1. fold e in H1. ebind H1 i3 i4 u2 H3 H1. ebind H1 i5 i6 d8 H4 H5.
  apply (render_when_db s) in H3. change (w8 103) with 103 in H3.
  fold (ovb p1 hasEvex) in H4. fold (uses_evex_mem r p1 addr type) in H4.
  pose proof (getRegExp_wf _ Wa) as We. fold e in We.
  pose proof (getRegExp_vsib _ Wa) as Hvs. fold e in Hvs. rewrite Hvs in H4.
  pose proof (getRegExp_rex2 _ Wa) as Hr2. fold e in Hr2.
  rewrite isExtIdx2_bit4, isExtIdx_bit3 in H4.
  pose proof (base_not_simd _ We) as NS.
  assert (U32 : is32bit addr = uses32 (a_e addr)) by reflexivity.
  assert (Hsel : forall d, (let addr0 := if has type T_VSIB then set_permitVsib addr else addr in
      let addr1 := if d =? 0 then addr0 else set_disp8N addr0 d in
      if imm8 =? NONE then addr1 else set_immSize addr1 1)
      = set_immSize (set_disp8N (if has type T_VSIB then set_permitVsib addr else addr) d) (if imm8 =? NONE then immSize addr else 1)).
  { intros d. cbv zeta. destruct addr as [ao ae al am ai ad ap ab aopt]. simpl in Hd8. subst ad.
    destruct (has type T_VSIB), (d =? 0) eqn:D, (imm8 =? NONE); try apply Z.eqb_eq in D; subst; reflexivity. }
  cbv zeta in Hsel. rewrite Hsel in H5. clear Hsel.
  assert (Hpos : pos + items_size i3 + items_size i5 = pos + items_size (i3 ++ i5)) by (rewrite items_size_app; lia).
  destruct (uses_evex_mem r p1 addr type) eqn:UE.
  - destruct (negb (mask_ (a_op addr) =? 0) && negb (has type T_M_K)) eqn:C1; [einv H4|].
    destruct (a_broadcast addr && negb (has type (T_B32 ||| T_B64))) eqn:C2; [einv H4|].
    apply (evex_dec s _ _ _ _ _ _ _ _ _ _ _ _ _ _ (is32bit addr)) in H4 as (HE & h & HH & EF); auto.
    destruct (ef_round _ _ _ _ _ _ _ _ _ _ _ _ _ EF) as (rnd & AG & R0 & _ & _).
    destruct Hnr as (N1 & N2 & N3). fold e in N2. rewrite N1, N2, N3 in AG. apply agreed_zero in AG.
    destruct (R0 AG) as (Eb & EL & Ed & Eu & EX). clear R0.
    rewrite NS, andb_false_l, orb_false_r in EX. cbn [ovb] in EX.
    exists h, d8, (set_immSize (set_disp8N (if has type T_VSIB then set_permitVsib addr else addr) d8) (if imm8 =? NONE then immSize addr else 1)),
      (i3 ++ i5), i6, i2.
    split. { rewrite <- !app_assoc. reflexivity. }
    split; auto. split. { rewrite <- Hpos. destruct u1. exact H5. }
    split; auto. split. { intros rest. rewrite render_app, H3, <- app_assoc. apply HH. }
    split. { exact (ef_R _ _ _ _ _ _ _ _ _ _ _ _ _ EF). }
    split. { intros P. rewrite (ef_B _ _ _ _ _ _ _ _ _ _ _ _ _ EF), regno_split.
      destruct (wf_base _ We) as [Hn|Hg]; [rewrite no_reg_present in P; [discriminate|auto]|].
      rewrite addr_gpr_isREG by auto. reflexivity. }
    split. { intros V. rewrite EX, regno_split. destruct (wf_index _ We) as [Hn|[[Hg|Hv] _]].
      - destruct (no_reg_bits _ Hn) as [-> ->]. rewrite andb_false_r. reflexivity.
      - rewrite addr_gpr_isREG by auto. reflexivity.
      - rewrite (vec_isVsib _ Hv) in Hvs. congruence. }
    split. { intros V. rewrite (ef_space _ _ _ _ _ _ _ _ _ _ _ _ _ EF), (ef_V4 _ _ _ _ _ _ _ _ _ _ _ _ _ EF), EX.
      destruct (wf_index _ We) as [Hn|[[Hg|Hv] _]].
      - destruct Hn as (_ & B & _). unfold isVsibE, isBit in Hvs. rewrite B in Hvs. rewrite V in Hvs. discriminate.
      - rewrite (addr_gpr_isVsib _ Hg) in Hvs. congruence.
      - destruct (vec_isSIMD _ Hv) as [-> ->]. rewrite (Hpv4 V eq_refl). cbn [orb andb]. rewrite regno_split. fold e.
        destruct (bit4 (e_index e)), (bit3 (e_index e)); reflexivity. }
    destruct (evexDisp8N_ok type (evex_VL r (e_base e) p1 (if isVsib addr then getBit (e_index e) else 0)) (a_broadcast addr)) as [K1 K2].
    rewrite <- Ed in K1, K2.
    split; auto. split. { apply EF. }
    split; auto. split; auto. split.
    { constructor; try apply EF; auto.
      - rewrite (ef_V _ _ _ _ _ _ _ _ _ _ _ _ _ EF). fold e.
        assert (isSIMD (e_index e) && bit4 (e_index e) = isVsib addr && bit4 (e_index e)) as ->; auto.
        rewrite <- Hvs. destruct (wf_index _ We) as [Hn|[[Hg|Hv] _]].
        + destruct (no_reg_bits _ Hn) as [_ ->]. rewrite !andb_false_r. reflexivity.
        + rewrite (addr_gpr_not_simd _ Hg), (addr_gpr_isVsib _ Hg). reflexivity.
        + destruct (vec_isSIMD _ Hv) as [-> _]. rewrite (vec_isVsib _ Hv). reflexivity. }
    split.
    + intros K. apply Z.eqb_neq in K. rewrite K in C1. simpl in C1. now apply negb_false_iff in C1.
    + intros K. rewrite K in C2. simpl in C2. now apply negb_false_iff in C2.
  - ebind H4 j1 j2 u3 J1 J2. apply emits_ret in J2 as [-> ->]. rewrite app_nil_r in *.
    apply (vex_dec s _ _ _ _ _ _ _ _ _ _ (is32bit addr)) in J1 as (R1 & R2 & R3 & HH).
    assert (AR : addrHasRex2 addr = false).
    { unfold uses_evex_mem in UE. now apply orb_false_iff in UE as [_ UE]. }
    rewrite AR in Hr2. apply orb_false_iff in Hr2 as [_ Hri].
    exists (vex_header (is32bit addr) type code r p1 (8 * z01 (bit3 r)) (8 * z01 (bit3 (e_index e))) (8 * z01 (bit3 (e_base e)))), 0,
      (set_immSize (set_disp8N (if has type T_VSIB then set_permitVsib addr else addr) 0) (if imm8 =? NONE then immSize addr else 1)),
      (i3 ++ j1), i6, i2.
    split. { rewrite <- !app_assoc. reflexivity. }
    split; auto. split. { rewrite <- Hpos. destruct u1. exact H5. }
    split; auto. split. { intros rest. rewrite render_app, H3, <- app_assoc. apply HH. }
    cbn [vex_header h_R h_B h_X h_space h_67].
    split. { symmetry. apply regno_lt16; auto. }
    split. { intros _. symmetry. apply regno_lt16; auto. }
    assert (I16 : isVsib addr = false -> bit4 (e_index e) = false).
    { intros V. apply rex2_false_bit4; auto. intros NR.
      destruct (wf_index _ We) as [Hn|[[Hg|Hv] _]].
      - apply no_reg_bits; auto.
      - rewrite addr_gpr_isREG in NR; [discriminate|auto].
      - rewrite (vec_isVsib _ Hv) in Hvs. congruence. }
    split. { intros V. rewrite regno_split, I16 by auto. reflexivity. }
    split. { intros V. rewrite regno_split. rewrite (Hhv eq_refl V : bit4 (e_index e) = false). reflexivity. }
    split. { left; reflexivity. } repeat split; auto.
Qed.

Definition vex_mem_header (r : Reg) (p1 : option Reg) (addr : Address) (type code : Z) (h : header) (d8 : Z) : Prop :=
  if uses_evex_mem r p1 addr type
  then has type (T_EVEX ||| T_MUST_EVEX) = true /\ evex_mem_fields r p1 addr type code h d8
         /\ (mask_ (a_op addr) <> 0 -> has type T_M_K = true)
         /\ (a_broadcast addr = true -> has type (T_B32 ||| T_B64) = true)
  else d8 = 1 /\ h = vex_header (uses32 (a_e addr)) type code r p1 (8 * z01 (bit3 r))
                       (8 * z01 (bit3 (e_index (getRegExp addr)))) (8 * z01 (bit3 (e_base (getRegExp addr))))
         /\ regno r < 16 /\ vreg p1 < 16.

Lemma opVex_mem_dec s r p1 addr type code imm8 env pos its rest u :
  wf_modrm addr -> disp8N addr = 0 -> permitVsib addr = false ->
  mods_ok r -> omods_ok p1 -> mods_ok (e_base (getRegExp addr)) -> 0 <= mask_ (a_op addr) < 8 ->
  no_rounding r p1 (e_base (getRegExp addr)) ->
  (uses_evex_mem r p1 addr type = false -> isVsib addr = true -> bit4 (e_index (getRegExp addr)) = false) ->
  (isVsib addr = true -> uses_evex_mem r p1 addr type = true -> ovb p1 bit4 = false) ->
  emits (opVex r p1 (OMem addr) type code imm8) env pos its u ->
  exists h m d8,
    decode (isVsib addr) d8 (render s its ++ rest) = Some (h, regno r, RMem m, imm_bytes imm8 ++ rest)
    /\ mem_matches (getRegExp addr) m
    /\ vex_mem_header r p1 addr type code h d8
    /\ (isVsib addr = true -> has type T_VSIB = true).
Proof.
  intros Wa Hd8 Hpv Mr Mp Mb Mk Hnr Hhv Hpv4 H.
  destruct (opVex_mem_split s _ _ _ _ _ _ _ _ _ _ (wm_e _ Wa) Hd8 Mr Mp Mb Mk Hnr Hhv Hpv4 H)
    as (h & d8 & addr' & i1 & i2 & i3 & -> & Himm & H3 & Ea & HH & ER & EB & EX & EV & Kd8 & H67 & Hf).
  assert (Wa' : wf_modrm addr').
  { eapply wf_modrm_ext; [| | |exact Wa]; subst addr'; destruct (has type T_VSIB); reflexivity. }
  assert (Re : getRegExp addr' = getRegExp addr) by (subst addr'; destruct (has type T_VSIB); reflexivity).
  assert (Rv : isVsib addr' = isVsib addr) by (subst addr'; destruct (has type T_VSIB); reflexivity).
  assert (Rd : disp8N addr' = d8) by (subst addr'; destruct (has type T_VSIB); reflexivity).
  assert (Rp : permitVsib addr' = has type T_VSIB || permitVsib addr) by (subst addr'; destruct (has type T_VSIB); reflexivity).
  pose proof (getRegExp_wf _ (wm_e _ Wa)) as We. pose proof (getRegExp_verified _ (wm_ver _ Wa)) as Ve.
  pose proof (getRegExp_vsib _ (wm_e _ Wa)) as Hvs.
  destruct (opAddr_modrm s _ _ _ _ _ _ h (imm_bytes imm8 ++ rest) Wa' H3) as (PV & m & Dm & Mbs & Mi & Ms & Md).
  { rewrite Rd; auto. }
  { rewrite Re. intros P. destruct (wf_index _ We) as [Hn|[[Hg|Hv] _]].
    - assert (V : isVsib addr = false). { rewrite <- Hvs. destruct Hn as (_ & B & _). unfold isVsibE, isBit. rewrite B. reflexivity. }
      specialize (EX V). rewrite regno_split in EX. destruct (no_reg_bits _ Hn) as [B3 B4]. rewrite B3, B4 in EX. cbn in EX. lia.
    - rewrite addr_gpr_present in P; [discriminate|auto].
    - rewrite vec_present in P; [discriminate|auto]. }
  { rewrite Re, Rv. intros V P. rewrite EX by auto. destruct (wf_index _ We) as [Hn|[[Hg|Hv] _]].
    - rewrite no_reg_present in P; [discriminate|auto].
    - rewrite <- regno_getIdx. apply (ver_sp _ Ve); auto.
    - rewrite (vec_isVsib _ Hv) in Hvs. congruence. }
  rewrite Re, Rv, Rd in *.
  exists h, m, (if d8 =? 0 then 1 else d8). split.
  { unfold decode. rewrite !render_app, Himm, <- !app_assoc, HH.
    assert (N : match h_space h with Evex => if d8 =? 0 then 1 else d8 | _ => 1 end = if d8 =? 0 then 1 else d8).
    { destruct (uses_evex_mem r p1 addr type).
      - destruct Hf as (_ & _ & EM & _). rewrite (em_space _ _ _ _ _ _ _ EM). reflexivity.
      - destruct Hf as (-> & -> & _). reflexivity. }
    rewrite N, Dm, mod8_low3, ER. reflexivity. }
  split.
  { split; [|split; [|split]]; auto.
    - rewrite Mbs. unfold mem_base. unfold present in *. unfold getBit. destruct (bit_ (e_base (getRegExp addr)) =? 0); cbn [negb] in *; auto.
      rewrite EB; auto.
    - rewrite Mi. unfold mem_index. unfold present in *. unfold getBit. destruct (bit_ (e_index (getRegExp addr)) =? 0); cbn [negb] in *; auto.
      destruct (isVsib addr); [rewrite EV; auto | rewrite EX; auto]. }
  split.
  { unfold vex_mem_header. destruct (uses_evex_mem r p1 addr type).
    - destruct Hf as (N0 & K1 & K2 & K3 & K4). apply Z.eqb_neq in N0. rewrite N0. auto.
    - destruct Hf as (-> & K). auto. }
  intros V. specialize (PV V). rewrite Rp, Hpv, orb_false_r in PV. exact PV.
Qed.

Lemma opVex_rip_dec s r p1 addr type code imm8 env pos its rest u :
  wf_rip addr -> disp8N addr = 0 -> (imm8 = NONE -> immSize addr = 0) ->
  mods_ok r -> omods_ok p1 -> mods_ok (e_base (getRegExp addr)) -> 0 <= mask_ (a_op addr) < 8 ->
  no_rounding r p1 (e_base (getRegExp addr)) ->
  emits (opVex r p1 (OMem addr) type code imm8) env pos its u ->
  exists h d d8,
    decode false d8 (render s its ++ rest) = Some (h, regno r, RMem (mkMem BRip None 1 d), imm_bytes imm8 ++ rest)
    /\ rip_meaning s env (set_immSize addr (if imm8 =? NONE then 0 else 1)) (env_top env + (pos + items_size its)) d
    /\ vex_mem_header r p1 addr type code h d8.
Proof.
  intros Wa Hd8 Hi0 Mr Mp Mb Mk Hnr H.
  assert (NV : isVsib addr = false) by (apply wf_rip_vsib; auto).
  assert (Hhv : uses_evex_mem r p1 addr type = false -> isVsib addr = true -> bit4 (e_index (getRegExp addr)) = false) by congruence.
  assert (Hpv4 : isVsib addr = true -> uses_evex_mem r p1 addr type = true -> ovb p1 bit4 = false) by congruence.
  destruct (opVex_mem_split s _ _ _ _ _ _ _ _ _ _ (wf_rip_regexp _ Wa) Hd8 Mr Mp Mb Mk Hnr Hhv Hpv4 H)
    as (h & d8 & addr' & i1 & i2 & i3 & -> & Himm & H3 & Ea & HH & ER & EB & EX & EV & Kd8 & H67 & Hf).
  assert (Wa' : wf_rip addr').
  { subst addr'. destruct Wa as (A & B & C & D). destruct (has type T_VSIB); exact (conj A (conj B (conj C D))). }
  destruct (opAddr_rip s _ _ _ _ _ _ h (if d8 =? 0 then 1 else d8) (imm_bytes imm8 ++ rest) Wa' H3) as (d & Dm & Hsz & Hm).
  exists h, d, (if d8 =? 0 then 1 else d8). split.
  { unfold decode. rewrite !render_app, Himm, <- !app_assoc, HH.
    assert (N : match h_space h with Evex => if d8 =? 0 then 1 else d8 | _ => 1 end = if d8 =? 0 then 1 else d8).
    { destruct (uses_evex_mem r p1 addr type).
      - destruct Hf as (_ & _ & EM & _). rewrite (em_space _ _ _ _ _ _ _ EM). reflexivity.
      - destruct Hf as (-> & -> & _). reflexivity. }
    rewrite N, Dm, mod8_low3, ER. reflexivity. }
  split.
  { assert (I3 : items_size i3 = if imm8 =? NONE then 0 else 1).
    { rewrite <- (render_size s), Himm. unfold imm_bytes. destruct (imm8 =? NONE); reflexivity. }
    assert (IM : (if imm8 =? NONE then immSize addr else 1) = if imm8 =? NONE then 0 else 1).
    { destruct (imm8 =? NONE) eqn:Q; auto. apply Hi0. now apply Z.eqb_eq. }
    rewrite IM in Ea.
    assert (Ei : immSize addr' = if imm8 =? NONE then 0 else 1) by (subst addr'; destruct (has type T_VSIB); reflexivity).
    rewrite !items_size_app, I3. rewrite Ei in Hm.
    replace (env_top env + (pos + (items_size i1 + (items_size i2 + (if imm8 =? NONE then 0 else 1)))))
      with (env_top env + (pos + items_size i1) + items_size i2 + (if imm8 =? NONE then 0 else 1)) by lia.
    unfold rip_meaning in *. subst addr'. destruct (has type T_VSIB); exact Hm. }
  unfold vex_mem_header. destruct (uses_evex_mem r p1 addr type).
  - destruct Hf as (N0 & K1 & K2 & K3 & K4). apply Z.eqb_neq in N0. rewrite N0. auto.
  - destruct Hf as (-> & K). auto.
Qed.
