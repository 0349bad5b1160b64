(* Operand round trips: the encoder helpers against the decoder specification. *)
From Coq Require Import ZArith List Bool Lia.
From Verif Require Import Base Types Emit Encode SpecX86 SpecAddr Wf EmitFacts BitFacts MemFacts LegacyFacts VexFacts.
Import ListNotations.
Open Scope Z_scope.

Lemma getRegExp_uses32 a : uses32 (getRegExp a) = uses32 (a_e a).
Proof. unfold getRegExp. destruct (a_optimize a); auto. apply optimize_uses32. Qed.

Lemma matches_denotes a h m : wf_regexp (a_e a) -> h_67 h = uses32 (a_e a) -> mem_matches (getRegExp a) m ->
  denotes (a_e a) h m.
Proof.
  intros W H M regs rip. rewrite (eff_addr_written _ _ _ _ _ M), getRegExp_written, H; auto.
Qed.

Lemma legacy_mem_lemma s addr r type code env pos its rest u :
  wf_modrm addr -> permitVsib addr = false -> disp8N addr = 0 ->
  (isREG r = false -> bit4 r = false) ->
  (has type T_APX = true -> getMap type = 0) ->
  opcode_ok (getMap type) (final_opc type r code) = true ->
  emits (opMR addr r type code 0 NONE) env pos its u ->
  exists h m, decode false 1 (render s its ++ rest) = Some (h, regno r, RMem m, rest)
   /\ denotes (a_e addr) h m
   /\ h_space h = Legacy /\ h_map h = getMap type /\ h_opc h = final_opc type r code
   /\ h_W h = isREGb r 64 /\ h_66 h = pfx66 type (a_op addr) r
   /\ h_F2 h = has type T_F2 /\ h_F3 h = has type T_F3 /\ h_lock h = false /\ h_seg h = None.
Proof.
  intros Wa Hpv Hd8 Hr Hapx Hopc H.
  destruct (opMR_dec s _ _ _ _ _ _ _ rest _ Wa Hpv Hd8 Hr Hapx Hopc H) as (h & m & D & M & (Hh & _) & _).
  exists h, m. split; auto. split.
  { apply matches_denotes; auto. apply (wm_e _ Wa). rewrite Hh. reflexivity. }
  rewrite Hh. cbn [h_space h_map h_opc h_W h_66 h_F2 h_F3 h_lock h_seg leg_header p_66 p_67 p_F2 p_F3 p_lock p_seg]. auto 12.
Qed.

Lemma byte_ok r rex : gpr r -> bit_ r = 8 -> (isExt8bit r = true -> rex = true) -> (isHigh8bit r = true -> rex = false) ->
  byte_reg rex (regno r) = byte_meaning r.
Proof.
  intros (K & G) B8 He Hh. unfold byte_reg, byte_meaning.
  unfold isHigh8bit, isBit in Hh. rewrite isExt8bit_bit5 in *. rewrite B8, regno_getIdx in Hh. change (has 8 8) with true in Hh.
  destruct G as [[_ I]|[_ I]].
  - assert (T : Z.testbit (idx_ r) 5 = false). { rewrite Z.testbit_false by lia. rewrite Z.div_small by lia. reflexivity. }
    rewrite T in *. replace (idx_ r <? 32) with true by lia. cbn [negb andb] in *.
    destruct ((4 <=? regno r) && (regno r <? 8)) eqn:Q; cbn [andb].
    + rewrite Hh by lia. cbn [negb andb]. rewrite Q. reflexivity.
    + destruct rex; cbn [negb andb]; [reflexivity|]. rewrite Q. reflexivity.
  - assert (T : Z.testbit (idx_ r) 5 = true). { rewrite Z.testbit_true by lia. replace (idx_ r / 2 ^ 5) with 1; [reflexivity|]. change (2 ^ 5) with 32. apply Z.div_unique with (idx_ r - 32); lia. }
    rewrite He by auto. cbn [negb andb]. replace (idx_ r <? 32) with false by lia. reflexivity.
Qed.

Lemma high8_small r : isHigh8bit r = true -> isExt8bit r = false /\ bit3 r = false /\ regHasRex2 r = false.
Proof.
  unfold isHigh8bit. intros H. apply andb_prop in H as [H Hb]. apply andb_prop in H as [H Ha]. apply andb_prop in H as [_ He].
  apply negb_true_iff in He. split; auto. pose proof (idx_split r) as S. pose proof (low3_range r).
  unfold regHasRex2. rewrite isExtIdx2_bit4. destruct (bit3 r), (bit4 r); cbn [z01] in S; lia.
Qed.
Lemma small_idx_bits r : (8 <=? getIdx r) = false -> bit3 r = false /\ regHasRex2 r = false.
Proof.
  intros H. pose proof (idx_split r) as S. pose proof (low3_range r).
  unfold regHasRex2. rewrite isExtIdx2_bit4. destruct (bit3 r), (bit4 r); cbn [z01] in S; lia.
Qed.
Lemma reg8_not64 r : bit_ r = 8 -> isREGb r 64 = false.
Proof. intros B. unfold isREGb, is_. rewrite B. cbn [Z.eqb orb]. apply andb_false_r. Qed.

Lemma rex_bytes_ok r1 r2 rx :
  rx = (regHasRex2 r2 || regHasRex2 r1 || (isREGb r2 64 || isREGb r1 64) || bit3 r1 || bit3 r2
                 || (isExt8bit r2 || isExt8bit r1)) ->
  gpr r1 -> bit_ r1 = 8 -> bit_ r2 = 8 -> isBadCombination r1 r2 = false ->
  byte_reg rx (regno r1) = byte_meaning r1.
Proof.
  intros -> G B1 B2 Bad. apply byte_ok; auto.
  - intros ->. rewrite !orb_true_r. reflexivity.
  - intros Hh. destruct (high8_small _ Hh) as (E & B & R).
    unfold isBadCombination in Bad. rewrite Hh in Bad. cbn [andb] in Bad. apply orb_false_iff in Bad as [E2 I2].
    destruct (small_idx_bits _ I2) as [B3 R2]. rewrite E, B, R, E2, B3, R2, !reg8_not64; auto.
Qed.

Lemma legacy_reg_lemma s r1 r2 type code env pos its rest u :
  (isREG r1 = false -> bit4 r1 = false) -> (isREG r2 = false -> bit4 r2 = false) ->
  (has type T_APX = true -> getMap type = 0) ->
  opcode_ok (getMap type) (final_opc type r1 code) = true ->
  emits (opRR r1 r2 type code) env pos its u ->
  exists h, decode false 1 (render s its ++ rest) = Some (h, regno r1, RReg (regno r2) (regno r2), rest)
   /\ h_space h = Legacy /\ h_map h = getMap type /\ h_opc h = final_opc type r1 code
   /\ h_W h = (isREGb r1 64 || isREGb r2 64) /\ h_66 h = pfx66 type r2 r1 /\ h_67 h = false
   /\ h_F2 h = has type T_F2 /\ h_F3 h = has type T_F3 /\ h_lock h = false /\ h_seg h = None
   /\ (has type T_ALLOW_DIFF_SIZE = false -> isREG r1 = true -> isREG r2 = true -> bit_ r1 = bit_ r2)
   /\ (has type (T_ALLOW_DIFF_SIZE ||| T_ALLOW_ABCDH) = false -> gpr r1 -> gpr r2 -> bit_ r1 = 8 ->
       bit_ r2 = 8 /\ byte_reg (h_rex h) (regno r1) = byte_meaning r1
       /\ byte_reg (h_rex h) (regno r2) = byte_meaning r2).
Proof.
  intros H1 H2 Ha Ho H.
  destruct (opRR_dec s _ _ _ _ _ _ _ rest _ H1 H2 Ha Ho H) as (h & D & Hh & Hrex & Hsz & Hbad & _).
  exists h. split; auto. rewrite (orb_comm (isREGb r1 64)). rewrite Hh at 1 2 3 4 5 6 7 8 9 10.
  cbn [h_space h_map h_opc h_W h_66 h_67 h_F2 h_F3 h_lock h_seg leg_header p_66 p_67 p_F2 p_F3 p_lock p_seg].
  repeat (split; [reflexivity|]). split; auto.
  intros Hf G1 G2 B1. rewrite has_lor in Hf. apply orb_false_iff in Hf as [F1 F2].
  assert (B2 : bit_ r2 = 8).
  { rewrite <- B1. symmetry. apply Hsz; auto; unfold isREG, is_; [destruct G1 as [-> _]|destruct G2 as [-> _]]; reflexivity. }
  destruct (Hbad F2) as [C1 C2].
  split; auto. split.
  - eapply rex_bytes_ok with (r2 := r2); eauto.
  - eapply rex_bytes_ok with (r2 := r1); eauto. rewrite Hrex.
    destruct (regHasRex2 r2), (regHasRex2 r1), (isREGb r2 64), (isREGb r1 64), (bit3 r1), (bit3 r2), (isExt8bit r1), (isExt8bit r2); reflexivity.
Qed.

(* ---- VEX ---- *)
(* what the attribute word of a mnemonic says about the encoding *)
Definition vex_L (type : Z) (r : Reg) : Z := if has type T_L1 then 1 else if has type T_L0 then 0 else if isYMM r then 1 else 0.

Definition vex_says (type code : Z) (r : Reg) (v : option Reg) (h : header) : Prop :=
  h_space h = Vex /\ h_map h = getMap type /\ h_pp h = getPP type /\ h_W h = has type T_W1
  /\ h_opc h = w8 code /\ h_V h = vreg v /\ h_L h = vex_L type r /\ h_66 h = false /\ h_F2 h = false /\ h_F3 h = false
  /\ h_lock h = false /\ h_seg h = None.
Lemma vex_header_says a32 type code r v R X B : vex_says type code r v (vex_header a32 type code r v R X B).
Proof. unfold vex_says, vex_header, vex_L, is_ymm_vl. cbn. repeat split. destruct (has type T_L1), (has type T_L0), (isYMM r); reflexivity. Qed.

Lemma vex_reg_lemma s r p1 base type code imm8 env pos its rest u :
  mods_ok r -> mods_ok base -> omods_ok p1 ->
  uses_evex_reg r p1 base type = false ->
  emits (opVex r p1 (OReg base) type code imm8) env pos its u ->
  exists h, decode false 1 (render s its ++ rest) = Some (h, regno r, RReg (regno base) (regno base), imm_bytes imm8 ++ rest)
    /\ vex_says type code r p1 h.
Proof.
  intros Mr Mb Mp Hu H. destruct (opVex_reg_dec s _ _ _ _ _ _ _ _ _ rest _ Mr Mb Mp H) as (h & g & v & D & _ & _ & _ & Hh).
  rewrite Hu in Hh. destruct Hh as (-> & _ & _ & _ & -> & ->). eexists; split; [exact D|]. apply vex_header_says.
Qed.

Lemma vex_mem_lemma s r p1 addr type code imm8 env pos its rest u :
  wf_modrm addr -> disp8N addr = 0 -> permitVsib addr = false ->
  mods_ok r -> omods_ok p1 -> mods_ok (e_base (getRegExp addr)) -> 0 <= mask_ (a_op addr) < 8 ->
  no_rounding r p1 (e_base (getRegExp addr)) ->
  uses_evex_mem r p1 addr type = false ->
  (isVsib addr = true -> regno (e_index (a_e addr)) < 16) ->
  emits (opVex r p1 (OMem addr) type code imm8) env pos its u ->
  exists h m, decode (isVsib addr) 1 (render s its ++ rest) = Some (h, regno r, RMem m, imm_bytes imm8 ++ rest)
    /\ denotes (a_e addr) h m /\ vex_says type code r p1 h /\ (isVsib addr = true -> has type T_VSIB = true).
Proof.
  intros Wa Hd Hp Mr Mp Mb Mk Hn Hu Hx H.
  assert (X1 : uses_evex_mem r p1 addr type = false -> isVsib addr = true -> bit4 (e_index (getRegExp addr)) = false).
  { intros _ V. specialize (Hx V). pose proof (getRegExp_vsib _ (wm_e _ Wa)) as Q.
    unfold getRegExp in *. destruct (a_optimize addr); [|apply regno_lt16; auto].
    unfold optimize in *. destruct (_ && _) eqn:QQ; [|apply regno_lt16; auto]. cbn. apply regno_lt16; auto. }
  assert (X2 : isVsib addr = true -> uses_evex_mem r p1 addr type = true -> ovb p1 bit4 = false) by congruence.
  destruct (opVex_mem_dec s _ _ _ _ _ _ _ _ _ rest _ Wa Hd Hp Mr Mp Mb Mk Hn X1 X2 H) as (h & m & d8 & D & M & Hh & V).
  unfold vex_mem_header in Hh. rewrite Hu in Hh. destruct Hh as (-> & Eh & _).
  exists h, m. split; auto. split. { apply matches_denotes; auto. apply (wm_e _ Wa). rewrite Eh. reflexivity. }
  split; auto. rewrite Eh. apply vex_header_says.
Qed.

(* ---- EVEX ---- *)
(* tuple type encoded in an attribute word (xbyak.h:1827-1836) *)
Definition tuple_of (type : Z) : tuple :=
  let n := type mod 8 in
  if n =? 7 then TMovddup
  else if n =? 0 then (if Z.testbit type 3 then TFixed 1 else TFull)
  else if Z.testbit type 3 then TPerVL (2 ^ (n - 1)) else TFixed (2 ^ (n - 1)).
(* element size of embedded broadcast: bits 26 and 27 (T_B32, T_B64, both = T_B16) *)
Definition bcast_size (type : Z) : Z :=
  if Z.testbit type 26 then (if Z.testbit type 27 then 2 else 4) else 8.

Lemma has_bit x k : 0 <= k -> has x (2 ^ k) = Z.testbit x k.
Proof. intros H. rewrite <- (Z.mul_1_l (2 ^ k)), <- Z.shiftl_mul_pow2 by auto. now apply has_testbit_pow. Qed.

Lemma low_lor x c : (x ||| c) &&& 15 = ((x mod 16) ||| c) &&& 15.
Proof. rewrite !Z.land_lor_distr_l. f_equal. rewrite !land15. symmetry. apply Z.mod_mod. lia. Qed.
Lemma land_low x m : m &&& 15 = m -> x &&& m = (x mod 16) &&& m.
Proof. intros H. rewrite <- H at 1. rewrite (Z.land_comm m), Z.land_assoc, land15. reflexivity. Qed.

Lemma evexDisp8N_factor type vl b : vl = 128 \/ vl = 256 \/ vl = 512 ->
  evexDisp8N type vl b = disp8_factor (tuple_of type) vl (if b then Some (bcast_size type) else None).
Proof.
  intros Hv. unfold evexDisp8N, disp8_factor, tuple_of, bcast_size. destruct b.
  - assert (E1 : ((type &&& T_B16) =? T_B16) = Z.testbit type 26 && Z.testbit type 27).
    { change T_B16 with (2 ^ 26 ||| 2 ^ 27). rewrite Z.land_lor_distr_r.
      assert (P : forall k, 0 <= k -> type &&& 2 ^ k = if Z.testbit type k then 2 ^ k else 0).
      { intros k Hk. apply Z.bits_inj'. intros n Hn. rewrite Z.land_spec, Z.pow2_bits_eqb by lia.
        destruct (Z.eqb_spec k n) as [<-|Q]; [destruct (Z.testbit type k); cbn [andb]; rewrite ?Z.pow2_bits_eqb, ?Z.eqb_refl, ?Z.bits_0 by lia; reflexivity|].
        rewrite andb_false_r. destruct (Z.testbit type k); rewrite ?Z.pow2_bits_eqb, ?Z.bits_0 by lia; auto. symmetry. now apply Z.eqb_neq. }
      rewrite !P by lia. destruct (Z.testbit type 26), (Z.testbit type 27); reflexivity. }
    rewrite E1. change T_B32 with (2 ^ 26). rewrite has_bit by lia. destruct (Z.testbit type 26), (Z.testbit type 27); reflexivity.
  - assert (T3 : Z.testbit type 3 = Z.testbit (type mod 16) 3). { change 16 with (2 ^ 4). rewrite Z.mod_pow2_bits_low by lia. reflexivity. }
    assert (M8 : type mod 8 = (type mod 16) mod 8). { rewrite <- !land7, <- land15, <- Z.land_assoc. reflexivity. }
    rewrite T3, M8. rewrite (land_low type T_NX_MASK), (land_low type (T_NX_MASK ||| T_N_VL)) by reflexivity.
    set (t := type mod 16). assert (Ht : 0 <= t < 16) by (apply Z.mod_pos_bound; lia).
    assert (L1 : (type ||| T_N16 ||| T_N_VL) &&& T_NX_MASK = (t ||| T_N16 ||| T_N_VL) &&& T_NX_MASK).
    { rewrite !Z.land_lor_distr_l, (land_low type) by reflexivity. reflexivity. }
    assert (L2 : has (type ||| T_N16 ||| T_N_VL) T_N_VL = true).
    { rewrite <- (Z.lor_assoc type). unfold has. rewrite Z.land_lor_distr_l. change ((T_N16 ||| T_N_VL) &&& T_N_VL) with 8.
      rewrite (land_low type) by reflexivity. fold t. clear -Ht.
      assert (K : forallb (fun t => negb ((t &&& T_N_VL ||| 8) =? 0)) (upto 16) = true) by (vm_compute; reflexivity).
      rewrite forallb_forall in K. apply K, upto_in. exact Ht. }
    assert (L3 : has type T_N_VL = has t T_N_VL). { unfold has. rewrite (land_low type) by reflexivity. reflexivity. }
    assert (K : forall f : Z -> Z -> bool, forallb (fun t => forallb (f t) [128; 256; 512]) (upto 16) = true -> f t vl = true).
    { intros f Hf. rewrite forallb_forall in Hf. specialize (Hf t (upto_in 16 t Ht)). rewrite forallb_forall in Hf. apply Hf. destruct Hv as [->|[->| ->]]; cbn; auto. }
    match goal with |- ?l = ?r => assert (Q : l = if (t &&& T_NX_MASK) =? T_DUP then (if vl =? 128 then 8 else if vl =? 256 then 32 else 64) else
       let t' := if (t &&& (T_NX_MASK ||| T_N_VL)) =? 0 then t ||| T_N16 ||| T_N_VL else t in
       let low := t' &&& T_NX_MASK in
       if 0 <? low then (1 <<< (low - 1)) * (if has t' T_N_VL then (if vl =? 512 then 4 else if vl =? 256 then 2 else 1) else 1) else 1) end.
    { cbv zeta. fold t. destruct ((t &&& T_NX_MASK) =? T_DUP); auto.
      destruct ((t &&& (T_NX_MASK ||| T_N_VL)) =? 0) eqn:Z0.
      - rewrite L1, L2. replace (has (t ||| T_N16 ||| T_N_VL) T_N_VL) with true; auto.
        clear -Ht. symmetry. assert (K : forallb (fun t => has (t ||| T_N16 ||| T_N_VL) T_N_VL) (upto 16) = true) by (vm_compute; reflexivity).
        rewrite forallb_forall in K. apply K, upto_in. exact Ht.
      - rewrite L3, (land_low type) by reflexivity. reflexivity. }
    rewrite Q. clear Q L1 L2 L3 T3 M8. apply Z.eqb_eq.
    clearbody t. match goal with |- ?b = true => match (eval pattern t, vl in b) with ?f _ _ => apply (K f) end end.
    vm_compute. reflexivity.
Qed.

Lemma evexDisp8N_small type vl b : vl < 128 -> tuple_of type <> TMovddup -> evexDisp8N type vl b = evexDisp8N type 128 b.
Proof.
  intros Hv Ht. unfold evexDisp8N. destruct b; auto.
  destruct ((type &&& T_NX_MASK) =? T_DUP) eqn:Q.
  - exfalso. apply Ht. unfold tuple_of. cbv zeta. rewrite <- land7. change T_NX_MASK with 7 in Q. rewrite Z.eqb_eq in Q. rewrite Q. reflexivity.
  - replace (vl =? 512) with false by lia. replace (vl =? 256) with false by lia. reflexivity.
Qed.

(* the vector length of an instruction: the largest register width involved, at least 128 *)
Definition veclen (ws : list Z) : Z := fold_right Z.max 128 ws.
Definition ow (v : option Reg) : list Z := match v with Some v => [bit_ v] | None => [] end.
Definition width_ok (w : Z) : Prop := w = 0 \/ w = 8 \/ w = 16 \/ w = 32 \/ w = 64 \/ w = 128 \/ w = 256 \/ w = 512.

Record evex_says (type code : Z) (r : Reg) (v : option Reg) (vl : Z) (h : header) : Prop := {
  ev_space : h_space h = Evex;
  ev_map : h_map h = evex_map type;
  ev_pp : h_pp h = getPP type;
  ev_W : h_W h = has type T_EW1;
  ev_opc : h_opc h = w8 code;
  ev_noP : h_66 h = false /\ h_F2 h = false /\ h_F3 h = false /\ h_lock h = false /\ h_seg h = None
}.

Lemma max_widths r base v x : width_ok (bit_ r) -> width_ok (bit_ base) -> Forall width_ok (ow v) -> width_ok x ->
  let VL := evex_VL r base v x in
  let vl := veclen (bit_ r :: bit_ base :: x :: ow v) in
  (vl = 128 \/ vl = 256 \/ vl = 512) /\ vl = Z.max 128 VL.
Proof.
  intros A B C D VL vl.
  assert (K : forall w m, width_ok w -> m = 128 \/ m = 256 \/ m = 512 -> Z.max w m = 128 \/ Z.max w m = 256 \/ Z.max w m = 512).
  { clear. intros w m [->|[->|[->|[->|[->|[->|[->| ->]]]]]]] [->|[->| ->]]; cbn; auto. }
  split.
  - unfold vl, veclen. cbn [fold_right]. apply K; auto. apply K; auto. apply K; auto.
    destruct v as [v|]; cbn [ow fold_right]; auto. apply K; auto. now inversion C.
  - unfold vl, VL, evex_VL, veclen. clear. destruct v as [v|]; cbn [ow fold_right]; lia.
Qed.
Lemma LL_veclen VL vl : (vl = 128 \/ vl = 256 \/ vl = 512) -> vl = Z.max 128 VL -> LL_of VL = Z.log2 (vl / 128).
Proof.
  intros H1 H2. unfold LL_of. destruct H1 as [-> | [-> | ->]];
    destruct (Z.eqb_spec VL 512), (Z.eqb_spec VL 256); try lia; reflexivity.
Qed.

Lemma evex_mem_lemma s r p1 addr type code imm8 env pos its rest u :
  wf_modrm addr -> disp8N addr = 0 -> permitVsib addr = false ->
  mods_ok r -> omods_ok p1 -> mods_ok (e_base (getRegExp addr)) -> 0 <= mask_ (a_op addr) < 8 ->
  mask_ (e_base (getRegExp addr)) = 0 -> zero_ (e_base (getRegExp addr)) = false ->
  no_rounding r p1 (e_base (getRegExp addr)) ->
  width_ok (bit_ r) -> Forall width_ok (ow p1) ->
  uses_evex_mem r p1 addr type = true ->
  (isVsib addr = true -> ovb p1 bit4 = false) ->
  let vl := veclen (bit_ r :: bit_ (e_base (getRegExp addr)) :: (if isVsib addr then bit_ (e_index (a_e addr)) else 0) :: ow p1) in
  (tuple_of type = TMovddup -> 128 <= bit_ r) ->
  emits (opVex r p1 (OMem addr) type code imm8) env pos its u ->
  exists h m,
    decode (isVsib addr) (disp8_factor (tuple_of type) vl (if a_broadcast addr then Some (bcast_size type) else None))
           (render s its ++ rest) = Some (h, regno r, RMem m, imm_bytes imm8 ++ rest)
    /\ denotes (a_e addr) h m
    /\ evex_says type code r p1 vl h
    /\ h_L h = Z.log2 (vl / 128)
    /\ h_b h = a_broadcast addr
    /\ (isVsib addr = false -> h_V h = vreg p1)
    /\ (isVsib addr = true -> has type T_VSIB = true /\ h_V h mod 16 = vreg p1)
    /\ (a_broadcast addr = true -> has type (T_B32 ||| T_B64) = true)
    /\ agreed (mask_ (a_op addr)) (if mask_ (a_op addr) =? 0 then mask_ r else 0)
              (if mask_ (a_op addr) =? 0 then ovl p1 mask_ else 0) (h_aaa h)
    /\ (mask_ (a_op addr) <> 0 -> has type T_M_K = true)
    /\ h_z h = negb (h_aaa h =? 0) && (zero_ r || ovb p1 zero_).
Proof.
  intros Wa Hd Hp Mr Mp Mb Mk Mb0 Zb0 Hn Wr Wp Hu Hv vl Hdup H.
  assert (X1 : uses_evex_mem r p1 addr type = false -> isVsib addr = true -> bit4 (e_index (getRegExp addr)) = false) by congruence.
  assert (X2 : isVsib addr = true -> uses_evex_mem r p1 addr type = true -> ovb p1 bit4 = false) by auto.
  destruct (opVex_mem_dec s _ _ _ _ _ _ _ _ _ rest _ Wa Hd Hp Mr Mp Mb Mk Hn X1 X2 H) as (h & m & d8 & D & M & Hh & V).
  unfold vex_mem_header in Hh. rewrite Hu in Hh. destruct Hh as (_ & F & Hk & Hb).
  pose proof (getRegExp_wf _ (wm_e _ Wa)) as We.
  assert (Ix : (if isVsib addr then bit_ (e_index (getRegExp addr)) else 0) = (if isVsib addr then bit_ (e_index (a_e addr)) else 0)).
  { destruct (isVsib addr) eqn:Q; auto. unfold getRegExp. destruct (a_optimize addr); auto. unfold optimize.
    destruct (_ && _) eqn:QQ; reflexivity. }
  set (x := if isVsib addr then bit_ (e_index (a_e addr)) else 0) in *.
  assert (Wx : width_ok x).
  { unfold x. destruct (isVsib addr) eqn:Q; [|left; reflexivity].
    destruct (wf_index _ (wm_e _ Wa)) as [Hno|[[Hg|Hvv] _]].
    - destruct Hno as (_ & B & _). rewrite B. left; reflexivity.
    - destruct Hg as (_ & B & _). unfold width_ok. lia.
    - destruct Hvv as ([[_ B]|[[_ B]|[_ B]]] & _); unfold width_ok; lia. }
  assert (Wb : width_ok (bit_ (e_base (getRegExp addr)))).
  { destruct (wf_base _ We) as [Hno|Hg]. destruct Hno as (_ & B & _). rewrite B. left; reflexivity.
    destruct Hg as (_ & B & _). unfold width_ok. lia. }
  destruct (max_widths r (e_base (getRegExp addr)) p1 x Wr Wb Wp Wx) as [Hvl Emax]. fold vl in Hvl, Emax.
  destruct F as [F1 F2 F3 F4 F5 F6 F7 F8 F9 F10 F11 F12 F13]. rewrite Ix in F12, F13.
  set (VL := evex_VL r (e_base (getRegExp addr)) p1 x) in *.
  assert (E8 : d8 = disp8_factor (tuple_of type) vl (if a_broadcast addr then Some (bcast_size type) else None)).
  { rewrite F13, <- evexDisp8N_factor by auto. destruct (Z_lt_le_dec VL 128) as [Q|Q].
    - replace vl with 128 by lia. apply evexDisp8N_small; auto. intros T. specialize (Hdup T). unfold VL, evex_VL in Q. lia.
    - replace vl with VL by lia. reflexivity. }
  exists h, m. rewrite <- E8. split; auto. split. { apply matches_denotes; auto. apply (wm_e _ Wa). tauto. }
  split. { constructor; auto. tauto. }
  split. { rewrite F12. apply LL_veclen; auto. }
  split; auto.
  assert (V16 : ovl p1 regno = vreg p1) by reflexivity.
  assert (VR : 0 <= vreg p1 < 32). { destruct p1; cbn; [apply regno_range|lia]. }
  assert (VB : vreg p1 = (if ovb p1 bit4 then 16 else 0) + vreg p1 mod 16).
  { destruct p1 as [p|]; cbn [ovb vreg]; [|reflexivity]. pose proof (regno_split p) as S. pose proof (low3_range p).
    rewrite S at 2. destruct (bit4 p), (bit3 p); cbn [z01] in *; rewrite ?Z.mul_1_r, ?Z.mul_0_r in *.
    - replace (16 + 8 + low3 p) with (8 + low3 p + 1 * 16) by lia. rewrite Z.mod_add, Z.mod_small by lia. lia.
    - replace (16 + 0 + low3 p) with (low3 p + 1 * 16) by lia. rewrite Z.mod_add, Z.mod_small by lia. lia.
    - rewrite Z.mod_small by lia. lia.
    - rewrite Z.mod_small by lia. lia. }
  split. { intros NV. rewrite F7, NV. cbn [andb]. rewrite orb_false_r, V16. auto. }
  split. { intros V1. split; auto. rewrite F7, V16. rewrite (Hv V1) in *.
    destruct (false || _); rewrite Z.add_mod, Z.mod_mod by lia; rewrite ?Z_mod_same_full, ?Zmod_0_l, ?Z.add_0_l, ?Z.mod_mod by lia; cbn [Z.add] in VB; lia. }
  split; auto.
  split. { rewrite Mb0 in F9. destruct F9 as [Fa Fb]. destruct (Z.eqb_spec (mask_ (a_op addr)) 0) as [Q|Q].
    - rewrite Q. auto.
    - rewrite (Fb Q). unfold agreed. auto 8. }
  split; auto.
  rewrite F10, Zb0, orb_false_r. reflexivity.
Qed.

Lemma vreg_split p1 : vreg p1 = (if ovb p1 bit4 then 16 else 0) + vreg p1 mod 16.
Proof.
  destruct p1 as [p|]; cbn [ovb vreg]; [|reflexivity]. pose proof (regno_split p) as S. pose proof (low3_range p).
  rewrite S at 2. destruct (bit4 p), (bit3 p); cbn [z01] in *; rewrite ?Z.mul_1_r, ?Z.mul_0_r in *.
  - replace (16 + 8 + low3 p) with (8 + low3 p + 1 * 16) by lia. rewrite Z.mod_add, Z.mod_small by lia. lia.
  - replace (16 + 0 + low3 p) with (low3 p + 1 * 16) by lia. rewrite Z.mod_add, Z.mod_small by lia. lia.
  - rewrite Z.mod_small by lia. lia.
  - rewrite Z.mod_small by lia. lia.
Qed.

Lemma evex_reg_lemma s r p1 base type code imm8 env pos its rest u :
  mods_ok r -> mods_ok base -> omods_ok p1 ->
  width_ok (bit_ r) -> width_ok (bit_ base) -> Forall width_ok (ow p1) ->
  uses_evex_reg r p1 base type = true ->
  let vl := veclen (bit_ r :: bit_ base :: 0 :: ow p1) in
  emits (opVex r p1 (OReg base) type code imm8) env pos its u ->
  exists h g v, decode false 1 (render s its ++ rest) = Some (h, regno r, RReg g v, imm_bytes imm8 ++ rest)
    /\ (isSIMD base = true -> v = regno base) /\ (isREG base = true -> g = regno base)
    /\ (regno base < 16 -> g = regno base /\ v = regno base)
    /\ evex_says type code r p1 vl h
    /\ h_V h = vreg p1
    /\ agreed (mask_ base) (mask_ r) (ovl p1 mask_) (h_aaa h)
    /\ h_z h = negb (h_aaa h =? 0) && (zero_ r || zero_ base || ovb p1 zero_)
    /\ exists rnd, agreed (rounding_ r) (rounding_ base) (ovl p1 rounding_) rnd
         /\ (rnd = 0 -> h_b h = false /\ h_L h = Z.log2 (vl / 128))
         /\ (rnd = 5 -> h_b h = true)
         /\ (1 <= rnd <= 4 -> h_b h = true /\ h_L h = rnd - 1).
Proof.
  intros Mr Mb Mp Wr Wb Wp Hu vl H.
  destruct (opVex_reg_dec s _ _ _ _ _ _ _ _ _ rest _ Mr Mb Mp H) as (h & g & v & D & G1 & G2 & G3 & Hh).
  rewrite Hu in Hh. destruct Hh as (_ & d8 & F).
  destruct (max_widths r base p1 0 Wr Wb Wp (or_introl eq_refl)) as [Hvl Emax]. fold vl in Hvl, Emax.
  exists h, g, v. split; auto. split; auto. split; auto.
  split. { intros Q. apply G3. apply regno_lt16; auto. }
  destruct F as [F1 F2 F3 F4 F5 F6 F7 F8 F9 F10 F11 F12 F13 F14].
  split. { constructor; auto. tauto. }
  split. { rewrite F9, orb_false_r. symmetry. apply vreg_split. }
  split. { apply F12. reflexivity. }
  split; auto.
  destruct F14 as (rnd & A & R0 & R5 & R14). exists rnd. split; auto.
  split. { intros Q. destruct (R0 Q) as (B & L & _). split; auto. rewrite L. apply LL_veclen; auto. }
  split. { intros Q. apply R5; auto. } intros Q. destruct (R14 Q) as (B & L & _). auto.
Qed.

(* ---- rip-relative operands ---- *)
Lemma legacy_rip_lemma s addr r type code env pos its rest u :
  wf_rip addr -> permitVsib addr = false ->
  (isREG r = false -> bit4 r = false) ->
  (has type T_APX = true -> getMap type = 0) ->
  opcode_ok (getMap type) (final_opc type r code) = true ->
  emits (opMR addr r type code 0 NONE) env pos its u ->
  exists h d, decode false 1 (render s its ++ rest) = Some (h, regno r, RMem (mkMem BRip None 1 d), rest)
   /\ rip_meaning s env addr (env_top env + (pos + items_size its) + immSize addr) d
   /\ h_space h = Legacy /\ h_map h = getMap type /\ h_opc h = final_opc type r code
   /\ h_W h = isREGb r 64 /\ h_66 h = pfx66 type (a_op addr) r
   /\ h_F2 h = has type T_F2 /\ h_F3 h = has type T_F3 /\ h_67 h = false.
Proof.
  intros Wa Hpv Hr Hapx Hopc H.
  destruct (opMR_rip_dec s _ _ _ _ _ _ _ rest _ Wa Hpv Hr Hapx Hopc H) as (h & d & D & M & (Hh & _) & _).
  exists h, d. split; auto. split; auto. rewrite Hh.
  cbn [h_space h_map h_opc h_W h_66 h_67 h_F2 h_F3 h_lock h_seg leg_header p_66 p_67 p_F2 p_F3 p_lock p_seg].
  repeat (split; [reflexivity|]). destruct Wa as (_ & (_ & B1 & _) & (_ & B2 & _) & _). unfold uses32. rewrite B1, B2. reflexivity.
Qed.
