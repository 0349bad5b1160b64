(* From opRR / opMR to the rows of legacy instructions. *)
From Coq Require Import ZArith List Bool String Lia.
From Verif Require Import Base Types Emit Encode SpecX86 SpecAddr SpecIsa SpecInsn SpecLeg Wf EmitFacts BitFacts MemFacts LegacyFacts VexFacts EncThms.
Import ListNotations.
Open Scope Z_scope.

(* the header depends on the operands through their widths only *)
Definition bw (b k : Z) : bool := has b k.
Definition pfx66b (type b1 b2 : Z) : bool :=
  has type T_66 || ((bw b1 16 && negb (bw b2 i32e)) || (bw b2 16 && negb (bw b1 i32e))).
Definition opcb (type b code : Z) : Z :=
  w8 (code ||| b2z ((((type &&& T_SENTRY) =? 0) || has type T_CODE1_IF1) && negb (bw b 8))).
Lemma pfx66_b type r1 r2 : pfx66 type r1 r2 = pfx66b type (bit_ r1) (bit_ r2). Proof. reflexivity. Qed.
Lemma final_opc_b type r code : final_opc type r code = opcb type (bit_ r) code. Proof. reflexivity. Qed.
(* breg: width of the operand in ModRM.reg, brm: of the one in ModRM.rm *)
Definition hdb (row : lrow) (w type code breg brm : Z) (W : bool) : bool :=
  l_modrm row && w_in (l_osz row) w
  && Bool.eqb (pfx66b type brm breg) (pp_is (l_pp row) P66 || w_66 (l_osz row) w)
  && Bool.eqb (has type T_F2) (pp_is (l_pp row) PF2) && Bool.eqb (has type T_F3) (pp_is (l_pp row) PF3)
  && (getMap type =? l_map row) && w_W (l_osz row) w W
  && (opcb type breg code =? w_opc (l_osz row) w (l_opc row))
  && opcode_ok (getMap type) (opcb type breg code)
  && (negb (has type T_APX) || (getMap type =? 0)).

Definition rr_rex (r1 r2 : Reg) : bool :=
  regHasRex2 r2 || regHasRex2 r1 || (isREGb r2 64 || isREGb r1 64) || bit3 r1 || bit3 r2 || (isExt8bit r2 || isExt8bit r1).
Definition rr_facts (r1 r2 : Reg) (type : Z) (h : header) : Prop :=
  h_rex h = rr_rex r1 r2
  /\ (has type T_ALLOW_DIFF_SIZE = false -> isREG r1 = true -> isREG r2 = true -> bit_ r1 = bit_ r2)
  /\ (has type T_ALLOW_ABCDH = false -> isBadCombination r1 r2 = false /\ isBadCombination r2 r1 = false).

Lemma hdb_split row w type code breg brm W : hdb row w type code breg brm W = true ->
  l_modrm row = true /\ w_in (l_osz row) w = true
  /\ pfx66b type brm breg = pp_is (l_pp row) P66 || w_66 (l_osz row) w
  /\ has type T_F2 = pp_is (l_pp row) PF2 /\ has type T_F3 = pp_is (l_pp row) PF3
  /\ getMap type = l_map row /\ w_W (l_osz row) w W = true
  /\ opcb type breg code = w_opc (l_osz row) w (l_opc row)
  /\ opcode_ok (getMap type) (opcb type breg code) = true
  /\ (has type T_APX = true -> getMap type = 0).
Proof.
  unfold hdb. intros H. do 9 (apply andb_prop in H as [H ?]).
  repeat match goal with Q : Bool.eqb _ _ = true |- _ => apply eqb_prop in Q | Q : (_ =? _) = true |- _ => apply Z.eqb_eq in Q end.
  repeat match goal with |- _ /\ _ => split end; auto.
  intros A. rewrite A in *. cbn [negb orb] in *. lia.
Qed.

Lemma leaf_rr s row w type code r1 r2 env pos i1 u ops imm tail rest :
  (isREG r1 = false -> bit4 r1 = false) -> (isREG r2 = false -> bit4 r2 = false) ->
  emits (opRR r1 r2 type code) env pos i1 u ->
  hdb row w type code (bit_ r1) (bit_ r2) (isREGb r2 64 || isREGb r1 64) = true ->
  (forall d, l_digit row = Some d -> regno r1 = d) ->
  (forall h, rr_facts r1 r2 type h ->
     Forall2 (oper_ok w h (regno r1) (Some (RReg (regno r2) (regno r2)))) (l_ops row) ops) ->
  sized row w ops -> imm_ok (l_imm row) w imm tail ->
  lsays row ops imm (render s i1 ++ tail) rest.
Proof.
  intros H1 H2 H C D F S I. destruct (hdb_split _ _ _ _ _ _ _ C) as (Cm & Cw & C66 & CF2 & CF3 & Cmap & CW & Copc & Cok & Capx).
  rewrite <- final_opc_b in *.
  destruct (opRR_dec s _ _ _ _ _ _ _ (tail ++ rest) _ H1 H2 Capx Cok H) as (h & E & Hh & Hrex & Hsz & Hbad & _).
  exists w, h, (regno r1), (Some (RReg (regno r2) (regno r2))), (h_opc h), tail.
  rewrite Cm. repeat match goal with |- _ /\ _ => split end; auto.
  - eexists; split; [reflexivity|]. rewrite <- app_assoc. exact E.
  - unfold lhead. rewrite Hh.
    cbn [h_space h_map h_opc h_W h_66 h_67 h_F2 h_F3 h_lock h_seg leg_header p_66 p_67 p_F2 p_F3 p_lock p_seg].
    rewrite pfx66_b. repeat match goal with |- _ /\ _ => split end; auto.
  - apply F. unfold rr_facts. auto.
Qed.

Definition mr_rex (addr : Address) (r : Reg) : bool :=
  regHasRex2 r || addrHasRex2 addr || isREGb r 64 || bit3 r
  || bit3 (e_index (getRegExp addr)) || bit3 (e_base (getRegExp addr)) || isExt8bit r.
Definition mr_facts (a : Address) (r : Reg) (type : Z) (h : header) : Prop :=
  h_rex h = mr_rex a r
  /\ (has type T_ALLOW_DIFF_SIZE = false -> bit_ r <= 64 -> 0 < bit_ (a_op a) -> bit_ (a_op a) = bit_ r).

Lemma set_imm_ok a n : mem_ok a -> mem_ok (set_immSize a n).
Proof. intros [[] ]. constructor; auto. constructor; auto. Qed.

Lemma leaf_mr s row w type code a r env pos i1 u ops imm tail rest :
  mem_ok a -> (isREG r = false -> bit4 r = false) ->
  emits (opMR a r type code 0 NONE) env pos i1 u ->
  hdb row w type code (bit_ r) (bit_ (a_op a)) (isREGb r 64) = true ->
  (forall d, l_digit row = Some d -> regno r = d) ->
  (forall h m, mr_facts a r type h -> denotes (a_e a) h m ->
     Forall2 (oper_ok w h (regno r) (Some (RMem m))) (l_ops row) ops) ->
  sized row w ops -> imm_ok (l_imm row) w imm tail ->
  lsays row ops imm (render s i1 ++ tail) rest.
Proof.
  intros A H1 H C D F S I. destruct (hdb_split _ _ _ _ _ _ _ C) as (Cm & Cw & C66 & CF2 & CF3 & Cmap & CW & Copc & Cok & Capx).
  rewrite <- final_opc_b in *.
  destruct (opMR_dec s _ _ _ _ _ _ _ (tail ++ rest) _ (mo_wf _ A) (mo_vsib _ A) (mo_d8 _ A) H1 Capx Cok H) as (h & m & E & M & (Hh & Hrex & _) & (Hsz & _)).
  exists w, h, (regno r), (Some (RMem m)), (h_opc h), tail.
  rewrite Cm. repeat match goal with |- _ /\ _ => split end; auto.
  - eexists; split; [reflexivity|]. rewrite <- app_assoc. exact E.
  - unfold lhead. rewrite Hh.
    cbn [h_space h_map h_opc h_W h_66 h_67 h_F2 h_F3 h_lock h_seg leg_header p_66 p_67 p_F2 p_F3 p_lock p_seg].
    rewrite pfx66_b. repeat match goal with |- _ /\ _ => split end; auto.
  - apply F; [split; auto|]. apply matches_denotes; auto. apply (wm_e _ (mo_wf _ A)). rewrite Hh. reflexivity.
Qed.

(* ---- byte registers ---- *)
Definition not8 (r : Reg) : Prop := bit_ r <> 8.
Lemma rr_byte r1 r2 type h : rr_facts r1 r2 type h -> has type (T_ALLOW_DIFF_SIZE ||| T_ALLOW_ABCDH) = false ->
  gpr r1 -> gpr r2 -> bit_ r1 = 8 ->
  bit_ r2 = 8 /\ byte_meaning r1 = byte_reg (h_rex h) (regno r1) /\ byte_meaning r2 = byte_reg (h_rex h) (regno r2).
Proof.
  intros (Hrex & Hsz & Hbad) Hf G1 G2 B1. rewrite has_lor in Hf. apply orb_false_iff in Hf as [F1 F2].
  assert (B2 : bit_ r2 = 8).
  { rewrite <- B1. symmetry. apply Hsz; auto; unfold isREG, is_; [destruct G1 as [-> _]|destruct G2 as [-> _]]; reflexivity. }
  destruct (Hbad F2) as [C1 C2]. split; auto. split; symmetry.
  - eapply rex_bytes_ok with (r2 := r2); eauto.
  - eapply rex_bytes_ok with (r2 := r1); eauto. rewrite Hrex. unfold rr_rex.
    destruct (regHasRex2 r2), (regHasRex2 r1), (isREGb r2 64), (isREGb r1 64), (bit3 r1), (bit3 r2), (isExt8bit r1), (isExt8bit r2); reflexivity.
Qed.
(* r1 does not need a REX prefix *)
Lemma rr_byte_ext r1 r2 type h : rr_facts r1 r2 type h ->
  regHasRex2 r1 = false -> isREGb r1 64 = false -> bit3 r1 = false -> isExt8bit r1 = false ->
  gpr r2 -> bit_ r2 = 8 -> byte_meaning r2 = byte_reg (h_rex h) (regno r2).
Proof.
  intros (Hrex & _) A1 A2 A3 A4 G B. symmetry. apply byte_ok; auto; rewrite Hrex; unfold rr_rex; rewrite A1, A2, A3, A4.
  - intros ->. rewrite !orb_true_r. reflexivity.
  - intros Hh. destruct (high8_small _ Hh) as (E & B3 & R). rewrite E, B3, R, (reg8_not64 _ B). reflexivity.
Qed.
Lemma high_is r : gpr r -> isHigh8bit r = true -> bit_ r = 8 /\ 4 <= idx_ r < 8.
Proof.
  intros (K & G) H. unfold isHigh8bit in H. apply andb_prop in H as [H Hb]. apply andb_prop in H as [H Ha]. apply andb_prop in H as [H He].
  rewrite regno_getIdx in *. apply negb_true_iff in He. rewrite isExt8bit_bit5 in He. unfold isBit in H.
  destruct G as [[B I]|[B I]].
  - unfold regno in *. rewrite Z.mod_small in * by lia. split; [|lia].
    destruct B as [B|[B|[B|B]]]; rewrite B in *; auto; discriminate H.
  - exfalso. revert He.
    assert (T : Z.testbit (idx_ r) 5 = true). { rewrite Z.testbit_true by lia. replace (idx_ r / 2 ^ 5) with 1; [reflexivity|]. change (2 ^ 5) with 32. apply Z.div_unique with (idx_ r - 32); lia. }
    rewrite T. discriminate.
Qed.

Lemma small_bits r : regno r < 8 -> bit3 r = false /\ bit4 r = false.
Proof.
  intros H. pose proof (regno_split r) as S. pose proof (low3_range r). destruct (bit3 r), (bit4 r); cbn [z01] in S; lia.
Qed.
Lemma small_addr a : regno (e_base (a_e a)) < 8 -> regno (e_index (a_e a)) < 8 ->
  bit3 (e_base (getRegExp a)) = false /\ bit3 (e_index (getRegExp a)) = false /\ addrHasRex2 a = false.
Proof.
  intros B I. destruct (small_bits _ B) as [B3 B4]. destruct (small_bits _ I) as [I3 I4].
  assert (R : addrHasRex2 a = false). { unfold addrHasRex2, regHasRex2. rewrite !isExtIdx2_bit4, B4, I4, !andb_false_r. reflexivity. }
  rewrite R. unfold getRegExp. destruct (a_optimize a); auto. unfold optimize.
  repeat match goal with |- context [if ?c then _ else _] => destruct c end; cbn [e_base e_index]; auto.
Qed.
Lemma mr_byte a r type h ops : mr_facts a r type h -> gpr r -> bit_ r = 8 -> high_ok ops -> In (OReg r) ops -> In (OMem a) ops ->
  byte_meaning r = byte_reg (h_rex h) (regno r).
Proof.
  intros (Hrex & _) G B Hk I1 I2. symmetry. apply byte_ok; auto; rewrite Hrex; unfold mr_rex.
  - intros ->. rewrite !orb_true_r. reflexivity.
  - intros Hh. pose proof (high_is _ G Hh) as Q. destruct (high8_small _ Hh) as (E & B3 & R).
    assert (X : Exists is_high ops) by (apply Exists_exists; exists (OReg r); split; auto).
    specialize (Hk X). rewrite Forall_forall in Hk. specialize (Hk _ I2). cbn beta iota in Hk. destruct Hk as [K1 K2].
    destruct (small_addr _ K1 K2) as (E1 & E2 & E3). rewrite E, B3, R, E1, E2, E3, (reg8_not64 _ B). reflexivity.
Qed.

Lemma isREGb_64 r : isREGb r 64 = true -> gpr r -> bit_ r = 64.
Proof. unfold isREGb, is_. intros H (_ & [[[B|[B|[B|B]]] _]|[B _]]); rewrite B in *; auto; rewrite andb_comm in H; discriminate H. Qed.
(* byte registers under opRR, if the operands are acceptable *)
Lemma rr_byte_ok r1 r2 type h ops : rr_facts r1 r2 type h -> has type T_ALLOW_ABCDH = false ->
  gpr r1 -> gpr r2 -> high_ok ops -> In (OReg r1) ops -> In (OReg r2) ops ->
  (bit_ r1 = 8 -> byte_meaning r1 = byte_reg (h_rex h) (regno r1)) /\ (bit_ r2 = 8 -> byte_meaning r2 = byte_reg (h_rex h) (regno r2)).
Proof.
  intros (Hrex & _ & Hbad) Hf G1 G2 Hk I1 I2. destruct (Hbad Hf) as [C1 C2].
  assert (N64 : forall r, gpr r -> In (OReg r) ops -> Exists is_high ops -> isREGb r 64 = false).
  { intros r G I X. destruct (isREGb r 64) eqn:Q; auto. specialize (Hk X). rewrite Forall_forall in Hk. specialize (Hk _ I). cbn in Hk.
    exfalso. apply Hk. apply isREGb_64; auto. }
  assert (K : forall r r', gpr r -> gpr r' -> In (OReg r) ops -> In (OReg r') ops -> isBadCombination r r' = false ->
     h_rex h = rr_rex r r' \/ h_rex h = rr_rex r' r -> bit_ r = 8 -> byte_meaning r = byte_reg (h_rex h) (regno r)).
  { intros r r' G G' I I' Bad R B. symmetry. apply byte_ok; auto.
    - intros E. destruct R as [-> | ->]; unfold rr_rex; rewrite E, ?orb_true_r; reflexivity.
    - intros Hh. destruct (high8_small _ Hh) as (E & B3 & RX). pose proof (high_is _ G Hh) as HI.
      assert (X : Exists is_high ops) by (apply Exists_exists; exists (OReg r); split; auto).
      unfold isBadCombination in Bad. rewrite Hh in Bad. cbn [andb] in Bad. apply orb_false_iff in Bad as [E2 I3].
      destruct (small_idx_bits _ I3) as [B4 R2].
      destruct R as [-> | ->]; unfold rr_rex; rewrite E, B3, RX, E2, B4, R2, (N64 r), (N64 r'); auto. }
  split; [eapply (K r1 r2)|eapply (K r2 r1)]; auto.
Qed.
Lemma opRR_size r1 r2 type code env pos its u : emits (opRR r1 r2 type code) env pos its u ->
  has type T_ALLOW_DIFF_SIZE = false -> isREG r1 = true -> isREG r2 = true -> bit_ r1 = bit_ r2.
Proof.
  intros H F R1 R2. unfold opRR in H. apply emits_fn in H. rewrite F, R1, R2 in H. cbn [negb andb] in H.
  destruct (getBit r1 =? getBit r2) eqn:Q; cbn [negb] in H; [unfold getBit in Q; lia|einv H].
Qed.
Lemma opMR_size a r type code env pos its u : emits (opMR a r type code 0 NONE) env pos its u ->
  has type T_ALLOW_DIFF_SIZE = false -> bit_ r <= 64 -> 0 < bit_ (a_op a) -> bit_ (a_op a) = bit_ r.
Proof.
  intros H F R1 R2. unfold opMR in H. apply emits_fn in H. cbv zeta in H. cbn [Z.eqb negb] in H.
  ebind H i1 i2 x H1 H2. apply emits_ret in H1 as [-> ->]. destruct (is64bitDisp a); [einv H2|]. rewrite F in H2. cbn [negb andb] in H2.
  unfold getBit, BIT in H2.
  replace (bit_ r <=? 64) with true in H2 by lia. replace (0 <? bit_ (a_op a)) with true in H2 by lia. cbn [andb] in H2.
  destruct (bit_ (a_op a) =? bit_ r) eqn:Q; cbn [negb] in H2; [lia|einv H2].
Qed.
