(* Entries of the legacy table: arithmetic, immediates, shifts. *)
From Coq Require Import ZArith List Bool String Lia.
From Verif Require Import Base Types Emit Encode SpecX86 SpecAddr SpecIsa SpecInsn SpecLeg Wf EmitFacts BitFacts MemFacts LegacyFacts VexFacts EncThms LegFacts LegShapes LegGpr LegGpr2.
Import ListNotations.
Open Scope Z_scope.

(* ---- op, op through opRO_MR ---- *)
Definition mr_rows (opc : Z) : list lrow :=
  [orrow NP 0 opc Sv Sv OsB I_none; mkL NP 0 (opc + 2) true None [r_ KG Sv; m_ Sv] OsB I_none].
(* the row with a register or memory operand implies the one with memory only *)
Lemma lsays_mem p map opc dg s1 s2 w i r a imm bs rest :
  lsays (mkL p map opc true dg [r_ KG s1; rm_ KG true s2] w i) [OReg r; OMem a] imm bs rest ->
  lsays (mkL p map opc true dg [r_ KG s1; m_ s2] w i) [OReg r; OMem a] imm bs rest.
Proof.
  intros (w0 & h & reg & rm & opc0 & tail & D & L & Dg & F & S & I). exists w0, h, reg, rm, opc0, tail.
  split; [exact D|]. split; [exact L|]. split; [exact Dg|]. split; [|split; [|exact I]].
  2:{ destruct S as [S|S]; [left; exact S|right]. cbn [l_ops combine] in *. inversion S as [? ? X|? ? X]; subst; [apply Exists_cons_hd; exact X|].
      inversion X as [? ? Y|? ? Y]; subst; [|inversion Y]. apply Exists_cons_tl, Exists_cons_hd. exact Y. }
  cbn [l_ops] in *. inversion F as [|? ? ? ? F1 F2]; subst. inversion F2 as [|? ? ? ? F3 F4]; subst.
  apply Forall2_cons; [exact F1|]. apply Forall2_cons; [|exact F4]. exact F3.
Qed.
Lemma romr_says opc o1 o2 imm env pos its s u rest :
  rochk (orrow NP 0 opc Sv Sv OsB I_none) 0 opc KG KG true Sv Sv c_all w_r = true ->
  rochk (rorow NP 0 (opc + 2) Sv Sv OsB I_none) 0 (opc ||| 2) KG KG true Sv Sv (fun _ m _ => m) w_r = true ->
  larg_ok tO o1 -> larg_ok tE o2 -> high_ok [o1; o2] -> emits (opRO_MR o1 o2 opc) env pos its u ->
  Exists (fun row => lsays row [o1; o2] imm (render s its) rest) (mr_rows opc).
Proof.
  intros C1 C2 A1 A2 Hh H. unfold opRO_MR in H. apply emits_fn in H. destruct o2 as [r2|a2].
  - apply opRO_cond in H as [H Hc].
    assert (X : Exists (fun row => lsays row [o1; OReg r2] imm (render s its) rest) [orrow NP 0 opc Sv Sv OsB I_none]).
    { apply (ro_ok_says _ true r2 o1 imm env pos its s rest Hh).
      eapply ro_ok_intro with (k2 := KG) (m := true); [left; reflexivity|reflexivity|reflexivity|reflexivity|exact C1|exact A2| |reflexivity|exact H].
      destruct o1 as [q|a]; [|exact A1]. apply (kind_gpr _ _ A2 A1). apply Hc. reflexivity. }
    inversion X as [? ? Y|? ? Y]; subst; [|inversion Y]. apply Exists_cons_hd. exact Y.
  - destruct o1 as [r1|a1].
    2:{ assert (N : oREG (OMem a1) = false) by (unfold oREG, isREG, is_; cbn [ob]; rewrite (wm_kind _ (mo_wf _ A1)); reflexivity). rewrite N in H. cbn [negb] in H. einv H. }
    change (oREG (OReg r1)) with (isREG r1) in H. destruct (isREG r1) eqn:R; cbn [negb] in H; [|einv H]. cbn [ob] in H.
    apply opMR_opRO in H. pose proof (any_gpr _ A1 R) as G.
    assert (X : Exists (fun row => lsays row [OReg r1; OMem a2] imm (render s its) rest) [rorow NP 0 (opc + 2) Sv Sv OsB I_none]).
    { apply (ro_ok_says _ false r1 (OMem a2) imm env pos its s rest Hh).
      eapply ro_ok_intro with (k2 := KG) (m := true); [left; reflexivity|reflexivity|reflexivity|reflexivity|exact C2|exact G|exact A2|reflexivity|exact H]. }
    inversion X as [? ? Y|? ? Y]; subst; [|inversion Y]. apply Exists_cons_tl, Exists_cons_hd. apply lsays_mem. exact Y.
Qed.
Lemma romr_entry nm f opc :
  (forall o1 o2, f o1 o2 = opRO_MR o1 o2 opc) ->
  rochk (orrow NP 0 opc Sv Sv OsB I_none) 0 opc KG KG true Sv Sv c_all w_r = true ->
  rochk (rorow NP 0 (opc + 2) Sv Sv OsB I_none) 0 (opc ||| 2) KG KG true Sv Sv (fun _ m _ => m) w_r = true ->
  limplements (mkLE nm [tO; tE] (f_oo f) (mr_rows opc)).
Proof.
  intros E C1 C2 s ops imm act env pos its rest u Hf Ha Hb Hh Hi H. cbn [le_fun le_sig le_rows] in *.
  apply args2 in Ha as (o1 & o2 & -> & A1 & A2). cbn [f_oo] in Hf. injection Hf as <-. rewrite E in H. eapply romr_says; eauto.
Qed.
Lemma is64_no a : mem_ok a -> is64bitDisp a = false.
Proof. intros A. unfold is64bitDisp. rewrite (wm_mode _ (mo_wf _ A)). reflexivity. Qed.
(* mov between registers and memory *)
Lemma mov_entry nm f :
  (forall o1 o2, f o1 o2 = mov_oo o1 o2) -> limplements (mkLE nm [tO; tE] (f_oo f) (mr_rows 0x88)).
Proof.
  intros E s ops imm act env pos its rest u Hf Ha Hb Hh Hi H. cbn [le_fun le_sig le_rows] in *.
  apply args2 in Ha as (o1 & o2 & -> & A1 & A2). cbn [f_oo] in Hf. injection Hf as <-. rewrite E in H.
  unfold mov_oo in H. apply emits_fn in H.
  assert (H' : emits (opRO_MR o1 o2 0x88) env pos its u).
  { destruct o1 as [r1|a1], o2 as [r2|a2]; auto.
    - destruct (isREG r1 && (getIdx r1 =? 0)); auto. rewrite (is64_no _ A2) in H. exact H.
    - destruct (isREG r2 && (getIdx r2 =? 0)); auto. rewrite (is64_no _ A1) in H. exact H. }
  eapply romr_says; eauto; chk.
Qed.
(* xchg *)

(* ---- immediates ---- *)
Lemma le_val_bytes n : forall v, le_val (le_bytes v n) = v mod 256 ^ Z.of_nat n.
Proof.
  induction n; intros v; cbn [le_bytes SpecLeg.le_val]; [now rewrite Z.mod_1_r|].
  rewrite IHn. unfold w8. rewrite Nat2Z.inj_succ, Z.pow_succ_r by lia.
  rewrite (Z.rem_mul_r v 256 (256 ^ Z.of_nat n)); [lia|lia|]. apply Z.pow_pos_nonneg; lia.
Qed.
Lemma le_bytes_byte n : forall v, Forall (fun b => 0 <= b < 256) (le_bytes v n).
Proof. induction n; intros v; cbn [le_bytes]; constructor; auto. unfold w8. apply Z.mod_pos_bound. lia. Qed.
Lemma render_map_db s l : render s (map IDb l) = l.
Proof. induction l; cbn; congruence. Qed.
Lemma dbn_render s c n env pos its u : emits (dbn c n) env pos its u -> 0 <= n -> n <= 8 /\ render s its = le_bytes c (Z.to_nat n).
Proof. intros H N. apply emits_dbn in H as [L ->]. split; auto. rewrite le_bytes_w8, le_bytes_w64 by lia. apply render_map_db. Qed.
(* n bytes of v as a signed number *)
Lemma signed_mod k v : 0 < k -> signed k (v mod 2 ^ k) mod 2 ^ k = v mod 2 ^ k.
Proof.
  intros K. assert (0 < 2 ^ k) by (apply Z.pow_pos_nonneg; lia). unfold signed.
  destruct (v mod 2 ^ k <? 2 ^ (k - 1)); [now rewrite Z.mod_mod by lia|].
  replace (v mod 2 ^ k - 2 ^ k) with (v mod 2 ^ k + -1 * 2 ^ k) by lia. rewrite Z_mod_plus_full. now rewrite Z.mod_mod by lia.
Qed.
Lemma signed_mod' k v : 0 < k -> exists q, signed k (v mod 2 ^ k) = v + q * 2 ^ k.
Proof.
  intros K. assert (0 < 2 ^ k) by (apply Z.pow_pos_nonneg; lia). unfold signed. pose proof (Z.div_mod v (2 ^ k) ltac:(lia)).
  destruct (v mod 2 ^ k <? 2 ^ (k - 1)); [exists (- (v / 2 ^ k))|exists (- (v / 2 ^ k) - 1)]; lia.
Qed.
Definition w_std (w : Z) : Prop := w = 8 \/ w = 16 \/ w = 32 \/ w = 64.
Lemma le_tail k w imm v n :
  Z.of_nat n = imm_len k w ->
  match k with
  | I_none => True | I_1 => imm = 1
  | I_8 => v mod 256 ^ Z.of_nat n = imm mod 256
  | I_d => v mod 256 ^ Z.of_nat n = imm mod 2 ^ 64
  | I_w => v mod 256 ^ Z.of_nat n = imm mod 2 ^ w
  | I_8s => signed 8 (v mod 256 ^ Z.of_nat n) mod 2 ^ w = arg32 imm mod 2 ^ w
  | I_z => signed (Z.min w 32) (v mod 256 ^ Z.of_nat n) mod 2 ^ w = arg32 imm mod 2 ^ w
  | I_q => signed (Z.min w 32) (v mod 256 ^ Z.of_nat n) mod 2 ^ w = imm mod 2 ^ w
  end -> imm_ok k w imm (le_bytes v n).
Proof. intros L V. split; [now rewrite le_bytes_length|]. split; [apply le_bytes_byte|]. rewrite le_val_bytes. exact V. Qed.
(* the immediate of a 32-bit parameter, cut to the operand size *)
Lemma imm_z_ok w imm v n : w_std w -> n = Z.to_nat (Z.min (w / 8) 4) -> v mod 2 ^ 32 = imm mod 2 ^ 32 -> imm_ok I_z w imm (le_bytes v n).
Proof.
  intros W -> V. apply le_tail.
  { cbn [imm_len]. destruct W as [-> | [-> | [-> | ->]]]; reflexivity. }
  unfold arg32. rewrite <- V. 
  destruct W as [-> | [-> | [-> | ->]]]; cbv zeta.
  - change (Z.min 8 32) with 8. change (256 ^ _) with (2 ^ 8). rewrite signed_mod by lia. destruct (signed_mod' 32 v ltac:(lia)) as [q ->].
    replace (v + q * 2 ^ 32) with (v + (q * 2 ^ 24) * 2 ^ 8) by lia. now rewrite Z_mod_plus_full.
  - change (Z.min 16 32) with 16. change (256 ^ _) with (2 ^ 16). rewrite signed_mod by lia. destruct (signed_mod' 32 v ltac:(lia)) as [q ->].
    replace (v + q * 2 ^ 32) with (v + (q * 2 ^ 16) * 2 ^ 16) by lia. now rewrite Z_mod_plus_full.
  - change (Z.min 32 32) with 32. change (256 ^ _) with (2 ^ 32). rewrite !signed_mod by lia. reflexivity.
  - change (Z.min 64 32) with 32. change (256 ^ _) with (2 ^ 32). reflexivity.
Qed.
Lemma imm_8s_ok w imm v : IsInDisp8 v = true -> v mod 2 ^ 32 = imm mod 2 ^ 32 -> imm_ok I_8s w imm (le_bytes v 1).
Proof.
  intros D V. apply le_tail; [reflexivity|]. change (256 ^ Z.of_nat 1) with 256. fold (w8 v). rewrite (disp8_val _ D). unfold arg32. rewrite <- V. reflexivity.
Qed.
Lemma imm_8_byte w imm v : v mod 256 = imm mod 256 -> imm_ok I_8 w imm [w8 v].
Proof. intros V. apply (le_tail I_8 w imm v 1); [reflexivity|]. exact V. Qed.
Lemma imm_1_ok w imm : imm = 1 -> imm_ok I_1 w imm [].
Proof. intros V. exact (le_tail I_1 w imm 0 0 eq_refl V). Qed.

(* ---- one opcode byte after the prefixes: no ModRM ---- *)
Definition opc_facts (r : Reg) (h : header) (o : Z) : Prop :=
  h_rex h = (regHasRex2 r || isREGb r 64 || bit3 r || isExt8bit r) /\ h_opc h = o /\ h_B h + low3 r = regno r.
(* r2 adds nothing to the prefixes *)
Record quiet (r r2 : Reg) : Prop := {
  q_2 : regHasRex2 r2 = false; q_64 : isREGb r2 64 = true -> isREGb r 64 = true; q_8 : isExt8bit r2 = false;
  q_3 : bit3 r2 = false; q_66 : pfx66 0 r r2 = isBit r 16 }.
Lemma quiet_no r : quiet r noReg.
Proof.
  constructor; try reflexivity; [discriminate|]. unfold pfx66. change (has 0 T_66) with false. change (isBit noReg i32e) with false. change (isBit noReg 16) with false.
  cbn [negb orb andb]. rewrite andb_true_r, orb_false_r. reflexivity.
Qed.
Lemma rex_opc_dec s r r2 o env pos i1 x2 tail :
  (isREG r = false -> bit4 r = false) -> quiet r r2 -> opcode_ok 0 o = true -> emits (rex (OReg r) (OReg r2) 0) env pos i1 x2 ->
  exists h, dec_header (render s i1 ++ o :: tail) = Some (h, tail) /\ opc_facts r h o
    /\ h_space h = Legacy /\ h_66 h = isBit r 16 /\ h_F2 h = false /\ h_F3 h = false /\ h_lock h = false /\ h_seg h = None
    /\ h_map h = 0 /\ h_W h = isREGb r 64 /\ (bit4 r2 = false -> h_R h = 0).
Proof.
  intros R4 Q Ho H. apply (rex_reg s) in H as (NF1 & _ & ZU1 & _ & Hx2 & _ & f & Hpre & Hrf).
  rewrite (q_2 _ _ Q), orb_false_r in Hx2.
  assert (W : isREGb r 64 || isREGb r2 64 = isREGb r 64).
  { destruct (isREGb r2 64) eqn:W2; [rewrite (q_64 _ _ Q W2); reflexivity|apply orb_false_r]. }
  rewrite W, (q_8 _ _ Q), orb_false_r in Hrf. rewrite (q_66 _ _ Q) in Hpre.
  change (has 0 T_0F) with false in Hrf. change (has 0 T_F2) with false in Hpre. change (has 0 T_F3) with false in Hpre.
  destruct Hrf as (FW & FR & FX & FB & Frex & Fk).
  assert (M : map_ok f 0).
  { destruct f; cbn [map_ok]; auto. destruct x2.
    - destruct Fk as (? & ? & ? & ? & ? & ? & ? & Fk). injection Fk as -> _ _ _ _ _ _ _. reflexivity.
    - exfalso. eapply Fk. reflexivity. }
  assert (Es : esc_bytes f 0 = []) by (destruct f; reflexivity).
  pose proof (dec_header_legacy (isBit r 16) false false false f 0 o tail M Ho) as D. rewrite Es in D. cbn [app] in D.
  rewrite Hpre, <- app_assoc. eexists. split; [exact D|].
  unfold opc_facts. cbn [h_rex h_opc h_B h_space h_map h_W h_66 h_67 h_F2 h_F3 h_lock h_seg leg_header p_66 p_67 p_F2 p_F3 p_lock p_seg].
  split; [split; [|split; [reflexivity|]]|].
  - rewrite Frex, Hx2, (q_3 _ _ Q). change (bit3 noReg) with false. rewrite !orb_false_r. reflexivity.
  - rewrite FB, regno_split, Hx2. destruct (regHasRex2 r) eqn:R2; [lia|]. rewrite (rex2_false_bit4 _ R2 R4). cbn [z01]. lia.
  - repeat match goal with |- _ /\ _ => split end; auto.
    intros R2. cbn [h_R leg_header]. rewrite FR, (q_3 _ _ Q), R2. destruct x2; reflexivity.
Qed.
Lemma leaf_opc s row w r r2 o env pos i1 x2 ops imm tail rest :
  (isREG r = false -> bit4 r = false) -> quiet r r2 -> emits (rex (OReg r) (OReg r2) 0) env pos i1 x2 ->
  l_modrm row = false -> l_digit row = None -> opcode_ok 0 o = true ->
  w_in (l_osz row) w = true -> isBit r 16 = pp_is (l_pp row) P66 || w_66 (l_osz row) w ->
  pp_is (l_pp row) PF2 = false -> pp_is (l_pp row) PF3 = false -> l_map row = 0 -> w_W (l_osz row) w (isREGb r 64) = true ->
  (if existsb (fun o => match o_at o with InOpc => true | _ => false end) (l_ops row) then o - o mod 8 else o) = w_opc (l_osz row) w (l_opc row) ->
  (forall h reg, opc_facts r h o -> Forall2 (oper_ok w h reg None) (l_ops row) ops) ->
  sized row w ops -> imm_ok (l_imm row) w imm tail ->
  lsays row ops imm (render s i1 ++ o :: tail) rest.
Proof.
  intros R4 Q H M D Ho Hw H66 HF2 HF3 Hmap HW Hopc F S I.
  destruct (rex_opc_dec s r r2 o env pos i1 x2 (tail ++ rest) R4 Q Ho H) as (h & E & Fh & E1 & E2 & E3 & E4 & E5 & E6 & E7 & E8 & _).
  exists w, h, 0, None, (w_opc (l_osz row) w (l_opc row)), tail. rewrite M, D.
  split; [split; [|split; [reflexivity|]]|].
  - rewrite <- app_assoc. cbn [app]. exact E.
  - rewrite (proj1 (proj2 Fh)). symmetry. exact Hopc.
  - split; [unfold lhead; repeat match goal with |- _ /\ _ => split end; auto; try congruence|].
    split; [discriminate|]. split; [apply F; exact Fh|]. auto.
Qed.

(* ---- accumulator forms ---- *)
Definition acc_ (s : osize) := mkOper (Implied 0) (Some KG) false s.
Definition accrow (opc : Z) (i : immk) : lrow := mkL NP 0 opc false None [acc_ Sv] OsB i.
Lemma gpr_std r : gpr r -> w_std (bit_ r). Proof. intros G. pose proof (gpr_bits _ G) as Q. cbn in Q. unfold w_std. intuition. Qed.
Lemma idx0_low r : gpr r -> getIdx r = 0 -> bit_ r = 8 -> byte_meaning r = BLow 0.
Proof.
  intros G I B. assert (X : byte_meaning r = byte_reg false (regno r)).
  { symmetry. apply byte_ok; auto. intros E. destruct G as [_ G]. rewrite isExt8bit_bit5 in E. unfold getIdx in I. rewrite land31 in I.
    destruct G as [[_ G]|[_ G]]; [|exfalso; change 32 with (28 + 4) in *; destruct (Z.eq_dec (idx_ r) 32); [lia|]; replace (idx_ r) with (idx_ r - 32 + 1 * 32) in I by lia; rewrite Z_mod_plus_full, Z.mod_small in I; lia].
    rewrite Z.mod_small in I by lia. rewrite I in E. discriminate. }
  rewrite X. rewrite <- regno_getIdx, I. reflexivity.
Qed.
Lemma acc_says s r opc i o env pos i1 x2 imm tail rest :
  gpr r -> getIdx r = 0 -> emits (rex (OReg r) noOp 0) env pos i1 x2 ->
  opcode_ok 0 o = true -> o = (if bit_ r =? 8 then opc else opc + 1) ->
  imm_ok i (bit_ r) imm tail -> lsays (accrow opc i) [OReg r] imm (render s i1 ++ o :: tail) rest.
Proof.
  intros G I0 H Ho Eo Hi.
  assert (N : isREG r = false -> bit4 r = false) by (apply (in_file_bit4 KG); exact G).
  refine (leaf_opc s (accrow opc i) (bit_ r) r noReg o env pos i1 x2 [OReg r] imm tail rest N (quiet_no _) H eq_refl eq_refl Ho _ _ eq_refl eq_refl eq_refl _ _ _ _ Hi);
    cbn [accrow l_osz l_pp l_ops l_opc acc_ existsb o_at orb w_opc].
  - destruct (gpr_std _ G) as [-> | [-> | [-> | ->]]]; reflexivity.
  - unfold isBit. change (getBit r) with (bit_ r). destruct (gpr_std _ G) as [-> | [-> | [-> | ->]]]; reflexivity.
  - rewrite (in_file_REGb KG _ G). destruct (gpr_std _ G) as [-> | [-> | [-> | ->]]]; reflexivity.
  - exact Eo.
  - intros h reg Fh. apply Forall2_cons; [|apply Forall2_nil]. unfold oper_ok. cbn [acc_ o_at o_reg o_mem o_size].
    split; [exists KG; split; [reflexivity|exact G]|]. split; [reflexivity|]. split; [now rewrite <- regno_getIdx|]. intros B. now apply idx0_low.
  - right. apply Exists_cons_hd. split; reflexivity.
Qed.

(* ---- op, imm: add .. cmp ---- *)
Definition rmrow (p : ppfx) (map opc d : Z) (w : wsize) (i : immk) : lrow := mkL p map opc true (Some d) [rm_ KG true Sv] w i.
Definition alu_rows (d : Z) : list lrow :=
  [rmrow NP 0 0x80 d OsB I_z; rmrow NP 0 0x83 d OsV I_8s; accrow (8 * d + 4) I_z].
Lemma verify_split op env pos its u : emits (verifyMemHasSize op) env pos its u -> its = [] /\ (isMEM op = true -> bit_ (ob op) <> 0).
Proof.
  intros H. unfold verifyMemHasSize in H. apply emits_fn in H. change (ogetBit op) with (bit_ (ob op)) in H.
  destruct (isMEM op && (bit_ (ob op) =? 0)) eqn:V; [einv H|]. apply emits_ret in H as [-> _]. split; auto.
  intros M. rewrite M in V. cbn [andb] in V. lia.
Qed.
Definition immBit (op : Operand) (imm : Z) : Z :=
  let b := bit_ (ob op) in
  if b =? 8 then 8 else if IsInDisp8 imm then 8 else if b =? 16 then 16 else 32.
Lemma getImmBit_split op imm env pos its n :
  In (bit_ (ob op)) [0; 8; 16; 32; 64] -> (isMEM op = false -> bit_ (ob op) <> 0) -> emits (getImmBit op imm) env pos its n ->
  its = [] /\ n = immBit op imm /\ (isMEM op = true -> bit_ (ob op) <> 0) /\ (bit_ (ob op) = 16 -> isInDisp16relaxed imm = true \/ IsInDisp8 imm = true).
Proof.
  intros S N H. unfold getImmBit in H. apply emits_fn in H. ebind H i1 i2 x H1 H2. apply verify_split in H1 as [-> H1]. cbv zeta in H2.
  unfold oBit, isBit in H2. change (getBit (ob op)) with (bit_ (ob op)) in H2. change (ogetBit op) with (bit_ (ob op)) in H2.
  assert (Z0 : bit_ (ob op) <> 0) by (destruct (isMEM op); auto).
  unfold immBit. cbn in S. destruct S as [S|[S|[S|[S|[S|[]]]]]]; rewrite <- S in *; try (exfalso; apply Z0; reflexivity);
    destruct (IsInDisp8 imm) eqn:D8; destruct (isInDisp16relaxed imm) eqn:D16; cbn in H2; try (einv H2; fail);
    apply emits_ret in H2 as [-> ->]; repeat match goal with |- _ /\ _ => split end; auto; intros; discriminate.
Qed.
Definition rxchk_all (row : lrow) (type code : Z) (cond : bool -> Z -> bool) : bool :=
  rextchk row type code false 0 true Sv cond (fun _ b => b).
Lemma std_op op : cls_op tO op -> In (bit_ (ob op)) [0; 8; 16; 32; 64] -> (isMEM op = true -> bit_ (ob op) <> 0) -> (isMEM op = false -> gpr (ob op)) -> w_std (bit_ (ob op)).
Proof. intros A S M G. unfold w_std. cbn in S. destruct op as [q|a]; cbn [ob isMEM] in *; [destruct (gpr_std _ (G eq_refl)); auto|]. specialize (M eq_refl). intuition. Qed.
(* the rows for the value imm: the short form exactly when it fits *)
Definition fits8 (imm : Z) : bool := (-128 <=? arg32 imm) && (arg32 imm <? 128).
Definition alu_pick (d w imm : Z) : list lrow :=
  if (w =? 8) || negb (fits8 imm) then [rmrow NP 0 0x80 d OsB I_z; accrow (8 * d + 4) I_z] else [rmrow NP 0 0x83 d OsV I_8s].
Lemma fits8_disp imm : IsInDisp8 (w32 (w32 imm)) = fits8 imm.
Proof.
  unfold IsInDisp8, fits8, arg32, signed, w32. rewrite !Z.mod_mod by lia. change (2 ^ 32) with 4294967296. change (2 ^ (32 - 1)) with 2147483648.
  pose proof (Z.mod_pos_bound imm 4294967296 ltac:(lia)). destruct (imm mod 4294967296 <? 2147483648) eqn:Q; lia.
Qed.
Lemma alu_form op d code imm s env pos its rest u :
  larg_ok (tOp [0; 8; 16; 32; 64]) op -> emits (opOI op (w32 imm) code d) env pos its u -> 0 <= d < 8 -> code = 8 * d ->
  rxchk_all (rmrow NP 0 0x80 d OsB I_z) 0 0x80 (fun _ b => existsb (Z.eqb b) [8; 16; 32; 64]) = true ->
  rxchk_all (rmrow NP 0 0x83 d OsV I_8s) 0 0x82 (fun _ b => existsb (Z.eqb b) [16; 32; 64]) = true ->
  (w8 (code ||| 4 ||| 0) =? 8 * d + 4) && (w8 (code ||| 4 ||| 1) =? 8 * d + 5) && opcode_ok 0 (8 * d + 4) && opcode_ok 0 (8 * d + 5) = true ->
  Exists (fun row => lsays row [op] imm (render s its) rest) (alu_pick d (bit_ (ob op)) imm).
Proof.
  intros A H Hd -> C1 C2 C3.
  unfold opOI in H. cbv zeta in H. ebind H i1 i2 n H1 H2. ebind H2 i3 i4 x H3 H4. 
  do 3 (apply andb_prop in C3 as [C3 ?]).
  (* the operand is a general register or memory with a size *)
  assert (K : exists jj, (isMEM op = true \/ isREG (ob op) = true) /\ i3 = jj).
  { exists i3. split; auto. destruct op as [q|a]; [right; cbn [ob]|left; reflexivity].
    destruct (isREG q) eqn:R; auto. exfalso. change (oREG (OReg q)) with (isREG q) in H3. rewrite R in H3. cbn [andb] in H3.
    unfold opRext in H3. apply emits_fn in H3. cbv zeta in H3. ebind H3 j1 j2 dn J1 J2. change (has 0 T_APX) with false in J1. cbn [andb] in J1.
    apply emits_ret in J1 as [-> ->]. unfold isREGb, is_ in J2. unfold isREG, is_ in R. rewrite R in J2. cbn [andb] in J2. einv J2. }
  destruct K as (_ & K & _).
  pose proof (tOp_op _ _ A) as O.
  assert (G : isMEM op = false -> gpr (ob op)).
  { intros M. destruct op as [q|]; [|discriminate]. destruct K as [K|K]; [discriminate|]. apply any_gpr; auto. }
  assert (S : In (bit_ (ob op)) [0; 8; 16; 32; 64]).
  { destruct op as [q|a]; [pose proof (gpr_bits _ (G eq_refl)) as Q; cbn in Q |- *; intuition|exact (proj2 A)]. }
  apply getImmBit_split in H1 as (-> & -> & Mz & D16); auto.
  2:{ intros M. destruct (gpr_std _ (G M)) as [-> | [-> | [-> | ->]]]; discriminate. }
  pose proof (std_op op O S Mz G) as W. set (b := bit_ (ob op)) in *.
  cbn [app items_size] in *. rewrite Z.add_0_r in H3, H4.
  apply (dbn_render s) in H4 as [_ R4]; [|unfold immBit; fold b; destruct W as [-> | [-> | [-> | ->]]]; destruct (IsInDisp8 _); vm_compute; discriminate].
  rewrite render_app, R4. clear R4.
  assert (V : w32 (w32 imm) mod 2 ^ 32 = imm mod 2 ^ 32) by (unfold w32; rewrite !Z.mod_mod by lia; reflexivity).
  match type of H3 with emits (if ?c then _ else _) _ _ _ _ => destruct c eqn:Acc end.
  - apply andb_prop in Acc as [Acc Ab]. apply andb_prop in Acc as [Ra I0]. change (ogetBit op) with b in Ab.
    destruct op as [q|a]; [|exfalso; unfold oREG, isREG, is_ in Ra; cbn [ob] in Ra; rewrite (wm_kind _ (mo_wf _ O)) in Ra; discriminate].
    specialize (G eq_refl). cbn [ob] in G. ebind H3 k1 k2 y J1 J2. apply emits_db in J2 as ->. rewrite render_app. cbn [render render1 app]. rewrite <- app_assoc. cbn [app].
    assert (IB : immBit (OReg q) (w32 (w32 imm)) = Z.min b 32).
    { unfold immBit in *. fold b in Ab |- *.
      destruct (oBit (OReg q) 64), W as [W|[W|[W|W]]]; rewrite W in *; destruct (IsInDisp8 (w32 (w32 imm))); try reflexivity; vm_compute in Ab; discriminate. }
    assert (Pk : alu_pick d b imm = [rmrow NP 0 0x80 d OsB I_z; accrow (8 * d + 4) I_z]).
    { unfold alu_pick. rewrite <- fits8_disp. unfold immBit in IB. fold b in IB.
      destruct W as [W|[W|[W|W]]]; rewrite W in *; [reflexivity|destruct (IsInDisp8 (w32 (w32 imm))); [discriminate IB|reflexivity]..]. }
    rewrite Pk. apply Exists_cons_tl, Exists_cons_hd.
    eapply (acc_says s q (8 * d + 4) I_z _ _ _ _ _ imm _ rest G); [unfold ogetIdx in I0; cbn [ob] in I0; lia|exact J1| | |].
    + rewrite IB. destruct W as [-> | [-> | [-> | ->]]]; cbn [Z.eqb Z.min Z.compare Pos.compare Pos.compare_cont Pos.eqb];
        repeat match goal with Q : (_ =? _) = true |- _ => apply Z.eqb_eq in Q; rewrite Q end; auto.
    + rewrite IB. change (bit_ q) with b. clearbody b.
      destruct W as [-> | [-> | [-> | ->]]]; cbn [Z.eqb Z.min Z.compare Pos.compare Pos.compare_cont Pos.eqb];
        repeat match goal with Q : (_ =? _) = true |- _ => apply Z.eqb_eq in Q; rewrite Q end; lia.
    + apply imm_z_ok; [exact W|rewrite IB; change (bit_ q) with b; clearbody b; f_equal; destruct W as [-> | [-> | [-> | ->]]]; reflexivity|exact V].
  - assert (P : forall row code', In row (alu_pick d b imm) -> l_ops row = [rm_ KG true Sv] -> l_digit row = Some d ->
       forall cond, rxchk_all row 0 code' cond = true -> cond (isMEM op) b = true ->
       emits (opRext op 0 d 0 code' false (immBit op (w32 (w32 imm)) / 8) None) env pos i3 x ->
       imm_ok (l_imm row) b imm (le_bytes (w32 (w32 imm)) (Z.to_nat (immBit op (w32 (w32 imm)) / 8))) ->
       Exists (fun row => lsays row [op] imm (render s i3 ++ le_bytes (w32 (w32 imm)) (Z.to_nat (immBit op (w32 (w32 imm)) / 8))) rest) (alu_pick d b imm)).
    { intros row code' Hin L D cond C Hc HH Ii. apply Exists_exists. exists row. split; auto.
      eapply (rext_gen s row true Sv 0 code' false d 0 op _ [] []); eauto. }
    change (ogetBit op) with b in H3.
    assert (IB : immBit op (w32 (w32 imm)) = 8 /\ b <> 8 /\ IsInDisp8 (w32 (w32 imm)) = true \/ immBit op (w32 (w32 imm)) = Z.min b 32 /\ (b = 8 \/ IsInDisp8 (w32 (w32 imm)) = false)).
    { unfold immBit. fold b. destruct W as [W|[W|[W|W]]]; rewrite W; destruct (IsInDisp8 (w32 (w32 imm))); cbn [Z.eqb Pos.eqb]; auto; left; repeat split; auto; discriminate. }
    destruct IB as [(IB & B8 & D8)|(IB & B8)].
    + eapply (P (rmrow NP 0 0x83 d OsV I_8s)); [unfold alu_pick; rewrite <- fits8_disp, D8; replace (b =? 8) with false by lia; left; reflexivity|reflexivity|reflexivity|exact C2| | |].
      * cbv beta. destruct W as [-> | [-> | [-> | ->]]]; try reflexivity. exfalso; apply B8; reflexivity.
      * rewrite IB in H3 |- *. replace (8 <? Z.min b 32) with true in H3; [exact H3|]. destruct W as [-> | [-> | [-> | ->]]]; try reflexivity. exfalso; apply B8; reflexivity.
      * rewrite IB. apply imm_8s_ok; auto.
    + eapply (P (rmrow NP 0 0x80 d OsB I_z)); [unfold alu_pick; rewrite <- fits8_disp; destruct B8 as [-> | ->]; [|rewrite orb_true_r]; left; reflexivity|reflexivity|reflexivity|exact C1| | |].
      * cbv beta. destruct W as [-> | [-> | [-> | ->]]]; reflexivity.
      * rewrite IB in H3 |- *. rewrite Z.ltb_irrefl in H3. exact H3.
      * rewrite IB. apply imm_z_ok; auto. f_equal. clearbody b. destruct W as [-> | [-> | [-> | ->]]]; reflexivity.
Qed.

Lemma alu_pick_rows d w imm row : In row (alu_pick d w imm) -> In row (alu_rows d).
Proof. unfold alu_pick, alu_rows. destruct (_ || _); cbn; tauto. Qed.
Lemma alu_entry nm f d code :
  (forall op imm, f op imm = opOI op (w32 imm) code d) -> 0 <= d < 8 -> code = 8 * d ->
  rxchk_all (rmrow NP 0 0x80 d OsB I_z) 0 0x80 (fun _ b => existsb (Z.eqb b) [8; 16; 32; 64]) = true ->
  rxchk_all (rmrow NP 0 0x83 d OsV I_8s) 0 0x82 (fun _ b => existsb (Z.eqb b) [16; 32; 64]) = true ->
  (w8 (code ||| 4 ||| 0) =? 8 * d + 4) && (w8 (code ||| 4 ||| 1) =? 8 * d + 5) && opcode_ok 0 (8 * d + 4) && opcode_ok 0 (8 * d + 5) = true ->
  limplements (mkLE nm [tOp [0; 8; 16; 32; 64]] (f_oi f) (alu_rows d)).
Proof.
  intros E Hd Hc C1 C2 C3 s ops imm act env pos its rest u Hf Ha Hb Hh Hi H. cbn [le_fun le_sig le_rows] in *.
  apply args1 in Ha as (op & -> & A). cbn [f_oi] in Hf. injection Hf as <-. rewrite E in H.
  pose proof (alu_form op d code imm s env pos its rest u A H Hd Hc C1 C2 C3) as X.
  apply Exists_exists in X as (row & Hin & L). apply Exists_exists. exists row. split; [eapply alu_pick_rows; eauto|exact L].
Qed.

(* the operand of an opRext call without a width mask *)
Lemma rext_reg op bit ext type code dis n env pos its u q :
  emits (opRext op bit ext type code dis n None) env pos its u -> has type T_APX && hasRex2NFZU op = false -> op = OReg q -> isREGb q bit = true.
Proof.
  intros H Hx ->. unfold opRext in H. apply emits_fn in H. cbv zeta in H. cbn [orb] in H. rewrite Hx in H. ebind H j1 j2 dn J1 J2.
  apply emits_ret in J1 as [-> ->]. destruct (isREGb q bit); auto. einv J2.
Qed.
(* mul, div, neg, not *)
Lemma ext1_entry nm f row d type code bit sizes cond wsel m s1 :
  (forall op, f op = opRext op bit d type code false 0 None) -> 0 <= d < 8 ->
  l_ops row = [rm_ KG m s1] -> l_digit row = Some d -> l_imm row = I_none ->
  rextchk row type code false bit m s1 cond wsel = true ->
  (forall b, In b sizes -> cond true b = true) -> (forall b, In b [8; 16; 32; 64] -> cond false b = true) ->
  limplements (mkLE nm [tOl sizes] (f_o f) [row]).
Proof.
  intros E Hd L D I C M R s ops imm act env pos its rest u Hf Ha Hb Hh Hi H. cbn [le_fun le_sig le_rows] in *.
  apply args1 in Ha as (op & -> & A). cbn [f_o] in Hf. injection Hf as <-. rewrite E in H. apply Exists_cons_hd.
  assert (Hx : has type T_APX && hasRex2NFZU op = false) by (rewrite (tOl_low _ _ A); apply andb_false_r).
  rewrite <- (app_nil_r (render s its)).
  eapply (rext_gen s row m s1 type code false d bit op 0 [] []); eauto.
  - apply tOl_op in A. destruct op; exact A.
  - intros _. destruct op as [q|a]; cbn [isMEM ob].
    + apply R. apply gpr_bits. apply any_gpr; [exact (proj1 A)|]. eapply isREGb_REG. eapply rext_reg; eauto.
    + apply M. exact (proj1 (proj2 A)).
  - intros _. rewrite I. apply imm_none_ok.
Qed.
(* setcc *)
Lemma setcc_entry nm f cc :
  (forall op, f op = opSetCC op cc) -> 
  rextchk (mkL NP 1 (0x90 + cc) true (Some 0) [rm_ KG true (Sn 8)] OsN I_none) T_0F (0x90 ||| cc) false 8 true (Sn 8) (fun m b => negb m || (b =? 0) || (b =? 8)) (fun _ _ => 0) = true ->
  limplements (mkLE nm [tOl [0; 8]] (f_o f) [mkL NP 1 (0x90 + cc) true (Some 0) [rm_ KG true (Sn 8)] OsN I_none]).
Proof.
  intros E C s ops imm act env pos its rest u Hf Ha Hb Hh Hi H. cbn [le_fun le_sig le_rows] in *.
  apply args1 in Ha as (op & -> & A). cbn [f_o] in Hf. injection Hf as <-. rewrite E in H. unfold opSetCC in H.
  apply roo_ro in H; auto. 2:{ eapply tOl_low; eauto. }
  apply Exists_cons_hd. rewrite <- (app_nil_r (render s its)).
  eapply (rext_gen s _ true (Sn 8) T_0F (0x90 ||| cc) false 0 8 op 0 [] []); eauto; try reflexivity; try lia.
  - apply tOl_op in A. destruct op; exact A.
  - intros _. destruct op as [q|a]; [reflexivity|]. cbn [isMEM ob negb orb]. destruct A as (_ & A & _). cbn in A. destruct A as [<-|[<-|[]]]; reflexivity.
  - intros _. apply imm_none_ok.
Qed.
(* inc, dec *)
Lemma inc_entry nm f d :
  (forall op, f op = opIncDec noReg op d) -> 0 <= d < 8 ->
  rxchk_all (rmrow NP 0 0xFE d OsB I_none) 0 0xFE (fun _ b => existsb (Z.eqb b) [8; 16; 32; 64]) = true ->
  limplements (mkLE nm [tOp [0; 8; 16; 32; 64]] (f_o f) [rmrow NP 0 0xFE d OsB I_none]).
Proof.
  intros E Hd C s ops imm act env pos its rest u Hf Ha Hb Hh Hi H. cbn [le_fun le_sig le_rows] in *.
  apply args1 in Ha as (op & -> & A). cbn [f_o] in Hf. injection Hf as <-. rewrite E in H. unfold opIncDec in H. change (isREG noReg) with false in H. cbn iota in H.
  ebind H j1 j2 x H1 H2. apply verify_split in H1 as [-> Mz]. cbn [app items_size] in *. rewrite Z.add_0_r in H2.
  apply Exists_cons_hd. rewrite <- (app_nil_r (render s j2)).
  assert (C' : rextchk (rmrow NP 0 0xFE d OsB I_none) 0 0xFE false (ogetBit op) true Sv (fun _ b => existsb (Z.eqb b) [8; 16; 32; 64]) (fun _ b => b) = true).
  { unfold rxchk_all, rextchk in C |- *. cbv zeta in *. apply andb_prop in C as [Ca Cb]. rewrite forallb_forall in Ca, Cb. apply andb_true_intro. split; apply forallb_forall; intros b Hb'.
    - specialize (Ca _ Hb'). destruct (has b (ogetBit op)); rewrite ?orb_true_r in *; auto.
      apply orb_prop in Ca as [Ca|Ca]; apply orb_true_iff; auto. left. cbn [Z.eqb orb andb] in Ca. rewrite andb_true_r in Ca. destruct (existsb _ _); [cbn in Ca; discriminate|reflexivity].
    - specialize (Cb _ Hb'). exact Cb. }
  eapply (rext_gen s _ true Sv 0 0xFE false d (ogetBit op) op 0 [] []); eauto; try reflexivity.
  - apply tOp_op in A. destruct op; exact A.
  - intros _. destruct op as [q|a]; cbn [isMEM ob].
    + assert (G : gpr q). { apply any_gpr; [exact A|]. eapply isREGb_REG. eapply rext_reg; eauto; reflexivity. }
      destruct (gpr_std _ G) as [-> | [-> | [-> | ->]]]; reflexivity.
    + destruct A as [_ A]. specialize (Mz eq_refl). cbn in A, Mz. destruct A as [A|[A|[A|[A|[A|[]]]]]]; [exfalso; apply Mz; symmetry; exact A|rewrite <- A; reflexivity..].
  - intros _. apply imm_none_ok.
Qed.
(* shifts by an immediate *)
Definition shift_rows (d : Z) : list lrow := [rmrow NP 0 0xD0 d OsB I_1; rmrow NP 0 0xC0 d OsB I_8].
Lemma shift_entry nm f e d type :
  (forall op imm, f op imm = opShift op (s32 imm) e None) -> 0 <= d < 8 -> e &&& 7 = d -> shiftType e None = type ->
  rxchk_all (rmrow NP 0 0xD0 d OsB I_1) type 0xD0 (fun _ b => existsb (Z.eqb b) [8; 16; 32; 64]) = true ->
  rxchk_all (rmrow NP 0 0xC0 d OsB I_8) type 0xC0 (fun _ b => existsb (Z.eqb b) [8; 16; 32; 64]) = true ->
  limplements (mkLE nm [tOl [0; 8; 16; 32; 64]] (f_oi f) (shift_rows d)).
Proof.
  intros E Hd He Ht C1 C2 s ops imm act env pos its rest u Hf Ha Hb Hh Hi H. cbn [le_fun le_sig le_rows] in *.
  apply args1 in Ha as (op & -> & A). cbn [f_oi] in Hf. injection Hf as <-. rewrite E in H. unfold opShift in H. apply emits_fn in H.
  ebind H j1 j2 x H1 H2. apply verify_split in H1 as [-> Mz]. cbn [app items_size] in *. rewrite Z.add_0_r in H2. rewrite He, Ht in H2. cbv iota in H2.
  ebind H2 k1 k2 y H3 H4.
  assert (Ii : 0 <= imm < 256). { inversion Hi as [|? ? _ Hi1]; subst. inversion Hi1 as [|? ? Hi2 _]; subst. exact Hi2. }
  assert (Es : s32 imm = imm). { unfold s32, w32. rewrite Z.mod_small by lia. destruct (imm <? 2147483648) eqn:Q; lia. }
  rewrite Es in *.
  assert (Hx : has type T_APX && hasRex2NFZU op = false) by (rewrite (tOl_low _ _ A); apply andb_false_r).
  assert (P : forall row code n tail, In row (shift_rows d) -> l_ops row = [rm_ KG true Sv] -> l_digit row = Some d ->
       rxchk_all row type code (fun _ b => existsb (Z.eqb b) [8; 16; 32; 64]) = true ->
       emits (opRext op 0 d type code false n None) env pos k1 y ->
       imm_ok (l_imm row) (bit_ (ob op)) imm tail ->
       Exists (fun row => lsays row [op] imm (render s k1 ++ tail) rest) (shift_rows d)).
  { intros row code n tail Hin L D C HH I. apply Exists_exists. exists row. split; auto.
    eapply (rext_gen s row true Sv type code false d 0 op n [] []); eauto.
    - apply tOl_op in A. destruct op; exact A.
    - intros _. destruct op as [q|a]; cbn [isMEM ob].
      + assert (G : gpr q). { apply any_gpr; [exact (proj1 A)|]. eapply isREGb_REG. eapply rext_reg; eauto. }
        destruct (gpr_std _ G) as [-> | [-> | [-> | ->]]]; reflexivity.
      + destruct A as (_ & A & _). specialize (Mz eq_refl). cbn in A, Mz. destruct A as [A|[A|[A|[A|[A|[]]]]]]; [exfalso; apply Mz; symmetry; exact A|rewrite <- A; reflexivity..]. }
  rewrite render_app. destruct (imm =? 1) eqn:I1; cbn [negb] in H4.
  - apply emits_ret in H4 as [-> _]. cbn [render].
    eapply (P (rmrow NP 0 0xD0 d OsB I_1)); [left; reflexivity|reflexivity|reflexivity|exact C1|exact H3|]. apply imm_1_ok. lia.
  - apply emits_db in H4 as ->. cbn [render render1 app].
    eapply (P (rmrow NP 0 0xC0 d OsB I_8)); [right; left; reflexivity|reflexivity|reflexivity|exact C2|exact H3|]. apply imm_8_byte. reflexivity.
Qed.
(* shifts by cl *)
Definition cl_ := mkOper (Implied 1) (Some KG) false (Sn 8).
Lemma cl_ok r w h reg rm : gpr r -> bit_ r = 8 -> getIdx r = 1 -> oper_ok w h reg rm cl_ (OReg r).
Proof.
  intros G B I. unfold oper_ok. cbn [cl_ o_at o_reg o_mem o_size size_is]. split; [exists KG; split; [reflexivity|exact G]|]. split; [exact B|].
  split; [now rewrite <- regno_getIdx|]. intros _.
  replace (BLow 1) with (byte_reg false (regno r)); [symmetry; apply byte_ok; auto|rewrite <- regno_getIdx, I; reflexivity].
  intros Ex. exfalso. destruct G as [_ G]. rewrite isExt8bit_bit5 in Ex. unfold getIdx in I. rewrite land31 in I.
  destruct G as [[_ G]|[_ G]]; [rewrite Z.mod_small in I by lia; rewrite I in Ex; discriminate|].
  replace (idx_ r) with (idx_ r - 32 + 1 * 32) in I by lia. rewrite Z_mod_plus_full, Z.mod_small in I; lia.
Qed.
Definition clrow (d : Z) : lrow := mkL NP 0 0xD2 true (Some d) [rm_ KG true Sv; cl_] OsB I_none.
Lemma shiftcl_entry nm f e d type :
  (forall op r, f op r = opShiftCL op r e None) -> 0 <= d < 8 -> e &&& 7 = d -> shiftType e None = type ->
  rxchk_all (clrow d) type 0xD2 (fun _ b => existsb (Z.eqb b) [8; 16; 32; 64]) = true ->
  limplements (mkLE nm [tOl [8; 16; 32; 64]; tR 8] (or_ f) [clrow d]).
Proof.
  intros E Hd He Ht C s ops imm act env pos its rest u Hf Ha Hb Hh Hi H. cbn [le_fun le_sig le_rows] in *.
  apply args2 in Ha as (op & o2 & -> & A & A2). destruct o2 as [r|]; [|destruct A2]. cbn [or_] in Hf. injection Hf as <-. rewrite E in H.
  unfold opShiftCL in H. apply emits_fn in H. destruct (getIdx r =? 1) eqn:I1; cbn [negb] in H; [|einv H]. cbn iota in H. rewrite He, Ht in H.
  apply Exists_cons_hd. rewrite <- (app_nil_r (render s its)).
  assert (Hx : has type T_APX && hasRex2NFZU op = false) by (rewrite (tOl_low _ _ A); apply andb_false_r).
  eapply (rext_gen s (clrow d) true Sv type 0xD2 false d 0 op 0 [cl_] [OReg r]); eauto; try reflexivity.
  - apply tOl_op in A. destruct op; exact A.
  - intros _. destruct op as [q|a]; cbn [isMEM ob].
    + assert (G : gpr q). { apply any_gpr; [exact (proj1 A)|]. eapply isREGb_REG. eapply rext_reg; eauto. }
      destruct (gpr_std _ G) as [-> | [-> | [-> | ->]]]; reflexivity.
    + destruct A as (_ & A & _). cbn in A. destruct A as [<-|[<-|[<-|[<-|[]]]]]; reflexivity.
  - intros _. apply imm_none_ok.
  - intros h reg rm. apply Forall2_cons; [|apply Forall2_nil]. apply cl_ok; [apply A2|apply A2|lia].
Qed.
