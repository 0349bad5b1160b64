(* Decoding of the extended EVEX encodings (evexLeg, opROO). *)
From Coq Require Import ZArith List Bool Lia.
From Verif Require Import Base Types Emit Encode SpecX86 SpecAddr EmitFacts BitFacts Wf MemFacts LegacyFacts VexFacts
  SpecIsa SpecInsn SpecLeg SpecApx.
Import ListNotations.
Open Scope Z_scope.

Definition apx_map (type : Z) : Z := if getMap type =? 0 then 4 else getMap type.
Definition apx_W (type : Z) (r v : Reg) : bool := if has type T_W0 then false else isBit r 64 || isBit v 64 || has type T_W1.
Definition apx_pp (type : Z) (r v : Reg) : Z :=
  if has type (T_F2 ||| T_F3 ||| T_66) then getPP type else b2z (isBit r 16 || isBit v 16).
Definition apx_nd (type : Z) (r b v : Reg) : bool :=
  if has type T_ZU then ZU_ r || ZU_ b else if has type T_ND1 then true else if has type T_APX then false else isREG v.
Definition apx_low (nf : bool) (v : Reg) (sc : Z) : Z :=
  if sc =? NONE then 8 * z01 (negb (bit4 v)) + 4 * z01 nf else sc.
Definition apx_header (map pp : Z) (W : bool) (r x b v : Reg) (nd : bool) (low opc : Z) : header :=
  mkHeader false false false false false None Evex true map pp W
    (16 * z01 (bit4 r) + 8 * z01 (bit3 r)) (16 * z01 (bit4 x) + 8 * z01 (bit3 x)) (16 * z01 (bit4 b) + 8 * z01 (bit3 b))
    (16 * z01 (negb (tb low 3)) + regno v mod 16) (negb (tb low 3)) 0 nd false (low mod 8) (negb (bit4 x)) nd (tb low 2) low opc.

Lemma apx_b1 (r3 x3 b3 r4 b4 : bool) M : 0 <= M < 8 ->
  let q := w8 ((b2z (negb r3) <<< 7) ||| (b2z (negb x3) <<< 6) ||| (if b3 then 0 else 0x20) ||| (if r4 then 0 else 0x10)
               ||| (if b4 then 0x08 else 0) ||| M) in
  tb q 7 = negb r3 /\ tb q 6 = negb x3 /\ tb q 5 = negb b3 /\ tb q 4 = negb r4 /\ tb q 3 = b4 /\ q mod 8 = M.
Proof.
  intros H. pose proof (evex_b1 r3 x3 b3 r4 b4 M H) as T. destruct r3, x3; exact T.
Qed.
Lemma apx_b2 (w x4 : bool) idx pp : 0 <= idx < 16 -> 0 <= pp < 4 ->
  let q := w8 ((b2z w <<< 7) ||| ((Z.lnot idx &&& 15) <<< 3) ||| (if x4 then 0 else 0x04) ||| pp) in
  tb q 7 = w /\ q / 8 mod 16 = 15 - idx /\ tb q 2 = negb x4 /\ q mod 4 = pp.
Proof.
  intros H Hp. pose proof (evex_b2 w idx (negb x4) pp H Hp) as T.
  assert (E : pp &&& 3 = pp) by (rewrite land3; apply Z.mod_small; auto). rewrite E in T.
  destruct w, x4; exact T.
Qed.
Lemma apx_b3 (nd : bool) low : 0 <= low < 16 ->
  let q := w8 ((b2z nd <<< 4) ||| low) in
  tb q 7 = false /\ q / 32 mod 4 = 0 /\ tb q 4 = nd /\ tb q 3 = tb low 3 /\ tb q 2 = tb low 2 /\ q mod 16 = low /\ q mod 8 = low mod 8.
Proof.
  intros H.
  assert (S : forallb (fun low => allb (fun nd =>
     let q := w8 ((b2z nd <<< 4) ||| low) in
     eqb (tb q 7) false && (q / 32 mod 4 =? 0) && eqb (tb q 4) nd && eqb (tb q 3) (tb low 3) && eqb (tb q 2) (tb low 2)
     && (q mod 16 =? low) && (q mod 8 =? low mod 8))) (upto 16) = true) by reflexivity.
  pose proof (sweep1 16 _ S low H) as T. cbv beta in T. apply allb_spec with (b := nd) in T. cbv zeta in *.
  do 6 (apply andb_true_iff in T as [T ?]).
  repeat match goal with Q : (_ =? _) = true |- _ => apply Z.eqb_eq in Q end.
  repeat split; auto using eqb_prop.
Qed.
Lemma apx_low_item (nd nf v4 : bool) :
  (b2z nd <<< 4) ||| (b2z (negb v4) <<< 3) ||| (b2z nf <<< 2) = (b2z nd <<< 4) ||| (8 * z01 (negb v4) + 4 * z01 nf).
Proof. destruct nd, nf, v4; reflexivity. Qed.
Lemma apx_low_range nf v sc : sc = NONE \/ 0 <= sc < 16 -> 0 <= apx_low nf v sc < 16.
Proof.
  unfold apx_low. destruct (Z.eqb_spec sc NONE) as [->|N]; intros [H|H]; try contradiction; try lia;
    destruct (negb (bit4 v)), nf; simpl; lia.
Qed.
Lemma apx_map_range type : 0 <= apx_map type < 8.
Proof. unfold apx_map. pose proof (getMap_range type). destruct (getMap type =? 0); lia. Qed.
Lemma apx_pp_range type r v : 0 <= apx_pp type r v < 4.
Proof.
  unfold apx_pp. destruct (has type _); [apply getPP_range|]. destruct (isBit r 16 || isBit v 16); simpl; lia.
Qed.

Lemma evexLeg_dec s r b x v type sc env pos its u :
  sc = NONE \/ 0 <= sc < 16 ->
  emits (evexLeg r b x v type sc) env pos its u ->
  let nf := NF_ r || NF_ b || NF_ x || NF_ v in
  (nf = true -> has type T_NF = true) /\ (ZU_ r = true -> has type T_ZU = true)
  /\ forall o rest, dec_header (render s its ++ o :: rest) =
       Some (apx_header (apx_map type) (apx_pp type r v) (apx_W type r v) r x b v (apx_nd type r b v) (apx_low nf v sc) o, rest).
Proof.
  intros Hsc H nf. unfold evexLeg in H. apply emits_fn in H. cbv zeta in H.
  rewrite !isExtIdx_bit3, !isExtIdx2_bit4 in H. fold nf in H. fold (apx_map type) in H.
  destruct (negb (has type T_NF) && nf) eqn:G1; [einv H|].
  destruct (negb (has type T_ZU) && ZU_ r) eqn:G2; [einv H|].
  split. { intros N. rewrite N, andb_true_r in G1. now apply negb_false_iff in G1. }
  split. { intros N. rewrite N, andb_true_r in G2. now apply negb_false_iff in G2. }
  fold (apx_pp type r v) in H. fold (apx_nd type r b v) in H.
  assert (EW : (if has type T_W0 then 0 else b2z (isBit r 64 || isBit v 64 || has type T_W1)) = b2z (apx_W type r v)).
  { unfold apx_W. destruct (has type T_W0); reflexivity. }
  rewrite EW in H. clear EW.
  ebind H j0 j1 u0 J0 H. apply emits_db in J0 as ->.
  ebind H j2 j3 u1 J0 H. apply emits_db in J0 as ->.
  ebind H j4 j5 u2 J0 H. apply emits_db in J0 as ->.
  assert (E3 : j5 = [IDb (w8 ((b2z (apx_nd type r b v) <<< 4) ||| apx_low nf v sc))]).
  { unfold apx_low. destruct (sc =? NONE); cbn [negb] in H; apply emits_db in H as ->; auto.
    rewrite apx_low_item. reflexivity. }
  subst j5. clear H.
  rewrite lnot_land15, regno_getIdx. intros o rest.
  destruct (apx_b1 (bit3 r) (bit3 x) (bit3 b) (bit4 r) (bit4 b) (apx_map type) (apx_map_range type)) as (P1 & P2 & P3 & P4 & P5 & P6).
  destruct (apx_b2 (apx_W type r v) (bit4 x) (regno v mod 16) (apx_pp type r v) (Z.mod_pos_bound _ 16 ltac:(lia)) (apx_pp_range type r v)) as (Q1 & Q2 & Q3 & Q4).
  destruct (apx_b3 (apx_nd type r b v) (apx_low nf v sc) (apx_low_range nf v sc Hsc)) as (S1 & S2 & S3 & S4 & S5 & S6 & S7).
  rewrite !render_app. cbn [render render1 app].
  set (q1 := w8 (_ ||| apx_map type)) in *. set (q2 := w8 (_ ||| apx_pp type r v)) in *. set (q3 := w8 (_ ||| apx_low nf v sc)) in *.
  clearbody q1 q2 q3.
  change (w8 98) with 0x62. unfold dec_header.
  assert (PP : scan_prefixes pfx0 (0x62 :: q1 :: q2 :: q3 :: o :: rest)
     = (mkPfx false false false false false None, 0x62 :: q1 :: q2 :: q3 :: o :: rest)).
  { apply scan_stop. reflexivity. }
  rewrite PP. cbn -[Z.mul Z.add Z.sub tb Z.modulo Z.div w8 apx_low apx_map apx_pp apx_nd apx_W regno].
  rewrite P1, P2, P3, P4, P5, P6, Q1, Q2, Q3, Q4, S1, S2, S3, S4, S5, S6, S7, !negb_involutive.
  unfold apx_header. unfold z_of, z01.
  replace (15 - (15 - regno v mod 16)) with (regno v mod 16) by lia. reflexivity.
Qed.

Lemma writeCode_apx s type d code env pos its u : has type T_APX = true \/ getMap type = 0 ->
  emits (writeCode type d code false) env pos its u -> render s its = [final_opc type d code].
Proof.
  intros Hm H. unfold writeCode in H. ebind H i1 i2 u1 H1 H2. apply emits_db in H2 as ->.
  assert (i1 = []).
  { destruct (has type T_APX) eqn:A. { simpl in H1. einv H1. auto. }
    destruct Hm as [Hm|Hm]; [discriminate|]. unfold getMap in Hm. simpl in H1.
    destruct (has type T_0F); [discriminate|]. destruct (has type T_0F38); [discriminate|].
    destruct (has type T_0F3A); [discriminate|]. einv H1. auto. }
  subst i1. reflexivity.
Qed.

(* the header as far as it does not depend on the r/m operand *)
Record apx_fields (type code : Z) (r b v : Reg) (nf : bool) (sc : Z) (h : header) : Prop := {
  af_space : h_space h = Evex;
  af_pfx : h_66 h = false /\ h_67 h = false /\ h_F2 h = false /\ h_F3 h = false /\ h_lock h = false /\ h_seg h = None;
  af_map : h_map h = apx_map type;
  af_pp : h_pp h = apx_pp type r v;
  af_W : h_W h = apx_W type r v;
  af_opc : h_opc h = final_opc type v code;
  af_L : h_L h = 0 /\ h_z h = false;
  af_nd : h_nd h = apx_nd type r b v;
  af_none : sc = NONE -> h_V h = regno v /\ h_nf h = nf /\ h_sc h mod 4 = 0;
  af_sc : sc <> NONE -> h_V h mod 16 = regno v mod 16 /\ h_sc h = sc
}.
Lemma apx_header_fields type code r x b v nf sc :
  sc = NONE \/ 0 <= sc < 16 ->
  apx_fields type code r b v nf sc
    (apx_header (apx_map type) (apx_pp type r v) (apx_W type r v) r x b v (apx_nd type r b v) (apx_low nf v sc) (final_opc type v code)).
Proof.
  intros Hsc. constructor; unfold apx_header; cbn [h_space h_66 h_67 h_F2 h_F3 h_lock h_seg h_map h_pp h_W h_opc h_L h_z h_nd h_V h_nf h_sc]; auto 10.
  - intros ->. unfold apx_low. rewrite Z.eqb_refl.
    assert (R : regno v = 16 * z01 (bit4 v) + regno v mod 16).
    { assert (M : regno v mod 16 = 8 * z01 (bit3 v) + low3 v).
      { symmetry. apply Z.mod_unique with (q := z01 (bit4 v)).
        - left. pose proof (low3_range v). destruct (bit3 v); cbn [z01]; lia.
        - rewrite regno_split. lia. }
      rewrite M, regno_split. lia. }
    rewrite R at 2. destruct (bit4 v), nf; repeat split.
  - intros N. unfold apx_low. apply Z.eqb_neq in N. rewrite N. split; auto.
    pose proof (Z.mod_pos_bound (regno v) 16 ltac:(lia)).
    cbn [h_V apx_header]. rewrite Z.add_comm, Z.mul_comm, Z.mod_add by lia. apply Z.mod_mod. lia.
Qed.

(* what the r/m operand says *)
Definition rm_is (op : Operand) (h : header) (rm : rmop) : Prop :=
  match op with
  | OReg b => (exists g, rm = RReg (regno b) g) /\ h_X h = 0
  | OMem a => exists m, rm = RMem m /\ denotes (a_e a) h m
  end.
Definition rm_ok (op : Operand) : Prop := match op with OReg _ => True | OMem a => amem a end.
Definition rm_reg (op : Operand) : Reg := match op with OReg b => b | OMem a => e_base (getRegExp a) end.

Lemma optimize_nf e : NF_ (e_base e) = false -> NF_ (e_index e) = false ->
  NF_ (e_base (optimize e)) = false /\ NF_ (e_index (optimize e)) = false.
Proof.
  intros B X. unfold optimize. cbv zeta.
  repeat match goal with |- context [if ?c then _ else _] => destruct c end; cbn [e_base e_index]; auto.
Qed.
Lemma optimize_zu e : ZU_ (e_base e) = false -> ZU_ (e_index e) = false ->
  ZU_ (e_base (optimize e)) = false /\ ZU_ (e_index (optimize e)) = false.
Proof.
  intros B X. unfold optimize. cbv zeta.
  repeat match goal with |- context [if ?c then _ else _] => destruct c end; cbn [e_base e_index]; auto.
Qed.
Lemma getRegExp_mods a : amem a ->
  NF_ (e_base (getRegExp a)) = false /\ NF_ (e_index (getRegExp a)) = false /\ ZU_ (e_base (getRegExp a)) = false.
Proof.
  intros (_ & _ & _ & _ & B & X & Zb & Zx). unfold getRegExp. destruct (a_optimize a).
  - destruct (optimize_nf _ B X). destruct (optimize_zu _ Zb Zx). auto.
  - auto.
Qed.

Lemma apx_mem_dec s a r h env pos its u rest :
  amem a ->
  h_R h + low3 r = regno r ->
  h_B h = 16 * z01 (bit4 (e_base (getRegExp a))) + 8 * z01 (bit3 (e_base (getRegExp a))) ->
  h_X h = 16 * z01 (bit4 (e_index (getRegExp a))) + 8 * z01 (bit3 (e_index (getRegExp a))) ->
  h_67 h = false ->
  forall imz, emits (opAddr (set_immSize a imz) (getIdx r)) env pos its u ->
  exists m, dec_rm h false 1 (render s its ++ rest) = Some (regno r, RMem m, rest) /\ denotes (a_e a) h m.
Proof.
  intros (Hm & (H32 & _) & _) HR HB HX H67 imz H.
  destruct Hm as [Wa Hd8 Hpv _ _ _ _].
  assert (Wa' : wf_modrm (set_immSize a imz)) by (eapply wf_modrm_ext; [| | |exact Wa]; reflexivity).
  pose proof (getRegExp_wf _ (wm_e _ Wa)) as We. pose proof (getRegExp_verified _ (wm_ver _ Wa)) as Ve.
  pose proof (getRegExp_vsib _ (wm_e _ Wa)) as Hvs.
  destruct (opAddr_modrm s _ _ _ _ _ _ h rest Wa' H) as (PV & m & Dm & Mbs & Mi & Ms & Md);
    change (getRegExp (set_immSize a imz)) with (getRegExp a) in *;
    change (isVsib (set_immSize a imz)) with (isVsib a) in *;
    change (disp8N (set_immSize a imz)) with (disp8N a) in *;
    change (permitVsib (set_immSize a imz)) with (permitVsib a) in *.
  { left. auto. }
  { intros P. rewrite HX. destruct (wf_index _ We) as [Hn|[[Hg|Hv] _]].
    - destruct (no_reg_bits _ Hn) as [-> ->]. reflexivity.
    - rewrite addr_gpr_present in P; [discriminate|auto].
    - rewrite vec_present in P; [discriminate|auto]. }
  { intros V P. rewrite HX, <- regno_split. destruct (wf_index _ We) as [Hn|[[Hg|Hv] _]].
    - rewrite no_reg_present in P; [discriminate|auto].
    - rewrite <- regno_getIdx. apply (ver_sp _ Ve); auto.
    - rewrite (vec_isVsib _ Hv) in Hvs. congruence. }
  assert (NV : isVsib a = false). { destruct (isVsib a); auto. rewrite Hpv in PV. specialize (PV eq_refl). discriminate. }
  rewrite NV, Hd8 in *. cbn [Z.eqb] in Dm. rewrite mod8_low3, HR in Dm.
  exists m. split; auto.
  assert (MM : mem_matches (getRegExp a) m).
  { split; [|split; [|split]]; auto.
    - rewrite Mbs. unfold mem_base. unfold present in *. unfold getBit. destruct (bit_ (e_base (getRegExp a)) =? 0); cbn [negb] in *; auto.
      rewrite HB, <- regno_split. auto.
    - rewrite Mi. unfold mem_index. unfold present in *. unfold getBit. destruct (bit_ (e_index (getRegExp a)) =? 0); cbn [negb] in *; auto.
      rewrite HX, <- regno_split. auto. }
  intros regs rip. rewrite H67, H32. rewrite <- (getRegExp_written regs a (wm_e _ Wa)).
  rewrite (eff_addr_written regs rip false _ _ MM). reflexivity.
Qed.

(* op1 in r/m, register r in reg *)
Lemma opROO_dec1 s d op r type code imz sc env pos its rest :
  rm_ok op -> (has type T_APX = true \/ getMap type = 0) -> sc = NONE \/ 0 <= sc < 16 ->
  emits (opROO d op (OReg r) type code imz sc) env pos its true ->
  exists h rm nf,
    decode false 1 (render s its ++ rest) = Some (h, regno r, rm, rest)
    /\ apx_fields type code r (rm_reg op) d nf sc h /\ rm_is op h rm
    /\ nf = (NF_ r || (match op with OReg b => NF_ b | OMem _ => false end) || NF_ d)
    /\ (nf = true -> has type T_NF = true) /\ (ZU_ r = true -> has type T_ZU = true).
Proof.
  intros Hop Hm Hsc H. unfold opROO in H. apply emits_fn in H.
  match type of H with emits (if ?c then _ else _) _ _ _ _ => destruct c; [apply emits_ret in H as [_ H]; discriminate|] end. cbn [isMEM ob] in H.
  destruct op as [b|a]; cbn [isMEM] in H.
  - ebind H i1 i2 u1 H1 H. ebind H i3 i4 u2 H2 H. ebind H i5 i6 u3 H3 H. apply emits_ret in H as [-> _].
    destruct (evexLeg_dec s _ _ _ _ _ _ _ _ _ _ Hsc H1) as (N1 & N2 & HH).
    apply (writeCode_apx s) in H2; auto. apply emits_db in H3 as ->.
    eexists _, _, _. split.
    { unfold decode. rewrite !render_app, H2. cbn [render render1 app]. rewrite <- !app_assoc. cbn [app].
      rewrite HH. cbn [h_space apx_header]. rewrite w8_idem.
      change (ogetIdx (OReg r)) with (getIdx r). change (ogetIdx (OReg b)) with (getIdx b).
      fold (modrm_byte 3 (getIdx r) (getIdx b)).
      destruct (modrm_fields 3 (getIdx r) (getIdx b) ltac:(lia)) as (F1 & F2 & F3).
      unfold dec_rm. cbv zeta. cbn [ob].
      rewrite F1, F2, F3. cbn [Z.eqb Pos.eqb apx_header h_R h_B h_X h_space].
      fold (low3 r) (low3 b). rewrite <- !regno_split. reflexivity. }
    split. { apply apx_header_fields; auto. }
    split. { split; [eexists; reflexivity|]. reflexivity. }
    cbn [NF_ noReg] in *. rewrite orb_false_r in *. auto.
  - ebind H i1 i2 u1 H1 H. ebind H i3 i4 u2 H2 H. ebind H i5 i6 u3 H3 H. apply emits_ret in H as [-> _].
    destruct (evexLeg_dec s _ _ _ _ _ _ _ _ _ _ Hsc H1) as (N1 & N2 & HH).
    apply (writeCode_apx s) in H2; auto.
    destruct (getRegExp_mods _ Hop) as (B & X & Zb). rewrite B, X in *. cbn [ob] in *.
    set (h := apx_header (apx_map type) (apx_pp type r d) (apx_W type r d) r (e_index (getRegExp a)) (e_base (getRegExp a)) d
                (apx_nd type r (e_base (getRegExp a)) d) (apx_low (NF_ r || false || false || NF_ d) d sc) (final_opc type d code)).
    assert (HR : h_R h + low3 r = regno r) by (unfold h; cbn [h_R apx_header]; rewrite <- regno_split; reflexivity).
    destruct (apx_mem_dec s a r h _ _ _ _ rest Hop HR eq_refl eq_refl eq_refl imz H3) as (m & D1 & D2).
    exists h, (RMem m), (NF_ r || false || false || NF_ d). split.
    { unfold decode. rewrite !render_app, H2. cbn [render render1 app]. rewrite <- !app_assoc. cbn [app].
      rewrite HH. fold h. change (h_space h) with Evex. rewrite app_nil_r, D1. reflexivity. }
    split. { apply apx_header_fields; auto. }
    split. { exists m. auto. }
    split; [rewrite !orb_false_r; reflexivity|]. auto.
Qed.

(* op2 in memory, op1 in reg *)
Lemma opROO_dec2 s d r a type code imz sc env pos its rest :
  amem a -> (has type T_APX = true \/ getMap type = 0) -> sc = NONE \/ 0 <= sc < 16 ->
  emits (opROO d (OReg r) (OMem a) type code imz sc) env pos its true ->
  exists h rm nf,
    decode false 1 (render s its ++ rest) = Some (h, regno r, rm, rest)
    /\ apx_fields type (code ||| 2) r (rm_reg (OMem a)) d nf sc h /\ rm_is (OMem a) h rm
    /\ nf = (NF_ r || NF_ d)
    /\ (nf = true -> has type T_NF = true) /\ (ZU_ r = true -> has type T_ZU = true).
Proof.
  intros Hop Hm Hsc H. unfold opROO in H. apply emits_fn in H.
  match type of H with emits (if ?c then _ else _) _ _ _ _ => destruct c; [apply emits_ret in H as [_ H]; discriminate|] end. cbn [isMEM ob] in H.
  ebind H i1 i2 u1 H1 H. ebind H i3 i4 u2 H2 H. ebind H i5 i6 u3 H3 H. apply emits_ret in H as [-> _].
  destruct (evexLeg_dec s _ _ _ _ _ _ _ _ _ _ Hsc H1) as (N1 & N2 & HH).
  apply (writeCode_apx s) in H2; auto.
  destruct (getRegExp_mods _ Hop) as (B & X & Zb). rewrite B, X in *.
  set (h := apx_header (apx_map type) (apx_pp type r d) (apx_W type r d) r (e_index (getRegExp a)) (e_base (getRegExp a)) d
              (apx_nd type r (e_base (getRegExp a)) d) (apx_low (NF_ r || false || false || NF_ d) d sc) (final_opc type d (code ||| 2))).
  assert (HR : h_R h + low3 r = regno r) by (unfold h; cbn [h_R apx_header]; rewrite <- regno_split; reflexivity).
  destruct (apx_mem_dec s a r h _ _ _ _ rest Hop HR eq_refl eq_refl eq_refl imz H3) as (m & D1 & D2).
  exists h, (RMem m), (NF_ r || false || false || NF_ d). split.
  { unfold decode. rewrite !render_app, H2. cbn [render render1 app]. rewrite <- !app_assoc. cbn [app].
    rewrite HH. fold h. change (h_space h) with Evex. rewrite app_nil_r, D1. reflexivity. }
  split. { apply apx_header_fields; auto. }
  split. { exists m. auto. }
  split; [rewrite !orb_false_r; reflexivity|]. auto.
Qed.

(* when opROO takes the extended encoding *)
Lemma opROO_result d op1 op2 type code imz sc env pos its b :
  emits (opROO d op1 op2 type code imz sc) env pos its b ->
  b = (has type T_MUST_EVEX || isREG d || hasRex2NFZU (OReg d) || hasRex2NFZU op1 || hasRex2NFZU op2) /\ (b = false -> its = []).
Proof.
  intros H. unfold opROO in H. apply emits_fn in H.
  match type of H with emits (if ?c then _ else _) _ _ _ _ => destruct c eqn:G end.
  - apply emits_ret in H as [-> ->]. split; auto. apply andb_true_iff in G as [G G3]. apply andb_true_iff in G as [G1 G2].
    apply negb_true_iff in G1, G2, G3. rewrite G1, G2. cbn [orb]. rewrite G3. reflexivity.
  - assert (B : b = true).
    { destruct op1, op2; cbn [isMEM] in H; try solve [einv H];
      ebind H i1 i2 u1 H1 H; ebind H i3 i4 u2 H2 H; ebind H i5 i6 u3 H3 H; apply emits_ret in H as [_ ->]; auto. }
    subst b. split; [|discriminate]. symmetry. apply andb_false_iff in G as [G|G]; [apply andb_false_iff in G as [G|G]|];
      apply negb_false_iff in G; rewrite ?G, ?orb_true_r; auto.
    rewrite <- !orb_assoc. rewrite <- !orb_assoc in G. rewrite G, !orb_true_r. auto.
Qed.

Lemma rex_no_nf op1 op2 type env pos its b : emits (rex op1 op2 type) env pos its b ->
  wants_nf [op1; op2] = false /\ wants_zu [op1; op2] = false.
Proof.
  intros H. unfold rex in H. apply emits_fn in H. unfold wants_nf, wants_zu, existsb. rewrite !orb_false_r.
  destruct (NF_ (ob op1) || NF_ (ob op2)); [apply emits_throw in H; contradiction|].
  destruct (ZU_ (ob op1) || ZU_ (ob op2)); [apply emits_throw in H; contradiction|]. split; reflexivity.
Qed.
