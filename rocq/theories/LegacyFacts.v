(* Decoding of the legacy (REX / REX2) encodings. *)
From Coq Require Import ZArith List Bool Lia.
From Verif Require Import Base Types Emit Encode SpecX86 SpecAddr EmitFacts BitFacts Wf MemFacts.
Import ListNotations.
Open Scope Z_scope.

(* ---- address expressions ---- *)
Lemma regno_getIdx r : getIdx r = regno r.
Proof. unfold getIdx, regno. apply land31. Qed.

Lemma eff_addr_written regs rip a32 e m : mem_matches e m ->
  eff_addr regs rip a32 m = written regs e mod addr_size a32.
Proof.
  intros (Hb & Hi & Hs & Hd). unfold eff_addr, written. rewrite Hb, Hi, Hd. f_equal.
  destruct (present (e_base e)), (present (e_index e)) eqn:P; simpl; try rewrite Hs by auto; lia.
Qed.

Lemma optimize_written regs e : wf_regexp e -> written regs (optimize e) = written regs e.
Proof.
  intros We. unfold optimize. destruct (isBit (e_index e) i32e && (getBit (e_base e) =? 0) && (e_scale e =? 2)) eqn:Q; auto.
  apply andb_true_iff in Q as [Q Q3]. apply andb_true_iff in Q as [Q1 Q2].
  apply Z.eqb_eq in Q3, Q2. unfold getBit in Q2.
  unfold written, present. simpl. rewrite Q2. simpl.
  destruct (bit_ (e_index e) =? 0) eqn:B; simpl; [|rewrite Q3; lia].
  apply Z.eqb_eq in B. unfold isBit, has in Q1. rewrite B in Q1. discriminate.
Qed.
Lemma optimize_disp e : e_disp (optimize e) = e_disp e.
Proof. unfold optimize. now destruct (_ && _). Qed.
Lemma addr_gpr_i32e r : addr_gpr r -> isBit r i32e = true.
Proof. intros (_ & [H|H] & _); unfold isBit; rewrite H; reflexivity. Qed.
Lemma vec_i32e r : vec_reg r -> isBit r i32e = false.
Proof. intros ([(_ & H)|[(_ & H)|(_ & H)]] & _); unfold isBit; rewrite H; reflexivity. Qed.
Lemma optimize_wf e : wf_regexp e -> wf_regexp (optimize e).
Proof.
  intros [Wb Wi Wd]. unfold optimize.
  destruct (isBit (e_index e) i32e && (getBit (e_base e) =? 0) && (e_scale e =? 2)) eqn:Q; [|split; auto].
  apply andb_true_iff in Q as [Q Q3]. apply andb_true_iff in Q as [Q1 Q2].
  destruct Wi as [Hn|[[Hg|Hv] _]].
  - destruct Hn as (_ & Hb & _). unfold isBit, has in Q1. rewrite Hb in Q1. discriminate.
  - split; simpl; auto. right. split; auto. left; auto.
  - rewrite vec_i32e in Q1; auto. discriminate.
Qed.
Lemma optimize_verified e : verified e -> verified (optimize e).
Proof.
  intros [V1 V2]. unfold optimize. destruct (_ && _); split; simpl; auto.
Qed.
Lemma optimize_uses32 e : uses32 (optimize e) = uses32 e.
Proof.
  unfold optimize. destruct (isBit (e_index e) i32e && (getBit (e_base e) =? 0) && (e_scale e =? 2)) eqn:Q; auto.
  apply andb_true_iff in Q as [Q Q3]. apply andb_true_iff in Q as [Q1 Q2].
  unfold uses32. simpl. apply Z.eqb_eq in Q2. unfold getBit in Q2. rewrite Q2. simpl.
  now destruct (bit_ (e_index e) =? 32).
Qed.
Lemma is32bit_uses32 a : is32bit a = uses32 (getRegExp a).
Proof. unfold getRegExp. destruct (a_optimize a); [rewrite optimize_uses32|]; reflexivity. Qed.
Lemma getRegExp_wf a : wf_regexp (a_e a) -> wf_regexp (getRegExp a).
Proof. unfold getRegExp. destruct (a_optimize a); auto using optimize_wf. Qed.
Lemma getRegExp_verified a : verified (a_e a) -> verified (getRegExp a).
Proof. unfold getRegExp. destruct (a_optimize a); auto using optimize_verified. Qed.
Lemma getRegExp_written regs a : wf_regexp (a_e a) -> written regs (getRegExp a) = written regs (a_e a).
Proof. unfold getRegExp. destruct (a_optimize a); auto using optimize_written. Qed.
Lemma no_reg_rex2 r : no_reg r -> regHasRex2 r = false.
Proof. intros (H & _ & _). unfold regHasRex2, isREG, is_. rewrite H. reflexivity. Qed.
Lemma getRegExp_rex2 a : wf_regexp (a_e a) ->
  regHasRex2 (e_base (getRegExp a)) || regHasRex2 (e_index (getRegExp a)) = addrHasRex2 a.
Proof.
  intros We. unfold getRegExp, addrHasRex2. destruct (a_optimize a); auto.
  unfold optimize. destruct (isBit (e_index (a_e a)) i32e && (getBit (e_base (a_e a)) =? 0) && (e_scale (a_e a) =? 2)) eqn:Q; auto.
  apply andb_true_iff in Q as [Q Q3]. apply andb_true_iff in Q as [Q1 Q2]. simpl.
  destruct (wf_base _ We) as [Hn|Hg].
  - rewrite (no_reg_rex2 _ Hn). now destruct (regHasRex2 (e_index (a_e a))).
  - apply addr_gpr_getBit in Hg. congruence.
Qed.
Lemma getRegExp_vsib a : wf_regexp (a_e a) -> isVsibE (getRegExp a) vsib_bits = isVsib a.
Proof.
  intros We. unfold getRegExp, isVsib. destruct (a_optimize a); auto. unfold optimize. now destruct (_ && _).
Qed.

(* ---- legacy header ---- *)
Definition opt (b : bool) (v : Z) : list Z := if b then [v] else [].
Definition pfx_bytes (b66 bF2 bF3 b67 : bool) : list Z := opt b66 0x66 ++ opt bF2 0xF2 ++ opt bF3 0xF3 ++ opt b67 0x67.
Lemma scan_pfx b66 bF2 bF3 b67 rest :
  scan_prefixes pfx0 (pfx_bytes b66 bF2 bF3 b67 ++ rest)
  = scan_prefixes (mkPfx b66 b67 bF2 bF3 false None) rest.
Proof. destruct b66, bF2, bF3, b67; reflexivity. Qed.

Definition is_prefix (o : Z) : bool :=
  (o =? 0x66) || (o =? 0x67) || (o =? 0xF2) || (o =? 0xF3) || (o =? 0xF0)
  || (o =? 0x26) || (o =? 0x2E) || (o =? 0x36) || (o =? 0x3E) || (o =? 0x64) || (o =? 0x65).
Lemma scan_stop p o rest : is_prefix o = false -> scan_prefixes p (o :: rest) = (p, o :: rest).
Proof.
  intros H. unfold is_prefix in H. repeat (apply orb_false_iff in H as [H ?]).
  simpl. unfold prefix_step. rewrite H. repeat match goal with H : (_ =? _) = false |- _ => rewrite H; clear H end.
  reflexivity.
Qed.

(* REX / REX2 bytes: W and the extension bits of reg, index, base *)
Definition rex_val (w r x b : bool) : Z := 8 * z01 w + 4 * z01 r + 2 * z01 x + z01 b.
Lemma rexRXB_val bit w r b x :
  rexRXB bit w r b x = rex_val w (hasIdxBit r bit) (hasIdxBit x bit) (hasIdxBit b bit).
Proof. unfold rexRXB, rex_val. destruct w, (hasIdxBit r bit), (hasIdxBit x bit), (hasIdxBit b bit); reflexivity. Qed.

Inductive rexform :=
| RexNone | Rex1 (w r x b : bool) | Rex2 (m0 r4 x4 b4 w r x b : bool).
Definition rex_bytes (f : rexform) : list Z :=
  match f with
  | RexNone => []
  | Rex1 w r x b => [0x40 + rex_val w r x b]
  | Rex2 m0 r4 x4 b4 w r x b => [0xD5; 16 * rex_val m0 r4 x4 b4 + rex_val w r x b]
  end.
Definition rf_rex f := match f with RexNone => false | _ => true end.
Definition rf_W f := match f with RexNone => false | Rex1 w _ _ _ => w | Rex2 _ _ _ _ w _ _ _ => w end.
Definition rf_R f := match f with RexNone => 0 | Rex1 _ r _ _ => 8 * z01 r | Rex2 _ r4 _ _ _ r _ _ => 16 * z01 r4 + 8 * z01 r end.
Definition rf_X f := match f with RexNone => 0 | Rex1 _ _ x _ => 8 * z01 x | Rex2 _ _ x4 _ _ _ x _ => 16 * z01 x4 + 8 * z01 x end.
Definition rf_B f := match f with RexNone => 0 | Rex1 _ _ _ b => 8 * z01 b | Rex2 _ _ _ b4 _ _ _ b => 16 * z01 b4 + 8 * z01 b end.
(* opcode escape bytes *)
Definition esc_bytes (f : rexform) (map : Z) : list Z :=
  match f with
  | Rex2 _ _ _ _ _ _ _ _ => []
  | _ => if map =? 1 then [0x0F] else if map =? 2 then [0x0F; 0x38] else if map =? 3 then [0x0F; 0x3A] else []
  end.
Definition map_ok (f : rexform) (map : Z) : Prop :=
  match f with
  | Rex2 m0 _ _ _ _ _ _ _ => map = z01 m0
  | _ => map = 0 \/ map = 1 \/ map = 2 \/ map = 3
  end.

Lemma dec_opcode_esc f map o rest : (forall m0 r4 x4 b4 w r x b, f <> Rex2 m0 r4 x4 b4 w r x b) ->
  map_ok f map -> opcode_ok map o = true ->
  dec_opcode (esc_bytes f map ++ o :: rest) = Some (map, o, rest).
Proof.
  intros Hf Hm Ho. unfold opcode_ok in Ho. apply andb_true_iff in Ho as [_ Ho].
  assert (Hm' : map = 0 \/ map = 1 \/ map = 2 \/ map = 3).
  { destruct f; simpl in Hm; auto. exfalso. eapply Hf; reflexivity. }
  assert (He : esc_bytes f map = if map =? 1 then [0x0F] else if map =? 2 then [0x0F; 0x38] else if map =? 3 then [0x0F; 0x3A] else []).
  { destruct f; auto. exfalso. eapply Hf; reflexivity. }
  rewrite He. destruct Hm' as [->|[->|[->| ->]]]; cbn [Z.eqb Pos.eqb app] in *; unfold dec_opcode.
  - unfold plain_opcode in Ho. apply negb_true_iff in Ho. apply orb_false_iff in Ho as [_ Ho].
    rewrite Ho. reflexivity.
  - simpl in Ho. apply negb_true_iff in Ho. apply orb_false_iff in Ho as [H1 H2].
    change (15 =? 15) with true. cbv iota. rewrite H1, H2. reflexivity.
  - reflexivity.
  - reflexivity.
Qed.

Lemma dec_header_legacy b66 bF2 bF3 b67 f map o rest :
  map_ok f map -> opcode_ok map o = true ->
  dec_header (pfx_bytes b66 bF2 bF3 b67 ++ rex_bytes f ++ esc_bytes f map ++ o :: rest)
  = Some (leg_header (mkPfx b66 b67 bF2 bF3 false None) (rf_rex f) map (rf_W f) (rf_R f) (rf_X f) (rf_B f) o, rest).
Proof.
  intros Hm Ho. unfold dec_header. rewrite scan_pfx. destruct f.
  - (* no REX: the first byte is an escape or a plain opcode *)
    cbn [rex_bytes app].
    assert (D : dec_opcode (esc_bytes RexNone map ++ o :: rest) = Some (map, o, rest)).
    { apply dec_opcode_esc; auto. discriminate. }
    destruct (esc_bytes RexNone map ++ o :: rest) as [|c cs] eqn:Ec; [discriminate|].
    assert (Hc : is_prefix c = false /\ ((0x40 <=? c) && (c <=? 0x4F)) = false /\ (c =? 0xD5) = false
                 /\ (c =? 0xC4) = false /\ (c =? 0xC5) = false /\ (c =? 0x62) = false).
    { simpl in Hm. destruct Hm as [->|[->|[->| ->]]]; cbn [esc_bytes Z.eqb Pos.eqb app] in Ec; inversion Ec; subst;
        try (repeat split; reflexivity).
      unfold opcode_ok in Ho. apply andb_true_iff in Ho as [_ Ho]. cbn [Z.eqb] in Ho. unfold plain_opcode in Ho.
      apply negb_true_iff in Ho. fold (is_prefix c) in Ho.
      do 6 (apply orb_false_iff in Ho as [Ho ?]). repeat split; auto. }
    destruct Hc as (C1 & C2 & C3 & C4 & C5 & C6).
    rewrite scan_stop by auto. rewrite C2, C3, C4, C5, C6. rewrite !orb_false_r, andb_false_r.
    unfold dec_legacy. rewrite D. reflexivity.
  - set (f := Rex1 w r x b) in *.
    assert (D : dec_opcode (esc_bytes f map ++ o :: rest) = Some (map, o, rest)).
    { apply dec_opcode_esc; auto. discriminate. }
    set (l := esc_bytes f map ++ o :: rest) in *. clearbody l.
    unfold f. cbn [rex_bytes app].
    destruct w, r, x, b;
      (rewrite scan_stop by reflexivity; cbv [rex_val z01]; cbn; unfold dec_legacy; rewrite D; reflexivity).
  - simpl in Hm. subst map. cbn [rex_bytes esc_bytes app].
    rewrite scan_stop by reflexivity.
    destruct m0, r4, x4, b4, w, r, x, b; reflexivity.
Qed.

(* ---- rex() ---- *)
Definition pfx66 (type : Z) (o1 o2 : Reg) : bool :=
  has type T_66 || ((isBit o1 16 && negb (isBit o2 i32e)) || (isBit o2 16 && negb (isBit o1 i32e))).

(* f carries W and the extension bits of the registers r (reg), x (index), b (base / rm) *)
Definition rf_for (f : rexform) (two : bool) (is0F w ext8 : bool) (r x b : Reg) : Prop :=
  rf_W f = w
  /\ rf_R f = (if two then 16 * z01 (bit4 r) else 0) + 8 * z01 (bit3 r)
  /\ rf_X f = (if two then 16 * z01 (bit4 x) else 0) + 8 * z01 (bit3 x)
  /\ rf_B f = (if two then 16 * z01 (bit4 b) else 0) + 8 * z01 (bit3 b)
  /\ rf_rex f = (two || w || bit3 r || bit3 x || bit3 b || ext8)
  /\ (if two then exists r4 x4 b4 w' r' x' b', f = Rex2 is0F r4 x4 b4 w' r' x' b'
      else forall m0 r4 x4 b4 w' r' x' b', f <> Rex2 m0 r4 x4 b4 w' r' x' b').

Lemma render_when_db s (c : bool) v env pos its a :
  emits (if c then db v else ret tt) env pos its a -> render s its = opt c (w8 v).
Proof.
  destruct c; intros H.
  - apply emits_db in H as ->. reflexivity.
  - apply emits_ret in H as [-> _]. reflexivity.
Qed.

Lemma rex_tail s (two is0F w ext8 bad : bool) (r b x : Reg) env pos its x2 :
  emits (if two then
           (if bad then throw ERR_CANT_USE_REX2 else
            rex2 is0F (rexRXB 3 w r b x) r b x ;;; ret true)
         else
           let rx := if negb (rexRXB 3 w r b x =? 0) || ext8 then rexRXB 3 w r b x ||| 0x40 else rexRXB 3 w r b x in
           when negb (rx =? 0) do db rx ;;; ret false) env pos its x2 ->
  x2 = two /\ (two = true -> bad = false) /\
  exists f, render s its = rex_bytes f /\ rf_for f two is0F w ext8 r x b.
Proof.
  intros H. destruct two.
  - destruct bad; [einv H|]. apply emits_bind in H as (i1 & i2 & [] & H1 & H2 & ->).
    apply emits_ret in H2 as [-> ->]. repeat split; auto.
    unfold rex2 in H1. apply emits_bind in H1 as (j1 & j2 & [] & J1 & J2 & ->).
    apply emits_db in J1 as ->. apply emits_db in J2 as ->.
    rewrite !rexRXB_val, !hasIdxBit3, !hasIdxBit4.
    exists (Rex2 is0F (bit4 r) (bit4 x) (bit4 b) w (bit3 r) (bit3 x) (bit3 b)). split.
    + rewrite !render_app. cbn [render render1 app rex_bytes].
      destruct is0F, (bit4 r), (bit4 x), (bit4 b), w, (bit3 r), (bit3 x), (bit3 b); reflexivity.
    + repeat split. simpl. repeat eexists.
  - cbv zeta in H. rewrite !rexRXB_val, !hasIdxBit3 in H.
    apply emits_bind in H as (i1 & i2 & [] & H1 & H2 & ->). apply emits_ret in H2 as [-> ->].
    apply (render_when_db s) in H1. repeat split; auto; [discriminate|].
    exists (if w || bit3 r || bit3 x || bit3 b || ext8 then Rex1 w (bit3 r) (bit3 x) (bit3 b) else RexNone).
    rewrite render_app, H1. split.
    + destruct w, (bit3 r), (bit3 x), (bit3 b), ext8; reflexivity.
    + unfold rf_for. destruct w, (bit3 r), (bit3 x), (bit3 b), ext8; simpl; repeat split; discriminate.
Qed.

Ltac ebind H i1 i2 x H1 H2 := apply emits_bind in H as (i1 & i2 & x & H1 & H2 & ->).
(* the four legacy prefixes of rex() *)
Lemma rex_mem s addr r type env pos its x2 : 
  emits (rex (OMem addr) (OReg r) type) env pos its x2 ->
  let e := getRegExp addr in
  NF_ r = false /\ ZU_ r = false /\
  x2 = regHasRex2 r || addrHasRex2 addr /\ (x2 = true -> has type (T_0F38 ||| T_0F3A) = false) /\
  exists f, render s its = pfx_bytes (pfx66 type (a_op addr) r) (has type T_F2) (has type T_F3) (is32bit addr) ++ rex_bytes f
  /\ rf_for f x2 (has type T_0F) (isREGb r 64) (isExt8bit r) r (e_index e) (e_base e).
Proof.
  intros H e. unfold rex in H. apply emits_fn in H. cbn [ob isMEM oBit] in H.
  destruct (NF_ (a_op addr) || NF_ r) eqn:NF; [einv H|].
  destruct (ZU_ (a_op addr) || ZU_ r) eqn:ZU; [einv H|].
  apply orb_false_iff in NF as [_ NF]. apply orb_false_iff in ZU as [_ ZU].
  cbn [isMEM ob] in H.
  ebind H i1 i2 u1 H1 H. ebind H i3 i4 u2 H2 H. ebind H i5 i6 u3 H3 H. ebind H i7 i8 u4 H4 H.
  apply (rex_tail s) in H as (-> & Hbad & f & Hf & Hrf).
  repeat split; auto. exists f. split; auto.
  rewrite !render_app. rewrite (render_when_db s _ _ _ _ _ _ H1), (render_when_db s _ _ _ _ _ _ H2),
    (render_when_db s _ _ _ _ _ _ H3), (render_when_db s _ _ _ _ _ _ H4), Hf.
  unfold pfx_bytes. rewrite <- !app_assoc. reflexivity.
Qed.
Lemma rex_reg s r1 r2 type env pos its x2 :
  emits (rex (OReg r1) (OReg r2) type) env pos its x2 ->
  NF_ r1 = false /\ NF_ r2 = false /\ ZU_ r1 = false /\ ZU_ r2 = false /\
  x2 = regHasRex2 r1 || regHasRex2 r2 /\ (x2 = true -> has type (T_0F38 ||| T_0F3A) = false) /\
  exists f, render s its = pfx_bytes (pfx66 type r1 r2) (has type T_F2) (has type T_F3) false ++ rex_bytes f
  /\ rf_for f x2 (has type T_0F) (isREGb r1 64 || isREGb r2 64) (isExt8bit r1 || isExt8bit r2) r2 noReg r1.
Proof.
  intros H. unfold rex in H. apply emits_fn in H. cbn [ob isMEM oBit] in H.
  destruct (NF_ r1 || NF_ r2) eqn:NF; [einv H|].
  destruct (ZU_ r1 || ZU_ r2) eqn:ZU; [einv H|].
  apply orb_false_iff in NF as [NF1 NF2]. apply orb_false_iff in ZU as [ZU1 ZU2].
  cbn [isMEM ob] in H.
  ebind H i1 i2 u1 H1 H. ebind H i3 i4 u2 H2 H. ebind H i5 i6 u3 H3 H.
  cbv zeta in H. rewrite <- orb_assoc in H.
  apply (rex_tail s) in H as (-> & Hbad & f & Hf & Hrf).
  repeat split; auto. exists f. split; auto.
  rewrite !render_app. rewrite (render_when_db s _ _ _ _ _ _ H1), (render_when_db s _ _ _ _ _ _ H2),
    (render_when_db s _ _ _ _ _ _ H3), Hf.
  unfold pfx_bytes. cbn [opt]. rewrite <- !app_assoc. reflexivity.
Qed.

(* ---- writeCode ---- *)
Definition final_opc (type : Z) (r : Reg) (code : Z) : Z :=
  w8 (code ||| b2z ((((type &&& T_SENTRY) =? 0) || has type T_CODE1_IF1) && negb (isBit r 8))).
Lemma has_lor x a b : has x (a ||| b) = has x a || has x b.
Proof.
  unfold has. rewrite Z.land_lor_distr_r.
  destruct (Z.eqb_spec (Z.land x a) 0) as [A|A].
  - rewrite A, Z.lor_0_l. reflexivity.
  - simpl. destruct (Z.eqb_spec (Z.lor (Z.land x a) (Z.land x b)) 0) as [Q|Q]; auto.
    apply Z.lor_eq_0_iff in Q as [Q _]. contradiction.
Qed.
Lemma writeCode_bytes s type r code x2 f is0F w e8 a b c env pos its u :
  emits (writeCode type r code x2) env pos its u ->
  (has type T_APX = true -> getMap type = 0) ->
  (x2 = true -> has type (T_0F38 ||| T_0F3A) = false) ->
  is0F = has type T_0F -> rf_for f x2 is0F w e8 a b c ->
  render s its = esc_bytes f (getMap type) ++ [final_opc type r code] /\ map_ok f (getMap type).
Proof.
  intros H Hapx Hbad -> (_ & _ & _ & _ & _ & Hf). unfold writeCode in H. ebind H i1 i2 u1 H1 H2.
  apply emits_db in H2 as ->. rewrite render_app. cbn [render render1 app].
  fold (final_opc type r code).
  assert (M4 : getMap type = 0 \/ getMap type = 1 \/ getMap type = 2 \/ getMap type = 3).
  { unfold getMap. destruct (has type T_0F), (has type T_0F38), (has type T_0F3A); auto. }
  destruct x2.
  - destruct Hf as (r4 & x4 & b4 & w' & r' & x' & b' & ->). rewrite orb_true_r in H1. simpl in H1.
    apply emits_ret in H1 as [-> _]. split; auto. simpl. specialize (Hbad eq_refl).
    rewrite has_lor in Hbad. apply orb_false_iff in Hbad as [B1 B2]. unfold getMap. rewrite B1, B2.
    destruct (has type T_0F); reflexivity.
  - rewrite orb_false_r in H1.
    assert (esc_bytes f (getMap type) = if getMap type =? 1 then [0x0F] else if getMap type =? 2 then [0x0F; 0x38]
             else if getMap type =? 3 then [0x0F; 0x3A] else []) as ->.
    { destruct f; auto. exfalso. eapply Hf; reflexivity. }
    assert (map_ok f (getMap type)). { destruct f; simpl; auto. exfalso. eapply Hf; reflexivity. }
    split; auto. f_equal.
    destruct (has type T_APX) eqn:APX; simpl in H1.
    + rewrite Hapx by auto. einv H1. reflexivity.
    + unfold getMap. destruct (has type T_0F); [einv H1; reflexivity|].
      destruct (has type T_0F38); [einv H1; rewrite ?render_app; reflexivity|].
      destruct (has type T_0F3A); [einv H1; rewrite ?render_app; reflexivity|]. einv H1; reflexivity.
Qed.

(* ---- register fields ---- *)
Lemma regno_split r : regno r = 16 * z01 (bit4 r) + 8 * z01 (bit3 r) + low3 r.
Proof. rewrite <- regno_getIdx. apply idx_split. Qed.
Lemma mod8_low3 r : getIdx r mod 8 = low3 r.
Proof. reflexivity. Qed.
Lemma rex2_false_bit4 r : regHasRex2 r = false -> (isREG r = false -> bit4 r = false) -> bit4 r = false.
Proof.
  unfold regHasRex2. rewrite isExtIdx2_bit4. destruct (isREG r); simpl; auto.
Qed.
Lemma noReg_bits : bit3 noReg = false /\ bit4 noReg = false.
Proof. split; reflexivity. Qed.
Lemma no_reg_bits r : no_reg r -> bit3 r = false /\ bit4 r = false.
Proof. intros (_ & _ & H). unfold bit3, bit4. rewrite H. split; reflexivity. Qed.
Lemma addr_gpr_isREG r : addr_gpr r -> isREG r = true.
Proof. intros (H & _). unfold isREG, is_. rewrite H. reflexivity. Qed.
Lemma addr_gpr_present r : addr_gpr r -> present r = true.
Proof. intros H. unfold present. apply addr_gpr_getBit in H. unfold getBit in H. rewrite H. reflexivity. Qed.
Lemma no_reg_present r : no_reg r -> present r = false.
Proof. intros H. unfold present. apply no_reg_getBit in H. unfold getBit in H. rewrite H. reflexivity. Qed.
Lemma vec_present r : vec_reg r -> present r = true.
Proof. intros H. unfold present. apply vec_getBit in H. unfold getBit in H. rewrite H. reflexivity. Qed.
Lemma vec_isVsib e : vec_reg (e_index e) -> isVsibE e vsib_bits = true.
Proof. intros ([(_ & H)|[(_ & H)|(_ & H)]] & _); unfold isVsibE, isBit; rewrite H; reflexivity. Qed.
Lemma addr_gpr_isVsib e : addr_gpr (e_index e) -> isVsibE e vsib_bits = false.
Proof. intros (_ & [H|H] & _); unfold isVsibE, isBit; rewrite H; reflexivity. Qed.

(* the number of a register whose extension bits are carried by the prefix *)
Lemma ext_sum (two : bool) r : (two = false -> bit4 r = false) ->
  (if two then 16 * z01 (bit4 r) else 0) + 8 * z01 (bit3 r) + low3 r = regno r.
Proof. intros H. rewrite regno_split. destruct two; auto. rewrite H by auto. reflexivity. Qed.

Lemma opAddr_modrm s a reg env pos its u h rest :
  wf_modrm a -> emits (opAddr a reg) env pos its u ->
  let e := getRegExp a in let vsib := isVsib a in
  d8_ok (disp8N a) ->
  (present (e_index e) = false -> h_X h = 0) ->
  (vsib = false -> present (e_index e) = true -> h_X h + low3 (e_index e) <> 4) ->
  (vsib = true -> permitVsib a = true) /\
  exists m,
    dec_rm h vsib (if disp8N a =? 0 then 1 else disp8N a) (render s its ++ rest) = Some (h_R h + reg mod 8, RMem m, rest)
    /\ m_base m = mem_base h e /\ m_index m = mem_index h vsib e
    /\ (present (e_index e) = true -> m_scale m = e_scale e)
    /\ m_disp m = s64 (e_disp e).
Proof.
  intros [Wm We Wv _] H e vsib Hd8 HX0 HX4. unfold opAddr in H. apply emits_fn in H.
  destruct (negb (permitVsib a) && isVsib a) eqn:Q; [einv H|].
  split. { intros V. unfold vsib in V. rewrite V, andb_true_r in Q. now apply negb_false_iff in Q. }
  rewrite Wm in H.
  eapply (setSIB_dec s _ _ _ _ _ _ _ h vsib _ rest) in H.
  - destruct H as (m & D & B & I & S & Dp & _). exists m. repeat split; eauto.
    intros P. apply S. unfold present in P. apply negb_true_iff, Z.eqb_neq in P. exact P.
  - apply getRegExp_wf; auto.
  - apply getRegExp_verified; auto.
  - auto.
  - reflexivity.
  - unfold vsib. symmetry. apply getRegExp_vsib; auto.
  - intros P. apply HX0. unfold present. unfold getBit in P. fold e in P. rewrite P. reflexivity.
  - intros V P. apply HX4; auto. unfold present. apply negb_true_iff, Z.eqb_neq. exact P.
Qed.

(* ---- opMR ---- *)
(* everything in front of the ModRM byte *)
Definition mr_header (addr : Address) (r : Reg) (type code : Z) (h : header) : Prop :=
  h = leg_header (mkPfx (pfx66 type (a_op addr) r) (uses32 (a_e addr)) (has type T_F2) (has type T_F3) false None)
            (h_rex h) (getMap type) (isREGb r 64) (h_R h) (h_X h) (h_B h) (final_opc type r code)
  /\ h_rex h = (regHasRex2 r || addrHasRex2 addr || isREGb r 64 || bit3 r
                 || bit3 (e_index (getRegExp addr)) || bit3 (e_base (getRegExp addr)) || isExt8bit r)
  /\ h_R h + low3 r = regno r
  /\ h_X h + low3 (e_index (getRegExp addr)) = regno (e_index (getRegExp addr))
  /\ h_B h + low3 (e_base (getRegExp addr)) = regno (e_base (getRegExp addr)).
Definition mr_checks (addr : Address) (r : Reg) (type : Z) : Prop :=
  (has type T_ALLOW_DIFF_SIZE = false -> bit_ r <= 64 -> 0 < bit_ (a_op addr) -> bit_ (a_op addr) = bit_ r)
  /\ NF_ r = false /\ ZU_ r = false /\ isVsib addr = false.

Lemma opMR_split s addr r type code env pos its u :
  wf_regexp (a_e addr) -> permitVsib addr = false ->
  (isREG r = false -> bit4 r = false) ->
  (has type T_APX = true -> getMap type = 0) ->
  opcode_ok (getMap type) (final_opc type r code) = true ->
  emits (opMR addr r type code 0 NONE) env pos its u ->
  exists h i1 i2,
    its = i1 ++ i2 /\ emits (opAddr addr (getIdx r)) env (pos + items_size i1) i2 u
    /\ (forall rest, dec_header (render s i1 ++ rest) = Some (h, rest))
    /\ mr_header addr r type code h /\ mr_checks addr r type /\ a_mode addr <> M_64bitDisp
    /\ (no_reg (e_index (getRegExp addr)) \/ addr_gpr (e_index (getRegExp addr))).
Proof.
  intros Wa Hpv Hr Hapx Hopc H. unfold opMR in H. apply emits_fn in H. cbv zeta in H. cbn [Z.eqb negb] in H.
  ebind H i0 i1 done H0 H. apply emits_ret in H0 as [-> ->].
  destruct (is64bitDisp addr) eqn:D64; [einv H|].
  destruct (negb (has type T_ALLOW_DIFF_SIZE) && (getBit r <=? BIT) && (0 <? getBit (a_op addr))
      && negb (getBit (a_op addr) =? getBit r)) eqn:SZ; [einv H|].
  ebind H i2 i3 x2 H1 H. ebind H i4 i5 u2 H2 H3.
  apply (rex_mem s) in H1 as (NF & ZU & Hx2 & Hbad & f & Hpre & Hrf). cbv zeta in Hrf.
  destruct (writeCode_bytes s _ _ _ _ f _ _ _ _ _ _ _ _ _ _ H2 Hapx Hbad eq_refl Hrf) as [Hcode Hmap].
  set (e := getRegExp addr) in *.
  pose proof (getRegExp_wf _ Wa) as We. fold e in We.
  pose proof (getRegExp_rex2 _ Wa) as Hr2. fold e in Hr2.
  pose proof (getRegExp_vsib _ Wa) as Hvs. fold e in Hvs.
  destruct Hrf as (FW & FR & FX & FB & Frex & _).
  set (h := leg_header (mkPfx (pfx66 type (a_op addr) r) (is32bit addr) (has type T_F2) (has type T_F3) false None)
              (rf_rex f) (getMap type) (rf_W f) (rf_R f) (rf_X f) (rf_B f) (final_opc type r code)).
  assert (NV : isVsib addr = false).
  { destruct (isVsib addr) eqn:V; auto. exfalso. unfold opAddr in H3. apply emits_fn in H3.
    rewrite Hpv, V in H3. simpl in H3. einv H3. }
  assert (IX : no_reg (e_index e) \/ addr_gpr (e_index e)).
  { destruct (wf_index _ We) as [Hn|[[Hg|Hv] _]]; auto. rewrite (vec_isVsib _ Hv) in Hvs. congruence. }
  (* extension bits absent from a one-byte REX are zero *)
  assert (Z4 : x2 = false -> bit4 r = false /\ bit4 (e_base e) = false /\ bit4 (e_index e) = false).
  { intros ->. symmetry in Hx2. apply orb_false_iff in Hx2 as [X1 X2]. rewrite <- Hr2 in X2.
    apply orb_false_iff in X2 as [X2 X3]. repeat split.
    - apply rex2_false_bit4; auto.
    - apply rex2_false_bit4; auto. destruct (wf_base _ We) as [Hn|Hg].
      + intros _. apply no_reg_bits; auto.
      + rewrite addr_gpr_isREG by auto. discriminate.
    - apply rex2_false_bit4; auto. destruct IX as [Hn|Hg].
      + intros _. apply no_reg_bits; auto.
      + rewrite addr_gpr_isREG by auto. discriminate. }
  exists h, (i2 ++ i4), i5. split; [cbn [app]; rewrite <- app_assoc; reflexivity|].
  split. { destruct u. rewrite items_size_app. cbn [items_size] in H3. replace (pos + (items_size i2 + items_size i4)) with (pos + 0 + items_size i2 + items_size i4) by lia. exact H3. }
  split.
  { intros rest. rewrite render_app, Hpre, Hcode. rewrite <- !app_assoc. cbn [app]. apply dec_header_legacy; auto. }
  split.
  { repeat split.
    - unfold h. cbn. rewrite FW, is32bit_uses32. unfold getRegExp. destruct (a_optimize addr); rewrite ?optimize_uses32; reflexivity.
    - unfold h. cbn [leg_header h_rex]. rewrite Frex, Hx2. reflexivity.
    - unfold h. cbn [leg_header h_R]. rewrite FR. apply ext_sum. apply Z4.
    - unfold h. cbn [leg_header h_X]. fold e. rewrite FX. apply ext_sum. apply Z4.
    - unfold h. cbn [leg_header h_B]. fold e. rewrite FB. apply ext_sum. apply Z4. }
  split.
  { split; auto. intros A L P. rewrite A in SZ. simpl in SZ. unfold getBit, BIT in *.
    apply Z.leb_le in L. rewrite L in SZ. apply Z.ltb_lt in P. rewrite P in SZ. simpl in SZ.
    apply negb_false_iff, Z.eqb_eq in SZ. auto. }
  split; [|auto]. intros Q. unfold is64bitDisp in D64. rewrite Q in D64. discriminate.
Qed.

Lemma mr_header_space addr r type code h : mr_header addr r type code h -> h_space h = Legacy.
Proof. intros (-> & _). reflexivity. Qed.

Lemma opMR_dec s addr r type code env pos its rest u :
  wf_modrm addr -> permitVsib addr = false -> disp8N addr = 0 ->
  (isREG r = false -> bit4 r = false) ->
  (has type T_APX = true -> getMap type = 0) ->
  opcode_ok (getMap type) (final_opc type r code) = true ->
  emits (opMR addr r type code 0 NONE) env pos its u ->
  exists h m, decode false 1 (render s its ++ rest) = Some (h, regno r, RMem m, rest)
   /\ mem_matches (getRegExp addr) m
   /\ mr_header addr r type code h /\ mr_checks addr r type.
Proof.
  intros Wa Hpv Hd8 Hr Hapx Hopc H.
  destruct (opMR_split s _ _ _ _ _ _ _ _ (wm_e _ Wa) Hpv Hr Hapx Hopc H)
    as (h & i1 & i2 & -> & H3 & HH & Hh & Hc & _ & IX).
  pose proof (mr_header_space _ _ _ _ _ Hh) as Hsp.
  pose proof Hh as (_ & _ & ER & EX & EB). destruct Hc as (Hc1 & Hc2 & Hc3 & NV).
  set (e := getRegExp addr) in *.
  pose proof (getRegExp_verified _ (wm_ver _ Wa)) as Ve. fold e in Ve.
  destruct (opAddr_modrm s _ _ _ _ _ _ h rest Wa H3) as (_ & m & Dm & Mb & Mi & Ms & Md).
  { rewrite Hd8. left; auto. }
  { intros P. fold e in P. destruct IX as [Hn|Hg]; [|rewrite addr_gpr_present in P; [discriminate|auto]].
    rewrite regno_split in EX. destruct (no_reg_bits _ Hn) as [B3 B4]. rewrite B3, B4 in EX. simpl in EX. lia. }
  { intros _ P. fold e in P |- *. rewrite EX. destruct IX as [Hn|Hg].
    - rewrite no_reg_present in P; [discriminate|auto].
    - rewrite <- regno_getIdx. apply (ver_sp _ Ve); auto. }
  rewrite NV, Hd8 in Dm. cbn [Z.eqb] in Dm. fold e in Mb, Mi, Ms, Md.
  exists h, m. split.
  { unfold decode. rewrite !render_app, <- app_assoc, HH, Hsp, Dm, mod8_low3, ER. reflexivity. }
  split; [|split; [auto|repeat split; auto]].
  split; [|split; [|split]]; auto.
  - rewrite Mb. unfold mem_base, present. fold (getBit (e_base e)).
    destruct (getBit (e_base e) =? 0) eqn:Q; unfold getBit in Q; cbn [negb]; [reflexivity | rewrite EB; reflexivity].
  - rewrite Mi. unfold mem_index, present. rewrite NV. fold (getBit (e_index e)).
    destruct (getBit (e_index e) =? 0) eqn:Q; unfold getBit in Q; cbn [negb]; [reflexivity | rewrite EX; reflexivity].
Qed.

(* ---- rip-relative operands ---- *)
Definition wf_rip (a : Address) : Prop :=
  (a_mode a = M_rip \/ a_mode a = M_ripAddr) /\ no_reg (e_base (a_e a)) /\ no_reg (e_index (a_e a))
  /\ 0 <= e_disp (a_e a) < 18446744073709551616.
Lemma wf_rip_regexp a : wf_rip a -> wf_regexp (a_e a).
Proof. intros (_ & Hb & Hi & Hd). split; auto. Qed.
Lemma wf_rip_vsib a : wf_rip a -> isVsib a = false.
Proof. intros (_ & _ & (_ & Hb & _) & _). unfold isVsib, isVsibE, isBit. rewrite Hb. reflexivity. Qed.
Lemma int32_s64 x : IsInInt32 x = true -> s32 (w32 x) = s64 x.
Proof.
  unfold IsInInt32, s32, s64. intros H.
  assert (EQ : w32 (w32 x) = w32 (w64 x)).
  { rewrite (w32_small (w32 x)) by apply w32_range. unfold w32, w64. apply Znumtheory.Zmod_div_mod; try lia. exists 4294967296. lia. }
  rewrite EQ. pose proof (w64_range x) as R. generalize dependent (w64 x). intros y H _ R.
  apply orb_true_iff in H as [H|H]; apply Z.leb_le in H.
  - assert (w32 y = y - 18446744069414584320) as ->. { unfold w32. symmetry. apply Z.mod_unique with (q := 4294967295); lia. }
    destruct (Z.ltb_spec (y - 18446744069414584320) 2147483648); destruct (Z.ltb_spec y 9223372036854775808); lia.
  - rewrite w32_small by lia. destruct (Z.ltb_spec y 2147483648); destruct (Z.ltb_spec y 9223372036854775808); lia.
Qed.
Lemma s64_mod x : (s64 x) mod 2 ^ 64 = x mod 2 ^ 64.
Proof.
  unfold s64, w64. change (2 ^ 64) with 18446744073709551616.
  destruct (_ <? _); [apply Z.mod_mod; lia|].
  rewrite <- (Z.mod_add (x mod 18446744073709551616 - 18446744073709551616) 1) by lia.
  replace (x mod 18446744073709551616 - 18446744073709551616 + 1 * 18446744073709551616) with (x mod 18446744073709551616) by lia.
  apply Z.mod_mod; lia.
Qed.

(* the decoded operand of a rip form: what its displacement field means *)
Definition rip_meaning (s : sigma_t) (env : Env) (a : Address) (next : Z) (d : Z) : Prop :=
  match a_label a with
  | Some l => d = s32 (s (LObj l) true (w64 (getDisp a - immSize a)))
  | None =>
      match a_mode a with
      | M_ripAddr => env_autoGrow env = false /\ (next + d) mod 2 ^ 64 = getDisp a mod 2 ^ 64
      | _ => d = s64 (getDisp a)
      end
  end.
Lemma opAddr_rip s a reg env pos its u h n8 rest :
  wf_rip a -> emits (opAddr a reg) env pos its u ->
  exists d,
    dec_rm h false n8 (render s its ++ rest) = Some (h_R h + reg mod 8, RMem (mkMem BRip None 1 d), rest)
    /\ items_size its = 5
    /\ rip_meaning s env a (env_top env + pos + items_size its + immSize a) d.
Proof.
  intros Wa H. unfold opAddr in H. apply emits_fn in H. rewrite (wf_rip_vsib _ Wa), andb_false_r in H.
  assert (H' : emits (setModRM 0 reg 5 ;;;
       match a_label a with
       | Some l => emit (IPutL (LObj l) true (w64 (getDisp a - immSize a)))
       | None =>
           disp <- (match a_mode a with
                    | M_ripAddr =>
                        env <- ask ;;
                        if env_autoGrow env then throw ERR_INVALID_RIP_IN_AUTO_GROW else
                        c <- getCurr ;;
                        ret (w64 (getDisp a - (c + 4 + immSize a)))
                    | _ => ret (getDisp a)
                    end) ;;
           d <- VerifyInInt32 disp ;;
           dd d
       end) env pos its u).
  { destruct Wa as ([M|M] & _); rewrite M in H |- *; exact H. }
  clear H. rename H' into H. ebind H i1 i2 u1 H1 H. apply emits_db in H1 as ->.
  cbn [items_size item_size] in H.
  destruct (modrm_fields 0 reg 5 ltac:(lia)) as (F1 & F2 & F3).
  assert (Hdec : forall bs d, dec_disp n8 2 (bs ++ rest) = Some (d, rest) ->
    dec_rm h false n8 (w8 (w8 ((0 <<< 6) ||| ((reg &&& 7) <<< 3) ||| (5 &&& 7))) :: bs ++ rest)
    = Some (h_R h + reg mod 8, RMem (mkMem BRip None 1 d), rest)).
  { intros bs d Hd. rewrite w8_idem. fold (modrm_byte 0 reg 5). unfold dec_rm. cbv zeta.
    rewrite F1, F2, F3. cbn [Z.eqb]. change (5 mod 8 =? 4) with false. change (5 mod 8 =? 5) with true. cbn [andb].
    rewrite Hd. reflexivity. }
  destruct (a_label a) as [l|] eqn:L.
  - apply emits_emit in H as ->. cbn [app render render1 items_size item_size]. rewrite app_nil_r. rewrite w8_idem in *.
    eexists. split; [apply Hdec, dec_disp32|]. split; [reflexivity|]. unfold rip_meaning. rewrite L. reflexivity.
  - ebind H i3 i4 disp H2 H. ebind H i5 i6 d H3 H.
    unfold VerifyInInt32 in H3. apply emits_fn in H3. destruct (IsInInt32 disp) eqn:I32; [|einv H3].
    apply emits_ret in H3 as [-> ->].
    assert (Hsz : items_size i6 = 4). { rewrite <- (render_size s). rewrite (dd_render s _ _ _ _ _ H). reflexivity. }
    apply (dd_render s) in H.
    destruct Wa as ([M|M] & Hrest); rewrite M in H2.
    + apply emits_ret in H2 as [-> ->]. cbn [app render render1 items_size item_size]. rewrite H, Hsz. rewrite w8_idem in *.
      eexists. split; [apply Hdec, dec_disp32|]. split; [reflexivity|].
      unfold rip_meaning. rewrite L, M. apply int32_s64; auto.
    + ebind H2 j1 j2 en J1 J. apply emits_ask in J1 as [-> ->].
      destruct (env_autoGrow env) eqn:AG; [einv J|]. ebind J j3 j4 c J2 J. apply emits_getCurr in J2 as [-> ->].
      apply emits_ret in J as [-> ->]. cbn [app render render1 items_size item_size] in *. rewrite H, Hsz. rewrite w8_idem in *.
      eexists. split; [apply Hdec, dec_disp32|]. split; [reflexivity|].
      unfold rip_meaning. rewrite L, M. split; auto. rewrite int32_s64 by auto.
      rewrite <- Zplus_mod_idemp_r, s64_mod, Zplus_mod_idemp_r.
      unfold w64. change 18446744073709551616 with (2 ^ 64).
      rewrite Zplus_mod_idemp_r.
      match goal with |- context [(env_top env + ?p) mod _] => set (P := p) end.
      rewrite (Z.mod_eq (env_top env + P)) by lia.
      match goal with |- ?x mod _ = _ =>
        replace x with (getDisp a + ((env_top env + P) / 2 ^ 64) * 2 ^ 64) by (unfold P; lia) end.
      apply Z.mod_add. lia.
Qed.

(* ---- opRR ---- *)
Lemma opRR_dec s r1 r2 type code env pos its rest u :
  (isREG r1 = false -> bit4 r1 = false) -> (isREG r2 = false -> bit4 r2 = false) ->
  (has type T_APX = true -> getMap type = 0) ->
  opcode_ok (getMap type) (final_opc type r1 code) = true ->
  emits (opRR r1 r2 type code) env pos its u ->
  exists h, decode false 1 (render s its ++ rest) = Some (h, regno r1, RReg (regno r2) (regno r2), rest)
   /\ h = leg_header (mkPfx (pfx66 type r2 r1) false (has type T_F2) (has type T_F3) false None)
            (h_rex h) (getMap type) (isREGb r2 64 || isREGb r1 64) (h_R h) 0 (h_B h) (final_opc type r1 code)
   /\ h_rex h = (regHasRex2 r2 || regHasRex2 r1 || (isREGb r2 64 || isREGb r1 64) || bit3 r1 || bit3 r2
                 || (isExt8bit r2 || isExt8bit r1))
   /\ (has type T_ALLOW_DIFF_SIZE = false -> isREG r1 = true -> isREG r2 = true -> bit_ r1 = bit_ r2)
   /\ (has type T_ALLOW_ABCDH = false -> isBadCombination r1 r2 = false /\ isBadCombination r2 r1 = false)
   /\ NF_ r1 = false /\ ZU_ r1 = false /\ NF_ r2 = false /\ ZU_ r2 = false.
Proof.
  intros Hr1 Hr2 Hapx Hopc H. unfold opRR in H. apply emits_fn in H.
  destruct (negb (has type T_ALLOW_DIFF_SIZE) && isREG r1 && isREG r2 && negb (getBit r1 =? getBit r2)) eqn:SZ; [einv H|].
  destruct (negb (has type T_ALLOW_ABCDH) && (isBadCombination r1 r2 || isBadCombination r2 r1)) eqn:AB; [einv H|].
  ebind H i2 i3 x2 H1 H. ebind H i4 i5 u2 H2 H3. apply emits_db in H3 as ->.
  apply (rex_reg s) in H1 as (NF1 & NF2 & ZU1 & ZU2 & Hx2 & Hbad & f & Hpre & Hrf).
  destruct (writeCode_bytes s _ _ _ _ f _ _ _ _ _ _ _ _ _ _ H2 Hapx Hbad eq_refl Hrf) as [Hcode Hmap].
  destruct Hrf as (FW & FR & FX & FB & Frex & _).
  set (mb := w8 (w8 _)). 
  pose proof (dec_header_legacy (pfx66 type r2 r1) (has type T_F2) (has type T_F3) false f
                (getMap type) (final_opc type r1 code) (mb :: rest) Hmap Hopc) as HH.
  set (h := leg_header _ _ _ _ _ _ _ _) in HH.
  assert (Z4 : x2 = false -> bit4 r1 = false /\ bit4 r2 = false).
  { intros ->. symmetry in Hx2. apply orb_false_iff in Hx2 as [X1 X2]. split; apply rex2_false_bit4; auto. }
  assert (EB : h_B h + low3 r2 = regno r2).
  { unfold h. cbn [leg_header h_B]. rewrite FB. apply ext_sum. apply Z4. }
  assert (ER : h_R h + low3 r1 = regno r1).
  { unfold h. cbn [leg_header h_R]. rewrite FR. apply ext_sum. apply Z4. }
  assert (Hmb : mb = modrm_byte 3 (getIdx r1) (getIdx r2)) by (unfold mb; rewrite !w8_idem; reflexivity).
  destruct (modrm_fields 3 (getIdx r1) (getIdx r2) ltac:(lia)) as (F1 & F2 & F3). rewrite <- Hmb in F1, F2, F3.
  exists h. split.
  { unfold decode. rewrite !render_app, Hpre, Hcode. cbn [render render1 app]. fold mb. rewrite <- !app_assoc. cbn [app].
    rewrite HH. unfold h at 1 2. cbn [leg_header h_space]. fold h.
    unfold dec_rm. cbv zeta. rewrite F1, F2, F3. cbn [Z.eqb Pos.eqb].
    fold (low3 r1) (low3 r2). rewrite ER, EB. unfold h at 2. cbn [leg_header h_space]. reflexivity. }
  split. { unfold h. cbn. rewrite FW, FX. destruct x2; reflexivity. }
  split. { unfold h. cbn [leg_header h_rex]. rewrite Frex, Hx2. change (bit3 noReg) with false. rewrite orb_false_r. rewrite !orb_assoc. reflexivity. }
  split. { intros A R1 R2. rewrite A, R1, R2 in SZ. simpl in SZ. apply negb_false_iff, Z.eqb_eq in SZ. auto. }
  split; auto. intros A. rewrite A in AB. simpl in AB. now apply orb_false_iff in AB.
Qed.

Lemma opMR_rip_dec s addr r type code env pos its rest u :
  wf_rip addr -> permitVsib addr = false ->
  (isREG r = false -> bit4 r = false) ->
  (has type T_APX = true -> getMap type = 0) ->
  opcode_ok (getMap type) (final_opc type r code) = true ->
  emits (opMR addr r type code 0 NONE) env pos its u ->
  exists h d, decode false 1 (render s its ++ rest) = Some (h, regno r, RMem (mkMem BRip None 1 d), rest)
   /\ rip_meaning s env addr (env_top env + (pos + items_size its) + immSize addr) d
   /\ mr_header addr r type code h /\ mr_checks addr r type.
Proof.
  intros Wa Hpv Hr Hapx Hopc H.
  destruct (opMR_split s _ _ _ _ _ _ _ _ (wf_rip_regexp _ Wa) Hpv Hr Hapx Hopc H)
    as (h & i1 & i2 & -> & H3 & HH & Hh & Hc & _ & IX).
  pose proof (mr_header_space _ _ _ _ _ Hh) as Hsp.
  pose proof Hh as (_ & _ & ER & _).
  destruct (opAddr_rip s _ _ _ _ _ _ h 1 rest Wa H3) as (d & Dm & Hsz & Hm).
  exists h, d. split.
  { unfold decode. rewrite !render_app, <- app_assoc, HH, Hsp, Dm, mod8_low3, ER. reflexivity. }
  split; auto. rewrite items_size_app.
  replace (env_top env + (pos + (items_size i1 + items_size i2)) + immSize addr)
    with (env_top env + (pos + items_size i1) + items_size i2 + immSize addr) by lia. exact Hm.
Qed.
