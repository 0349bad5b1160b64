(* Decoding of the ModRM/SIB/displacement bytes emitted by setSIB / opAddr. *)
From Coq Require Import ZArith List Bool Lia.
From Verif Require Import Base Types Emit Encode SpecX86 EmitFacts BitFacts Wf.
Import ListNotations.
Open Scope Z_scope.

Ltac einv H :=
  match type of H with
  | emits (fn _ _) _ _ _ _ => apply emits_fn in H; einv H
  | emits (ret _) _ _ _ _ =>
      let a := fresh in let b := fresh in apply emits_ret in H as [a b]; try subst
  | emits (throw _) _ _ _ _ => exfalso; exact (emits_throw _ _ _ _ _ H)
  | emits (db _) _ _ _ _ => apply emits_db in H; try subst
  | emits (setModRM _ _ _) _ _ _ _ => apply emits_db in H; try subst
  | emits (emit _) _ _ _ _ => apply emits_emit in H; try subst
  | emits (bind _ _) _ _ _ _ =>
      let i1 := fresh "i" in let i2 := fresh "i" in let a := fresh "a" in
      let H1 := fresh "H" in let H2 := fresh "H" in let E := fresh "E" in
      apply emits_bind in H as (i1 & i2 & a & H1 & H2 & E); try subst;
      einv H1; try einv H2
  | emits (if ?c then _ else _) _ _ _ _ =>
      let C := fresh "C" in destruct c eqn:C; try einv H
  | emits (let x := _ in _) _ _ _ _ => cbv zeta in H; einv H
  | emits (match ?p with (_, _) => _ end) _ _ _ _ => let Q := fresh "Q" in destruct p eqn:Q; einv H
  | emits (match ?p with Some _ => _ | None => _ end) _ _ _ _ => let Q := fresh "Q" in destruct p eqn:Q; einv H
  | _ => idtac
  end.

Lemma disp_small d : 0 <= d < 18446744073709551616 ->
  ((d >>> 31) =? 0) || ((d >>> 31) =? 0x1FFFFFFFF) = true ->
  s64 d = s32 (w32 d) /\ -2147483648 <= s64 d < 2147483648.
Proof.
  intros Hd H. rewrite Z.shiftr_div_pow2 in H by lia. change (2 ^ 31) with 2147483648 in H.
  unfold s64, s32. rewrite (w64_small d) by lia.
  rewrite (w32_small (w32 d)) by apply w32_range.
  apply orb_true_iff in H as [H|H]; apply Z.eqb_eq in H.
  - assert (d < 2147483648) by (apply Z.div_small_iff in H; lia).
    rewrite w32_small by lia. destruct (Z.ltb_spec d 9223372036854775808); destruct (Z.ltb_spec d 2147483648); lia.
  - pose proof (Z.div_mod d 2147483648 ltac:(lia)). rewrite H in H0.
    pose proof (Z.mod_pos_bound d 2147483648 ltac:(lia)).
    assert (w32 d = d - 18446744069414584320) as ->.
    { unfold w32. symmetry. apply Z.mod_unique with (q := 4294967295); lia. }
    destruct (Z.ltb_spec d 9223372036854775808); destruct (Z.ltb_spec (d - 18446744069414584320) 2147483648); lia.
Qed.

Lemma s32_range x : -2147483648 <= s32 x < 2147483648.
Proof. unfold s32. pose proof (w32_range x). destruct (Z.ltb_spec (w32 x) 2147483648); lia. Qed.

Lemma disp8_val x : IsInDisp8 x = true -> signed 8 (w8 x) = s32 x.
Proof.
  unfold IsInDisp8, signed, s32. intros H. change (2 ^ (8 - 1)) with 128. change (2 ^ 8) with 256.
  assert (EQ : w8 x = w8 (w32 x)).
  { unfold w8, w32. apply Znumtheory.Zmod_div_mod; try lia. exists 16777216. lia. }
  rewrite EQ. clear EQ. pose proof (w32_range x) as R. generalize dependent (w32 x). intros y H R.
  apply orb_true_iff in H as [H|H]; apply Z.leb_le in H.
  - assert (w8 y = y - 4294967040) as ->. { unfold w8. symmetry. apply Z.mod_unique with (q := 16777215); lia. }
    destruct (Z.ltb_spec (y - 4294967040) 128); destruct (Z.ltb_spec y 2147483648); lia.
  - rewrite w8_small by lia. destruct (Z.ltb_spec y 128); destruct (Z.ltb_spec y 2147483648); lia.
Qed.

(* the emitted 32-bit little-endian field *)
Lemma dd_render s c env pos its a : emits (dd c) env pos its a -> render s its = le_bytes c 4.
Proof.
  unfold dd. intros H. apply emits_dbn in H as [_ ->]. rewrite le_bytes_w8, render_IDb.
  rewrite le_bytes_w64 by (simpl; lia). apply le_bytes_w32. simpl; lia.
Qed.

Lemma le32_val v : signed 32 (w8 v + 256 * (w8 (v / 256) + 256 * (w8 (v / 256 / 256) + 256 * w8 (v / 256 / 256 / 256))))
  = s32 v.
Proof.
  unfold signed, s32. change (2 ^ (32 - 1)) with 2147483648. change (2 ^ 32) with 4294967296.
  assert (w8 v + 256 * (w8 (v / 256) + 256 * (w8 (v / 256 / 256) + 256 * w8 (v / 256 / 256 / 256))) = w32 v) as ->; auto.
  unfold w8, w32. change 4294967296 with (256 * (256 * (256 * 256))).
  rewrite Z.rem_mul_r by lia. f_equal. f_equal.
  rewrite Z.rem_mul_r by lia. f_equal. f_equal.
  rewrite Z.rem_mul_r by lia. reflexivity.
Qed.

Lemma dec_disp32 n8 v rest : dec_disp n8 2 (le_bytes v 4 ++ rest) = Some (s32 v, rest).
Proof. cbn [dec_disp le_bytes app Z.eqb]. unfold dec_disp. simpl Z.eqb. cbv iota. rewrite le32_val. reflexivity. Qed.

Definition modrm_byte (md a b : Z) : Z := w8 ((md <<< 6) ||| ((a &&& 7) <<< 3) ||| (b &&& 7)).
Lemma modrm_fields md a b : 0 <= md < 4 ->
  modrm_byte md a b / 64 = md /\ modrm_byte md a b / 8 mod 8 = a mod 8 /\ modrm_byte md a b mod 8 = b mod 8.
Proof.
  intros Hm. unfold modrm_byte. rewrite !land7.
  pose proof (Z.mod_pos_bound a 8 ltac:(lia)). pose proof (Z.mod_pos_bound b 8 ltac:(lia)).
  generalize dependent (a mod 8). generalize dependent (b mod 8). intros b' Hb a' Ha.
  rewrite modrm_sum by lia. rewrite w8_small by lia.
  repeat split.
  - symmetry. apply Z.div_unique with (r := a' * 8 + b'); lia.
  - replace (md * 64 + a' * 8 + b') with (b' + (md * 8 + a') * 8) by lia.
    rewrite Z.div_add by lia. rewrite (Z.div_small b') by lia. rewrite Z.add_0_l.
    symmetry. apply Z.mod_unique with (q := md); lia.
  - symmetry. apply Z.mod_unique with (q := md * 8 + a'); lia.
Qed.

Lemma no_reg_getBit r : no_reg r -> (getBit r =? 0) = true.
Proof. intros (_ & H & _). unfold getBit. rewrite H. reflexivity. Qed.
Lemma addr_gpr_getBit r : addr_gpr r -> (getBit r =? 0) = false.
Proof. intros (_ & [H|H] & _); unfold getBit; rewrite H; reflexivity. Qed.
Lemma vec_getBit r : vec_reg r -> (getBit r =? 0) = false.
Proof. intros ([(_ & H)|[(_ & H)|(_ & H)]] & _); unfold getBit; rewrite H; reflexivity. Qed.

(* what the decoded memory operand must be *)
Definition mem_base (h : header) (e : RegExp) : mbase :=
  if getBit (e_base e) =? 0 then BNone else BReg (h_B h + low3 (e_base e)).
Definition mem_index (h : header) (vsib : bool) (e : RegExp) : option Z :=
  if getBit (e_index e) =? 0 then None
  else if vsib then
    Some (match h_space h with
          | Evex => 16 * z_of (h_vbit4 h) + 8 * z_of (tb (h_X h) 3) + low3 (e_index e)
          | _ => h_X h + low3 (e_index e) end)
  else Some (h_X h + low3 (e_index e)).

Lemma scale_SS s : scale_ok s ->
  2 ^ (if s =? 8 then 3 else if s =? 4 then 2 else if s =? 2 then 1 else 0) = s.
Proof. intros [->|[->|[->| ->]]]; reflexivity. Qed.

Definition d8_ok (n : Z) : Prop :=
  n = 0 \/ n = 1 \/ n = 2 \/ n = 4 \/ n = 8 \/ n = 16 \/ n = 32 \/ n = 64 \/ n = 128.

(* the displacement part of setSIB, for an operand with a base register *)
Lemma disp8N_val d n : 1 <= n -> 
  (w32 d mod n =? 0) && IsInDisp8 (w32 (Z.quot (s32 (w32 d)) n)) = true ->
  (exists k, n = 2 ^ k /\ 0 <= k <= 32) ->
  signed 8 (w8 (w32 (Z.quot (s32 (w32 d)) n))) * n = s32 (w32 d).
Proof.
  intros Hn H (k & -> & Hk). apply andb_true_iff in H as [H1 H2]. apply Z.eqb_eq in H1.
  rewrite (disp8_val _ H2).
  pose proof (w32_range d) as R.
  assert (D : (2 ^ k | 4294967296)).
  { exists (2 ^ (32 - k)). rewrite <- Z.pow_add_r by lia. replace (32 - k + k) with 32 by lia. reflexivity. }
  assert (D2 : (2 ^ k | s32 (w32 d))).
  { apply Z.mod_divide in H1; [|lia]. unfold s32. rewrite (w32_small (w32 d)) by auto.
    destruct (w32 d <? 2147483648); auto. apply Z.divide_sub_r; auto. }
  pose proof (s32_range (w32 d)) as R2. generalize dependent (s32 (w32 d)). intros v H2 D2 R2.
  destruct D2 as [q ->]. rewrite Z.quot_mul in * by lia.
  f_equal. unfold s32. rewrite (w32_small (w32 q)) by apply w32_range.
  unfold w32. destruct (Z.ltb_spec (q mod 4294967296) 2147483648) as [L|L].
  - assert (-2147483648 <= q < 2147483648) by nia.
    destruct (Z_lt_le_dec q 0).
    + rewrite <- (Z.mod_add q 1) in L by lia. rewrite Z.mod_small in L; lia.
    + apply Z.mod_small; lia.
  - assert (-2147483648 <= q < 2147483648) by nia.
    destruct (Z_lt_le_dec q 0).
    + rewrite <- (Z.mod_add q 1) by lia. rewrite Z.mod_small; lia.
    + rewrite Z.mod_small in L; lia.
Qed.

Lemma d8_pow2 n : d8_ok n -> n <> 0 -> exists k, n = 2 ^ k /\ 0 <= k <= 32.
Proof.
  intros [->|[->|[->|[->|[->|[->|[->|[->| ->]]]]]]]] H; try lia;
  [exists 0|exists 1|exists 2|exists 3|exists 4|exists 5|exists 6|exists 7]; split; try reflexivity; lia.
Qed.

Lemma setSIB_dec s e reg d8 env pos its a h vsib n8 rest :
  wf_regexp e -> verified e -> d8_ok d8 -> n8 = (if d8 =? 0 then 1 else d8) ->
  vsib = isVsibE e vsib_bits ->
  (getBit (e_index e) = 0 -> h_X h = 0) ->
  (vsib = false -> getBit (e_index e) <> 0 -> h_X h + low3 (e_index e) <> 4) ->
  emits (setSIB e reg d8) env pos its a ->
  exists m,
    dec_rm h vsib n8 (render s its ++ rest) = Some (h_R h + reg mod 8, RMem m, rest)
    /\ m_base m = mem_base h e /\ m_index m = mem_index h vsib e
    /\ (getBit (e_index e) <> 0 -> m_scale m = e_scale e)
    /\ m_disp m = s64 (e_disp e) /\ -2147483648 <= s64 (e_disp e) < 2147483648.
Proof.
  intros We Ve Hd8 Hn8 Hvs HX0 HX4 H. unfold setSIB in H. apply emits_fn in H. cbv zeta in H.
  destruct (negb (e_disp e >>> 31 =? 0) && negb (e_disp e >>> 31 =? 8589934591)) eqn:Hhi;
    [einv H|].
  rewrite <- negb_orb in Hhi. apply negb_false_iff in Hhi.
  destruct (disp_small _ (wf_disp _ We) Hhi) as [Hs64 Hrange].
  set (d := w32 (e_disp e)) in *.
  set (sel := if (getBit (e_base e) =? 0) || _ then _ else _) in H.
  (* what the selected mod/displacement mean *)
  assert (Hsel : exists md d', sel = (md, d') /\
     ((getBit (e_base e) = 0 /\ md = 0 /\ d' = d) \/
      (getBit (e_base e) <> 0 /\ md = 0 /\ low3 (e_base e) <> 5 /\ s64 (e_disp e) = 0) \/
      (getBit (e_base e) <> 0 /\ md = 1 /\ signed 8 (w8 d') * n8 = s64 (e_disp e)) \/
      (getBit (e_base e) <> 0 /\ md = 2 /\ d' = d))).
  { unfold sel. rewrite land7. fold (low3 (e_base e)).
    destruct (getBit (e_base e) =? 0) eqn:Hb; simpl.
    - exists 0, d. split; auto. left. apply Z.eqb_eq in Hb. auto.
    - apply Z.eqb_neq in Hb. destruct (low3 (e_base e) =? 5) eqn:H5; simpl.
      + destruct (d8 =? 0) eqn:D0.
        * destruct (IsInDisp8 d) eqn:I8.
          -- exists 1, d. split; auto. right. right. left. rewrite disp8_val by auto. subst n8. rewrite Hs64. repeat split; auto. lia.
          -- exists 2, d. split; [reflexivity|]. right; right; right; auto.
        * apply Z.eqb_neq in D0. destruct (d8_pow2 _ Hd8 D0) as (k & Hk & Hk2).
          assert (1 <= d8) by (unfold d8_ok in Hd8; lia).
          destruct ((d mod d8 =? 0) && IsInDisp8 (w32 (s32 d ÷ d8))) eqn:Q.
          -- eexists 1, _. split; [reflexivity|]. right. right. left. repeat split; auto.
             subst n8. unfold d in *. rewrite disp8N_val; auto. eauto.
          -- exists 2, d. split; [reflexivity|]. right; right; right; auto.
      + destruct (d =? 0) eqn:Dz.
        * exists 0, d. split; auto. right. left. repeat split; auto.
          -- apply Z.eqb_neq; auto.
          -- rewrite Hs64. apply Z.eqb_eq in Dz. rewrite Dz. reflexivity.
        * destruct (d8 =? 0) eqn:D0.
          -- destruct (IsInDisp8 d) eqn:I8.
             ++ exists 1, d. split; auto. right. right. left. rewrite disp8_val by auto. subst n8. rewrite Hs64. repeat split; auto. lia.
             ++ exists 2, d. split; [reflexivity|]. right; right; right; auto.
          -- apply Z.eqb_neq in D0. destruct (d8_pow2 _ Hd8 D0) as (k & Hk & Hk2).
             assert (1 <= d8) by (unfold d8_ok in Hd8; lia).
             destruct ((d mod d8 =? 0) && IsInDisp8 (w32 (s32 d ÷ d8))) eqn:Q.
             ++ eexists 1, _. split; [reflexivity|]. right. right. left. repeat split; auto.
                subst n8. unfold d in *. rewrite disp8N_val; auto. eauto.
             ++ exists 2, d. split; [reflexivity|]. right; right; right; auto. }
  destruct Hsel as (md & d' & Esel & Hmd). rewrite Esel in H. clear Esel sel.
  rewrite !land7 in H. fold (low3 (e_base e)) in H. fold (low3 (e_index e)) in H.
  assert (Hmdr : 0 <= md < 4) by lia.
  assert (Hs32 : s32 d = s64 (e_disp e)) by auto.
  set (hasSIB := negb _ || _ || _) in H.
  apply emits_bind in H as (i1 & i2 & [] & H1 & H2 & ->).
  rewrite render_app.
  (* the displacement field decodes to the displacement *)
  assert (Hdisp : exists md2, md2 = (if (md =? 0) && (getBit (e_base e) =? 0) then 2 else md) /\
     dec_disp n8 md2 (render s i2 ++ rest) = Some (s64 (e_disp e), rest)).
  { eexists. split; [reflexivity|].
    destruct Hmd as [(Hb & -> & ->)|[(Hb & -> & H5 & Hz)|[(Hb & -> & Hv)|(Hb & -> & ->)]]].
    - rewrite Hb in *. simpl in H2. simpl Z.eqb. simpl andb. cbv iota.
      rewrite (dd_render s _ _ _ _ _ H2), dec_disp32, Hs32. reflexivity.
    - apply Z.eqb_neq in Hb. rewrite Hb in *. simpl in H2. einv H2. simpl. unfold dec_disp. simpl. rewrite Hz. reflexivity.
    - simpl in H2. einv H2. cbn [render render1 app]. unfold dec_disp. simpl. rewrite Hv. reflexivity.
    - simpl in H2. simpl andb. cbv iota. rewrite (dd_render s _ _ _ _ _ H2), dec_disp32, Hs32. reflexivity. }
  destruct Hdisp as (md2 & Emd2 & Hdisp).
  destruct hasSIB eqn:HSIB.
  - (* SIB form *)
    apply emits_bind in H1 as (j1 & j2 & [] & J1 & J2 & ->).
    apply emits_db in J1 as ->. apply emits_db in J2 as ->.
    rewrite render_app. cbn [render render1 app]. rewrite !w8_idem.
    fold (modrm_byte md reg 4).
    set (SS := if e_scale e =? 8 then 3 else _).
    set (ix := if getBit (e_index e) =? 0 then 4 else low3 (e_index e)).
    set (bs := if getBit (e_base e) =? 0 then 5 else low3 (e_base e)).
    fold (modrm_byte SS ix bs).
    assert (HSS : 0 <= SS < 4) by (unfold SS; repeat destruct (_ =? _); lia).
    pose proof (low3_range (e_index e)). pose proof (low3_range (e_base e)).
    assert (Hix : 0 <= ix < 8) by (unfold ix; destruct (getBit (e_index e) =? 0); lia).
    assert (Hbs : 0 <= bs < 8) by (unfold bs; destruct (getBit (e_base e) =? 0); lia).
    destruct (modrm_fields md reg 4 Hmdr) as (F1 & F2 & F3).
    destruct (modrm_fields SS ix bs HSS) as (G1 & G2 & G3).
    rewrite (Z.mod_small ix) in G2 by lia. rewrite (Z.mod_small bs) in G3 by lia.
    cbn [app]. unfold dec_rm. cbv zeta. rewrite F1, F2, F3, G1, G2, G3.
    assert ((md =? 3) = false) as -> by (apply Z.eqb_neq; lia).
    change (4 mod 8 =? 4) with true. cbv iota.
    set (index := if vsib then _ else _).
    assert (Hidx : index = mem_index h vsib e).
    { unfold index, mem_index, ix. destruct (getBit (e_index e) =? 0) eqn:Hi.
      - apply Z.eqb_eq in Hi. assert (vsib = false) as ->.
        { subst vsib. unfold isVsibE, isBit, has. unfold getBit in Hi. rewrite Hi. reflexivity. }
        rewrite HX0 by auto. reflexivity.
      - apply Z.eqb_neq in Hi. destruct vsib; auto.
        destruct (h_X h + low3 (e_index e) =? 4) eqn:Q; auto.
        apply Z.eqb_eq in Q. exfalso. apply (HX4 eq_refl Hi Q). }
    assert (Hscale : getBit (e_index e) <> 0 -> 2 ^ SS = e_scale e).
    { intros Hi. apply scale_SS. destruct (wf_index _ We) as [Hn|[_ ?]]; auto.
      apply no_reg_getBit, Z.eqb_eq in Hn. contradiction. }
    destruct ((bs =? 5) && (md =? 0)) eqn:Q.
    + apply andb_true_iff in Q as [Q1 Q2]. apply Z.eqb_eq in Q1, Q2. subst md.
      assert (Hb : getBit (e_base e) =? 0 = true).
      { unfold bs in Q1. destruct (getBit (e_base e) =? 0) eqn:Hb; auto.
        apply Z.eqb_neq in Hb. exfalso. destruct Hmd as [(?&?)|[(?&?&?&?)|[(?&?&?)|(?&?&?)]]]; lia. }
      rewrite Hb in Emd2. simpl in Emd2. subst md2. rewrite Hdisp.
      eexists. split; [reflexivity|]. simpl. unfold mem_base. rewrite Hb. auto.
    + assert (Hb : getBit (e_base e) =? 0 = false).
      { destruct (getBit (e_base e) =? 0) eqn:Hb; auto. exfalso. unfold bs in Q.
        destruct Hmd as [(?&->&?)|[(?&?&?&?)|[(?&?&?)|(?&?&?)]]]; try (apply Z.eqb_eq in Hb; lia). }
      rewrite Hb in Emd2. rewrite andb_false_r in Emd2. subst md2. rewrite Hdisp.
      eexists. split; [reflexivity|]. simpl. unfold mem_base, bs. rewrite Hb. auto.
  - (* no SIB: a base register whose low bits are not 4, no index *)
    unfold hasSIB in HSIB. apply orb_false_iff in HSIB as [HSIB HS3]. apply orb_false_iff in HSIB as [HS1 HS2].
    apply negb_false_iff in HS1. rewrite HS1, andb_true_r in HS3. rewrite HS3 in *.
    apply emits_db in H1 as ->. cbn [render render1 app]. rewrite !w8_idem.
    fold (modrm_byte md reg (low3 (e_base e))).
    destruct (modrm_fields md reg (low3 (e_base e)) Hmdr) as (F1 & F2 & F3).
    rewrite (Z.mod_small (low3 (e_base e))) in F3 by apply low3_range.
    cbn [app]. unfold dec_rm. cbv zeta. rewrite F1, F2, F3.
    assert ((md =? 3) = false) as -> by (apply Z.eqb_neq; lia).
    rewrite HS2. cbv iota.
    assert ((low3 (e_base e) =? 5) && (md =? 0) = false) as ->.
    { apply Z.eqb_neq in HS3. destruct Hmd as [(?&?)|[(?&?&H5&?)|[(?&->&?)|(?&->&?)]]]; try lia.
    }
    rewrite andb_false_r in Emd2. subst md2. rewrite Hdisp.
    eexists. split; [reflexivity|]. simpl. unfold mem_base, mem_index. rewrite HS3, HS1.
    repeat split; auto; try lia.
Qed.
