(* Entries of the legacy table: mov with an immediate, push, pop, test and imul with immediates. *)
From Coq Require Import ZArith List Bool String Lia.
From Verif Require Import Base Types Emit Encode SpecX86 SpecAddr SpecIsa SpecInsn SpecLeg Wf EmitFacts BitFacts MemFacts LegacyFacts VexFacts EncThms LegFacts LegShapes LegGpr LegGpr2 LegGpr3.
Import ListNotations.
Open Scope Z_scope.

Definition opr_ (s : osize) := mkOper InOpc (Some KG) false s.
Lemma sweep_low3 (P : Z -> bool) l : 0 <= l < 8 -> forallb P (upto 8) = true -> P l = true.
Proof. intros H F. rewrite forallb_forall in F. apply F. apply upto_in. exact H. Qed.

(* ---- opcode + register ---- *)
(* o: opcode with the low bits of the register *)
Lemma opcode_low c l : 0 <= l < 8 -> c = 0xB0 \/ c = 0xB8 \/ c = 0x50 \/ c = 0x58 ->
  w8 (c ||| l) = c + l /\ opcode_ok 0 (c + l) = true /\ (c + l) mod 8 = l.
Proof.
  intros H C.
  assert (X : (w8 (c ||| l) =? c + l) && opcode_ok 0 (c + l) && ((c + l) mod 8 =? l) = true).
  { apply (sweep_low3 (fun l => (w8 (c ||| l) =? c + l) && opcode_ok 0 (c + l) && ((c + l) mod 8 =? l))); auto.
    destruct C as [-> | [-> | [-> | ->]]]; reflexivity. }
  apply andb_prop in X as [X X3]. apply andb_prop in X as [X1 X2]. repeat split; auto; lia.
Qed.
Lemma opr_facts s w (r q : Reg) h o reg c :
  gpr r -> size_is s w (bit_ r) -> regno q = regno r -> low3 q = low3 r -> o = c + low3 r -> o mod 8 = low3 r ->
  (bit_ r = 8 -> q = r) -> opc_facts q h o -> oper_ok w h reg None (opr_ s) (OReg r).
Proof.
  intros G S Rq Lq -> Om Q8 (Hrex & Ho & HB). unfold oper_ok. cbn [opr_ o_at o_reg o_mem o_size].
  split; [exists KG; split; [reflexivity|exact G]|]. split; [exact S|]. split.
  - rewrite Ho, Om, <- Rq, <- Lq. exact HB.
  - intros B8. rewrite (Q8 B8) in *. symmetry. apply byte_ok; auto.
    + intros X. rewrite Hrex, X, orb_true_r. reflexivity.
    + intros X. rewrite Hrex. destruct (high8_small _ X) as (E & B3 & R). rewrite E, B3, R, (reg8_not64 _ B8). reflexivity.
Qed.
Lemma low3_and r : getIdx r &&& 7 = low3 r.
Proof. unfold low3. change 7 with (Z.ones 3). rewrite Z.land_ones by lia. reflexivity. Qed.
(* the 32-bit register with the number of r *)
Lemma reg32_of r : regno (Reg32 (getIdx r)) = regno r /\ low3 (Reg32 (getIdx r)) = low3 r
  /\ isREG (Reg32 (getIdx r)) = true /\ bit_ (Reg32 (getIdx r)) = 32 /\ isREGb (Reg32 (getIdx r)) 64 = false /\ isBit (Reg32 (getIdx r)) 16 = false.
Proof.
  pose proof (getIdx_range r) as R. assert (E : idx_ (Reg32 (getIdx r)) = getIdx r).
  { cbn [Reg32 regOf idx_]. cbv iota. rewrite Z.lor_0_r. apply Z.mod_small. lia. }
  assert (N : getIdx (Reg32 (getIdx r)) = getIdx r). { unfold getIdx at 1. rewrite land31, E. apply Z.mod_small. lia. }
  repeat split.
  - rewrite <- !regno_getIdx. exact N.
  - unfold low3. now rewrite N.
Qed.

(* register form of a ModRM instruction emitted byte by byte: rex, opcode, 11 000 reg *)
Lemma leaf_opc_rm s row w r o env pos i1 x2 m1 s1 imm tail rest :
  gpr r -> emits (rex (OReg r) noOp 0) env pos i1 x2 ->
  l_modrm row = true -> l_digit row = Some 0 -> l_ops row = [rm_ KG m1 s1] -> opcode_ok 0 o = true ->
  w_in (l_osz row) w = true -> isBit r 16 = pp_is (l_pp row) P66 || w_66 (l_osz row) w ->
  pp_is (l_pp row) PF2 = false -> pp_is (l_pp row) PF3 = false -> l_map row = 0 -> w_W (l_osz row) w (isREGb r 64) = true ->
  o = w_opc (l_osz row) w (l_opc row) -> size_is s1 w (bit_ r) -> bit_ r <> 8 ->
  sized row w [OReg r] -> imm_ok (l_imm row) w imm tail ->
  lsays row [OReg r] imm (render s i1 ++ o :: (0xC0 + low3 r) :: tail) rest.
Proof.
  intros G H M D L Ho Hw H66 HF2 HF3 Hmap HW Hopc Sz B8 Sd Im.
  assert (N : isREG r = false -> bit4 r = false) by (apply (in_file_bit4 KG); exact G).
  destruct (rex_opc_dec s r noReg o env pos i1 x2 ((0xC0 + low3 r) :: tail ++ rest) N (quiet_no _) Ho H) as (h & E & (Hrex & Hop & HB) & E1 & E2 & E3 & E4 & E5 & E6 & E7 & E8 & E9).
  exists w, h, 0, (Some (RReg (regno r) (regno r))), o, tail. rewrite M, D, L.
  pose proof (low3_range r) as LR.
  assert (A : (0xC0 + low3 r) / 64 = 3 /\ (0xC0 + low3 r) / 8 mod 8 = 0 /\ (0xC0 + low3 r) mod 8 = low3 r).
  { assert (X : ((0xC0 + low3 r) / 64 =? 3) && ((0xC0 + low3 r) / 8 mod 8 =? 0) && ((0xC0 + low3 r) mod 8 =? low3 r) = true).
    { apply (sweep_low3 (fun l => ((0xC0 + l) / 64 =? 3) && ((0xC0 + l) / 8 mod 8 =? 0) && ((0xC0 + l) mod 8 =? l))); auto. }
    apply andb_prop in X as [X X3]. apply andb_prop in X as [X1 X2]. lia. }
  destruct A as (A1 & A2 & A3).
  split; [split; [exists (RReg (regno r) (regno r)); split; [reflexivity|]|]|].
  - rewrite <- app_assoc. cbn [app]. unfold decode. rewrite E. unfold dec_rm. rewrite E1, A1, A2, A3, HB, (E9 eq_refl). reflexivity.
  - now rewrite Hop.
  - split; [unfold lhead; repeat match goal with |- _ /\ _ => split end; auto; try congruence|].
    split; [congruence|]. split; [|auto].
    apply Forall2_cons; [|apply Forall2_nil]. unfold oper_ok. cbn [rm_ o_at o_reg o_mem o_size].
    split; [exists KG; split; [reflexivity|exact G]|]. split; [exact Sz|]. split; [reflexivity|]. intros; contradiction.
Qed.

(* ---- mov op, imm ---- *)
Definition mov_rows : list lrow :=
  [mkL NP 0 0xB0 false None [opr_ Sv] Os8 I_w; mkL NP 0 0xB8 false None [opr_ Sv] OsV I_w;
   mkL NP 0 0xB8 false None [opr_ (Sn 64)] Os0 I_d; mkL NP 0 0xC6 true (Some 0) [rm_ KG true Sv] OsB I_q].
Lemma shr0 x n : 0 <= x -> 0 <= n -> x >>> n = 0 -> 0 <= x < 2 ^ n.
Proof.
  intros X N H. rewrite Z.shiftr_div_pow2 in H by lia. assert (0 < 2 ^ n) by (apply Z.pow_pos_nonneg; lia).
  apply Z.div_small_iff in H; lia.
Qed.
Lemma int32_val x : 0 <= x < 2 ^ 64 -> IsInInt32 x = true -> signed 32 (x mod 2 ^ 32) mod 2 ^ 64 = x.
Proof.
  intros X H. unfold IsInInt32 in H. unfold signed.
  pose proof (Z.div_mod x (2 ^ 32) ltac:(lia)) as DM. pose proof (Z.mod_pos_bound x (2 ^ 32) ltac:(lia)).
  assert (C : x < 2 ^ 31 \/ 2 ^ 64 - 2 ^ 31 <= x).
  { unfold w64 in H. change 18446744073709551616 with (2 ^ 64) in H. rewrite Z.mod_small in H by lia. lia. }
  change (2 ^ 64) with (2 ^ 32 * 2 ^ 32) in *. change (2 ^ 31) with 2147483648 in *. change (2 ^ 32) with 4294967296 in *.
  change (2 ^ (32 - 1)) with 2147483648.
  destruct (x mod 4294967296 <? 2147483648) eqn:Q.
  - rewrite Z.mod_small; lia.
  - replace (x mod 4294967296 - 4294967296) with (x + (-1) * (4294967296 * 4294967296)) by lia.
    rewrite Z_mod_plus_full. apply Z.mod_small. lia.
Qed.

Lemma mov_imm_entry nm f :
  (forall op imm, f op imm = mov_oi op imm) -> limplements (mkLE nm [tOp [0; 8; 16; 32; 64]] (f_oi f) mov_rows).
Proof.
  intros E s ops imm act env pos its rest u Hf Ha Hb Hh Hi H. cbn [le_fun le_sig le_rows] in *.
  apply args1 in Ha as (op & -> & A). cbn [f_oi] in Hf. injection Hf as <-. rewrite E in H.
  unfold mov_oi in H. apply emits_fn in H. cbv zeta in H.
  assert (V : 0 <= w64 imm < 2 ^ 64) by (unfold w64; change 18446744073709551616 with (2 ^ 64); apply Z.mod_pos_bound; lia).
  assert (V64 : imm mod 2 ^ 64 = w64 imm) by reflexivity.
  destruct op as [r|a].
  - (* register *)
    destruct (isREG r) eqn:R; [|einv H]. pose proof (any_gpr _ A R) as G.
    assert (N : isREG r = false -> bit4 r = false) by (apply (in_file_bit4 KG); exact G).
    ebind H i1 i2 size H1 H2. unfold mov_imm in H1. cbv zeta in H1. ebind H1 j1 j2 cb H3 H4. destruct cb as [code bit].
    change (getBit r) with (bit_ r) in H3.
    assert (W2 : w64 (w64 imm) = w64 imm) by (unfold w64; now rewrite Z.mod_mod by lia). rewrite W2 in H3.
    ebind H4 j3 j4 x H5 H6. apply emits_db in H5 as ->. apply emits_ret in H6 as [-> ->]. rewrite low3_and in *.
    rewrite !render_app. cbn [render render1 app]. rewrite ?app_nil_r.
    pose proof (low3_range r) as LR.
    destruct ((bit_ r =? 64) && ((w64 imm >>> 32) =? 0)) eqn:Z32.
    + (* 32-bit register, zero extended *)
      apply andb_prop in Z32 as [B64 Z32]. apply Z.eqb_eq in B64, Z32. rewrite B64 in H3.
      ebind H3 k1 k2 y K1 K2. apply emits_ret in K2 as [-> K2]. change (0xB0 ||| ((if 64 =? 8 then 0 else 1) <<< 3)) with 0xB8 in K2.
      injection K2 as -> ->. rewrite app_nil_r. change (32 / 8) with 4 in H2.
      apply (dbn_render s) in H2 as [_ ->]; [|lia].
      destruct (opcode_low 0xB8 (low3 r) LR) as (O1 & O2 & O3); [auto|]. rewrite O1. rewrite <- app_assoc. cbn [app].
      destruct (reg32_of r) as (Q1 & Q2 & Q3 & Q4 & Q5 & Q6).
      apply Exists_cons_tl, Exists_cons_tl, Exists_cons_hd.
      refine (leaf_opc s (mkL NP 0 0xB8 false None [opr_ (Sn 64)] Os0 I_d) 0 (Reg32 (getIdx r)) noReg (0xB8 + low3 r) env pos k1 y [OReg r] imm _ rest _ (quiet_no _) K1 eq_refl eq_refl O2 eq_refl Q6 eq_refl eq_refl eq_refl _ _ _ _ _).
      * intros Q. congruence.
      * rewrite Q5. reflexivity.
      * cbn [l_ops existsb opr_ o_at orb l_osz w_opc l_opc]. rewrite O3. lia.
      * intros h reg Fh. apply Forall2_cons; [|apply Forall2_nil].
        eapply (opr_facts (Sn 64) 0 r _ h (0xB8 + low3 r) reg 0xB8); eauto. intros. congruence.
      * left. reflexivity.
      * apply le_tail; [reflexivity|]. change (Z.to_nat 4) with 4%nat. change (256 ^ Z.of_nat 4) with (2 ^ 32). rewrite V64. apply Z.mod_small. apply shr0; [lia|lia|exact Z32].
    + ebind H3 k1 k2 y K1 K2. 
      destruct ((bit_ r =? 64) && IsInInt32 (w64 imm)) eqn:S32.
      * (* sign extended *)
        apply andb_prop in S32 as [B64 S32]. apply Z.eqb_eq in B64.
        ebind K2 k3 k4 z K3 K4. apply emits_db in K3 as ->. apply emits_ret in K4 as [-> K4]. injection K4 as -> ->.
        apply (dbn_render s) in H2 as [_ ->]; [|vm_compute; discriminate]. rewrite !render_app. cbn [render render1 app]. rewrite <- !app_assoc. cbn [app].
        change (w8 199) with 0xC7. change (Z.to_nat (32 / 8)) with 4%nat.
        assert (O1 : w8 (0xC0 ||| low3 r) = 0xC0 + low3 r).
        { apply Z.eqb_eq. apply (sweep_low3 (fun l => w8 (0xC0 ||| l) =? 0xC0 + l)); auto. }
        rewrite O1. do 3 apply Exists_cons_tl. apply Exists_cons_hd.
        refine (leaf_opc_rm s (mkL NP 0 0xC6 true (Some 0) [rm_ KG true Sv] OsB I_q) 64 r 0xC7 env pos k1 y true Sv imm _ rest G K1 eq_refl eq_refl eq_refl eq_refl eq_refl _ eq_refl eq_refl eq_refl _ eq_refl B64 _ _ _).
        -- unfold isBit. rewrite B64. reflexivity.
        -- rewrite (in_file_REGb KG _ G), B64. reflexivity.
        -- rewrite B64. discriminate.
        -- right. apply Exists_cons_hd. split; [reflexivity|exact B64].
        -- apply le_tail; [reflexivity|]. cbv zeta. change (256 ^ Z.of_nat 4) with (2 ^ 32). change (Z.min 64 32) with 32. rewrite V64. apply int32_val; auto.
      * (* the whole value *)
        apply emits_ret in K2 as [-> K2]. pose proof (f_equal fst K2) as Ec. pose proof (f_equal snd K2) as Eb. cbn [fst snd] in Ec, Eb. subst bit. rewrite app_nil_r.
        assert (W : w_std (bit_ r)) by (apply gpr_std; exact G).
        apply (dbn_render s) in H2 as [_ ->]; [|destruct W as [-> | [-> | [-> | ->]]]; vm_compute; discriminate].
        rewrite <- app_assoc. cbn [app].
        assert (I : imm_ok I_w (bit_ r) imm (le_bytes (w64 imm) (Z.to_nat (bit_ r / 8)))).
        { apply le_tail; [cbn [imm_len]; destruct W as [-> | [-> | [-> | ->]]]; reflexivity|].
          assert (P : forall k, 0 <= k <= 64 -> w64 imm mod 2 ^ k = imm mod 2 ^ k).
          { intros k Hk. unfold w64. change 18446744073709551616 with (2 ^ 64). replace 64 with (k + (64 - k)) by lia. rewrite Z.pow_add_r by lia.
            rewrite <- Znumtheory.Zmod_div_mod; auto; try (apply Z.pow_pos_nonneg; lia); [|apply Z.divide_factor_l].
            rewrite <- Z.pow_add_r by lia. apply Z.pow_pos_nonneg; lia. }
          destruct W as [-> | [-> | [-> | ->]]].
          - exact (P 8 ltac:(lia)).
          - exact (P 16 ltac:(lia)).
          - exact (P 32 ltac:(lia)).
          - exact (P 64 ltac:(lia)). }
        destruct (Z.eq_dec (bit_ r) 8) as [B8|B8].
        -- rewrite B8 in *. change (code = 0xB0) in Ec. rewrite Ec.
           destruct (opcode_low 0xB0 (low3 r) LR) as (O1 & O2 & O3); [auto|]. rewrite O1.
           apply Exists_cons_hd.
           refine (leaf_opc s (mkL NP 0 0xB0 false None [opr_ Sv] Os8 I_w) 8 r noReg (0xB0 + low3 r) env pos k1 y [OReg r] imm _ rest N (quiet_no _) K1 eq_refl eq_refl O2 eq_refl _ eq_refl eq_refl eq_refl eq_refl _ _ _ I).
           ++ unfold isBit. rewrite B8. reflexivity.
           ++ cbn [l_ops existsb opr_ o_at orb l_osz w_opc l_opc]. rewrite O3. lia.
           ++ intros h reg Fh. apply Forall2_cons; [|apply Forall2_nil]. eapply (opr_facts Sv 8 r r h (0xB0 + low3 r) reg 0xB0); eauto.
           ++ right. apply Exists_cons_hd. split; [reflexivity|exact B8].
        -- replace (bit_ r =? 8) with false in Ec by lia. change (code = 0xB8) in Ec. rewrite Ec.
           destruct (opcode_low 0xB8 (low3 r) LR) as (O1 & O2 & O3); [auto|]. rewrite O1.
           apply Exists_cons_tl, Exists_cons_hd.
           refine (leaf_opc s (mkL NP 0 0xB8 false None [opr_ Sv] OsV I_w) (bit_ r) r noReg (0xB8 + low3 r) env pos k1 y [OReg r] imm _ rest N (quiet_no _) K1 eq_refl eq_refl O2 _ _ eq_refl eq_refl eq_refl _ _ _ _ I).
           ++ destruct W as [W|[W|[W|W]]]; [congruence|rewrite W; reflexivity..].
           ++ unfold isBit. destruct W as [W|[W|[W|W]]]; [congruence|rewrite W; reflexivity..].
           ++ rewrite (in_file_REGb KG _ G). destruct W as [W|[W|[W|W]]]; [congruence|rewrite W; reflexivity..].
           ++ cbn [l_ops existsb opr_ o_at orb l_osz w_opc l_opc]. rewrite O3. lia.
           ++ intros h reg Fh. apply Forall2_cons; [|apply Forall2_nil]. eapply (opr_facts Sv (bit_ r) r r h (0xB8 + low3 r) reg 0xB8); eauto. reflexivity.
           ++ right. apply Exists_cons_hd. split; reflexivity.
  - (* memory *)
    destruct A as [A S]. ebind H i1 i2 x H1 H2. apply verify_split in H1 as [-> Mz]. specialize (Mz eq_refl).
    cbn [ob] in Mz. change (ogetBit (OMem a)) with (bit_ (a_op a)) in H2. cbn [app items_size] in *. rewrite Z.add_0_r in H2.
    set (b := bit_ (a_op a)) in *.
    assert (W : w_std b) by (unfold w_std; cbn in S; intuition).
    match type of H2 with emits (if ?c then _ else _) _ _ _ _ => destruct c eqn:Big end; [einv H2|].
    ebind H2 j1 j2 y J1 J2.
    assert (B : b < 16384) by (destruct W as [-> | [-> | [-> | ->]]]; lia).
    assert (B0 : 0 <= b) by (destruct W as [-> | [-> | [-> | ->]]]; lia).
    destruct (regOf_small 0 b ltac:(lia) ltac:(lia)) as (E1 & E2 & E3 & E4 & E5).
    apply (dbn_render s) in J2 as [_ J2]; [|destruct W as [-> | [-> | [-> | ->]]]; vm_compute; discriminate].
    rewrite render_app, J2. do 3 apply Exists_cons_tl. apply Exists_cons_hd.
    eapply (leaf_mr s (mkL NP 0 0xC6 true (Some 0) [rm_ KG true Sv] OsB I_q) b 0 0xC6 (set_immSize a _) (regOf 0 REG b false)); [apply set_imm_ok; exact A| |exact J1| | | | |].
    + discriminate.
    + change (bit_ (a_op (set_immSize a _))) with b. rewrite E5, (regOf_W _ _ (conj B0 B)). destruct W as [-> | [-> | [-> | ->]]]; reflexivity.
    + intros d Hd. rewrite E1. injection Hd as <-. reflexivity.
    + intros h mm Hf Hd. apply Forall2_cons; [|apply Forall2_nil]. unfold oper_ok. cbn [rm_ o_at o_reg o_mem o_size].
      change (a_e (set_immSize a _)) with (a_e a) in Hd.
      split; [reflexivity|]. split; [reflexivity|]. split; [right; reflexivity|eauto].
    + right. apply Exists_cons_hd. split; reflexivity.
    + cbn [l_imm].
      assert (P : forall k, 0 < k -> k <= 32 -> w32 (w64 imm) mod 2 ^ k = imm mod 2 ^ k).
      { intros k Hk Hk2. unfold w32, w64. change 18446744073709551616 with (2 ^ 32 * 2 ^ 32). change 4294967296 with (2 ^ 32).
        rewrite <- (Znumtheory.Zmod_div_mod (2 ^ 32)); [|lia|lia|apply Z.divide_factor_l].
        replace 32 with (k + (32 - k)) by lia. rewrite Z.pow_add_r by lia.
        rewrite <- Znumtheory.Zmod_div_mod; auto; try (apply Z.pow_pos_nonneg; lia); [|apply Z.divide_factor_l].
        rewrite <- Z.pow_add_r by lia. apply Z.pow_pos_nonneg; lia. }
      apply le_tail; [destruct W as [-> | [-> | [-> | ->]]]; reflexivity|].
      destruct W as [W|[W|[W|W]]]; rewrite W in *; cbv zeta.
      * change (256 ^ _) with (2 ^ 8). change (Z.min 8 32) with 8. rewrite signed_mod by lia. apply P; lia.
      * change (256 ^ _) with (2 ^ 16). change (Z.min 16 32) with 16. rewrite signed_mod by lia. apply P; lia.
      * change (256 ^ _) with (2 ^ 32). change (Z.min 32 32) with 32. rewrite signed_mod by lia. apply P; lia.
      * change (256 ^ _) with (2 ^ 32). change (Z.min 64 32) with 32. rewrite P by lia. change (64 / 8 <=? 4) with false in Big. cbv iota in Big.
        apply negb_false_iff in Big. rewrite V64, <- (int32_val _ V Big). f_equal. f_equal.
        unfold w64. change 18446744073709551616 with (2 ^ 32 * 2 ^ 32). rewrite <- (Znumtheory.Zmod_div_mod (2 ^ 32)); [reflexivity|lia|lia|apply Z.divide_factor_l].
Qed.

(* ---- push, pop ---- *)
(* a 66 prefix in front *)
Definition set66 (h : header) : header :=
  mkHeader true (h_67 h) (h_F2 h) (h_F3 h) (h_lock h) (h_seg h) (h_space h) (h_rex h) (h_map h) (h_pp h) (h_W h) (h_R h) (h_X h) (h_B h)
    (h_V h) (h_vbit4 h) (h_L h) (h_b h) (h_z h) (h_aaa h) (h_u h) (h_nd h) (h_nf h) (h_sc h) (h_opc h).
Definition pset66 (p : prefixes) : prefixes := mkPfx true (p_67 p) (p_F2 p) (p_F3 p) (p_lock p) (p_seg p).
Lemma step66 p b : prefix_step (pset66 p) b = match prefix_step p b with Some q => Some (pset66 q) | None => None end.
Proof.
  unfold prefix_step. repeat match goal with |- context [if ?c then _ else _] => destruct c end; reflexivity.
Qed.
Lemma scan66 bs : forall p, scan_prefixes (pset66 p) bs = (pset66 (fst (scan_prefixes p bs)), snd (scan_prefixes p bs)).
Proof.
  induction bs as [|b bs IH]; intros p; cbn [scan_prefixes]; [reflexivity|]. rewrite step66.
  destruct (prefix_step p b) as [q|]; [apply IH|reflexivity].
Qed.
Lemma dec_header66 bs h r : dec_header bs = Some (h, r) -> h_space h = Legacy -> dec_header (0x66 :: bs) = Some (set66 h, r).
Proof.
  unfold dec_header. cbn [scan_prefixes]. change (prefix_step pfx0 0x66) with (Some (pset66 pfx0)). cbv iota. rewrite scan66.
  destruct (scan_prefixes pfx0 bs) as [p c]. cbn [fst snd]. destruct c as [|b c]; [discriminate|].
  intros H Sp. unfold dec_legacy in *. change (no_simd_pfx (pset66 p)) with false. cbn [negb andb] in *.
  destruct ((64 <=? b) && (b <=? 79)).
  { destruct (dec_opcode c) as [[[m o] r']|]; [|discriminate]. injection H as <- <-. reflexivity. }
  destruct (b =? 0xD5).
  { destruct c as [|q [|o c]]; try discriminate. injection H as <- <-. reflexivity. }
  destruct (b =? 0xC5), (b =? 0xC4), (b =? 0x62), (negb (no_simd_pfx p)); cbn [orb andb] in H |- *; try discriminate;
    try (exfalso; repeat match type of H with match ?x with _ => _ end = _ => destruct x; try discriminate end; injection H as <- <-; discriminate Sp);
    destruct (dec_opcode (b :: c)) as [[[m o] r']|]; try discriminate; injection H as <- <-; reflexivity.
Qed.
Lemma decode66 v n bs h reg rm t : decode v n bs = Some (h, reg, rm, t) -> h_space h = Legacy -> decode v n (0x66 :: bs) = Some (set66 h, reg, rm, t).
Proof.
  unfold decode. destruct (dec_header bs) as [[h0 c]|] eqn:D; [|discriminate]. intros H Sp.
  assert (h0 = h) as ->. { destruct (dec_rm h0 _ _ _) as [[[? ?] ?]|]; [|discriminate]. now injection H. }
  rewrite (dec_header66 _ _ _ D Sp). change (h_space (set66 h)) with (h_space h).
  replace (dec_rm (set66 h) v (match h_space h with Evex => n | _ => 1 end) c) with (dec_rm h v (match h_space h with Evex => n | _ => 1 end) c) by reflexivity.
  destruct (dec_rm h v _ c) as [[[? ?] ?]|]; [|discriminate]. injection H as <- <- <-. reflexivity.
Qed.
Definition push_rows (code ext alt : Z) : list lrow :=
  [mkL NP 0 alt false None [opr_ Sv] Os64 I_none; mkL NP 0 code true (Some ext) [m_ Sv] Os64 I_none].
Lemma stack_mem code ext a imm bs rest :
  lsays (mkL NP 0 code true (Some ext) [m_ Sany] OsN I_none) [OMem a] imm bs rest -> bit_ (a_op a) = 16 \/ bit_ (a_op a) = 64 ->
  lsays (mkL NP 0 code true (Some ext) [m_ Sv] Os64 I_none) [OMem a] imm ((if bit_ (a_op a) =? 16 then [0x66] else []) ++ bs) rest.
Proof.
  intros (w & h & reg & rm & opc & tail & D & L & Dg & F & Sz & I) B.
  cbn [l_modrm l_digit l_ops l_osz l_imm l_opc] in *. destruct D as [(r & -> & D) ->].
  destruct L as (E1 & Hw & H66 & H2 & H3 & Hl & Hs & Hm & HW & Lo). cbn [l_pp l_osz l_map l_opc w_66 w_opc] in *.
  assert (F' : forall w' h', h_67 h' = h_67 h -> bit_ (a_op a) = w' -> Forall2 (oper_ok w' h' reg (Some r)) [m_ Sv] [OMem a]).
  { intros w' h' H67 Bw. inversion F as [|? ? ? ? F1 _]; subst. apply Forall2_cons; [|apply Forall2_nil].
    destruct F1 as (M1 & M2 & _ & m & Hm' & Dn). split; [reflexivity|]. split; [reflexivity|]. split; [right; reflexivity|].
    exists m. split; [exact Hm'|]. unfold denotes. rewrite H67. exact Dn. }
  destruct B as [B|B]; rewrite B; cbn [Z.eqb Pos.eqb app].
  - exists 16, (set66 h), reg, (Some r), (h_opc h), tail. cbn [l_modrm l_digit l_ops l_osz l_imm l_opc].
    split; [split; [exists r; split; [reflexivity|apply decode66; auto]|reflexivity]|].
    split; [unfold lhead; cbn [l_pp l_osz l_map l_opc w_66 w_opc set66 h_space h_66 h_F2 h_F3 h_lock h_seg h_map h_W]; repeat match goal with |- _ /\ _ => split end; auto|].
    split; [exact Dg|]. split; [apply F'; auto|]. split; [|exact I]. right. apply Exists_cons_hd. split; [reflexivity|exact B].
  - exists 64, h, reg, (Some r), (h_opc h), tail. cbn [l_modrm l_digit l_ops l_osz l_imm l_opc].
    split; [split; [exists r; split; [reflexivity|exact D]|reflexivity]|].
    split; [unfold lhead; cbn [l_pp l_osz l_map l_opc w_66 w_opc]; repeat match goal with |- _ /\ _ => split end; auto|].
    split; [exact Dg|]. split; [apply F'; auto|]. split; [|exact I]. right. apply Exists_cons_hd. split; [reflexivity|exact B].
Qed.
(* bytes of the register form without REX2 *)
Lemma stack_low alt l (p66 : bool) c : alt = 0x50 \/ alt = 0x58 -> 0 <= l < 16 ->
  dec_header ((if p66 then [0x66] else []) ++ (if 8 <=? l then [0x41] else []) ++ w8 (alt ||| (l &&& 7)) :: c)
  = Some (leg_header (mkPfx p66 false false false false None) (8 <=? l) 0 false 0 0 (if 8 <=? l then 8 else 0) (alt + l mod 8), c).
Proof.
  intros A L. assert (C : In l (upto 16)) by (apply upto_in; exact L).
  assert (K : forall x, In x (upto 16) -> dec_header ((if p66 then [0x66] else []) ++ (if 8 <=? x then [0x41] else []) ++ w8 (alt ||| (x &&& 7)) :: c)
    = Some (leg_header (mkPfx p66 false false false false None) (8 <=? x) 0 false 0 0 (if 8 <=? x then 8 else 0) (alt + x mod 8), c)).
  { intros x Hx. vm_compute in Hx. repeat (destruct Hx as [<-|Hx]; [destruct A as [-> | ->], p66; reflexivity|]). destruct Hx. }
  exact (K _ C).
Qed.

(* bytes of the register form with REX2 *)
Lemma stack_high alt r c : alt = 0x50 \/ alt = 0x58 -> bit4 r = true ->
  dec_header (0xD5 :: w8 ((rexRXB 4 false noReg r noReg <<< 4) ||| rexRXB 3 false noReg r noReg) :: w8 (alt ||| (getIdx r &&& 7)) :: c)
  = Some (leg_header pfx0 true 0 false 0 0 (16 + 8 * z01 (bit3 r)) (alt + low3 r), c).
Proof.
  intros A B. rewrite !rexRXB_val, !hasIdxBit3, !hasIdxBit4, B, low3_and.
  destruct (opcode_low alt (low3 r) (low3_range r)) as (O1 & _); [tauto|]. rewrite O1. destruct (bit3 r); reflexivity.
Qed.
(* registers of 64 bits, or numbered below 16; or memory *)
Definition stack_op (op : Operand) : Prop :=
  match op with OReg r => any_reg r /\ (bit_ r = 64 \/ regno r < 16) | OMem a => mem_ok a end.
Lemma stack_says op code ext alt env pos its s u imm rest :
  stack_op op -> (code = 0xFF /\ ext = 6 /\ alt = 0x50) \/ (code = 0x8F /\ ext = 0 /\ alt = 0x58) ->
  emits (opPushPop op code ext alt) env pos its u ->
  Exists (fun row => lsays row [op] imm (render s its) rest) (push_rows code ext alt).
Proof.
  intros A C H. unfold opPushPop in H. apply emits_fn in H.
  assert (Ca : alt = 0x50 \/ alt = 0x58) by tauto.
  assert (RS : forall r h c p66 w, op = OReg r -> gpr r -> bit_ r = w -> (w = 16 \/ w = 64) -> p66 = (w =? 16) ->
     dec_header (render s its ++ rest) = Some (leg_header (mkPfx p66 false false false false None) h 0 false 0 0 c (alt + low3 r), rest) ->
     c + low3 r = regno r -> Exists (fun row => lsays row [op] imm (render s its) rest) (push_rows code ext alt)).
  { intros r h c p66 w -> G Bw Hw -> D Hc. apply Exists_cons_hd. destruct (opcode_low alt (low3 r) (low3_range r)) as (_ & _ & O3); [tauto|].
    eexists w, _, 0, None, alt, []. cbn [l_modrm l_ops existsb opr_ o_at orb].
    split; [split; [exact D|split; [reflexivity|cbn [h_opc leg_header]; rewrite O3; lia]]|].
    split; [unfold lhead; cbn; destruct Hw as [-> | ->]; repeat split; reflexivity|].
    split; [discriminate|]. split; [|split; [right; apply Exists_cons_hd; split; [reflexivity|exact Bw]|apply imm_none_ok]].
    apply Forall2_cons; [|apply Forall2_nil]. unfold oper_ok. cbn [o_at o_reg o_mem o_size h_B h_opc leg_header size_is].
    split; [exists KG; split; [reflexivity|exact G]|]. split; [exact Bw|]. split; [rewrite O3; exact Hc|]. intros B8. exfalso. rewrite B8 in Bw. lia. }
  destruct (oREG op && hasRex2 op) eqn:X.
  - apply andb_prop in X as [X1 X2]. destruct op as [r|a].
    2:{ exfalso. unfold oREG, isREG, is_ in X1; cbn [ob] in X1; rewrite (wm_kind _ (mo_wf _ A)) in X1; discriminate. }
    change (isREG r = true) in X1. destruct A as [A Hr]. pose proof (any_gpr _ A X1) as G.
    cbn [hasRex2] in X2. unfold regHasRex2 in X2. rewrite isExtIdx2_bit4 in X2. apply andb_prop in X2 as [_ B4].
    cbv zeta in H. cbn [ob] in H. ebind H i1 i2 x H1 H2. unfold rex2 in H1. ebind H1 j1 j2 y J1 J2.
    apply emits_db in J1 as ->. apply emits_db in J2 as ->. apply emits_db in H2 as ->.
    assert (B64 : bit_ r = 64). { destruct Hr as [Hr|Hr]; auto. pose proof (regno_split r) as Sp. pose proof (low3_range r). rewrite B4 in Sp. destruct (bit3 r); cbn [z01] in Sp; lia. }
    eapply (RS r true (16 + 8 * z01 (bit3 r)) false 64); eauto.
    + cbn [app render render1]. change (w8 0xD5) with 0xD5. apply stack_high; auto.
    + rewrite regno_split, B4. cbn [z01]. lia.
  - cbv zeta in H. change (ogetBit op) with (bit_ (ob op)) in H. change BIT with 64 in H.
    destruct ((bit_ (ob op) =? 16) || (bit_ (ob op) =? 64)) eqn:W; [|einv H].
    assert (W' : bit_ (ob op) = 16 \/ bit_ (ob op) = 64) by lia. clear W.
    ebind H i1 i2 x H1 H2. apply (render_when_db s) in H1.
    destruct (oREG op) eqn:R.
    + destruct op as [r|a].
      2:{ exfalso. unfold oREG, isREG, is_ in R; cbn [ob] in R; rewrite (wm_kind _ (mo_wf _ A)) in R; discriminate. }
      change (isREG r = true) in R. destruct A as [A Hr]. pose proof (any_gpr _ A R) as G. cbn [andb hasRex2] in X.
      unfold regHasRex2 in X. rewrite R, isExtIdx2_bit4 in X. cbn [andb] in X.
      ebind H2 j1 j2 y J1 J2. apply (render_when_db s) in J1. apply emits_db in J2 as ->. change (ogetIdx (OReg r)) with (getIdx r) in *.
      assert (I16 : 0 <= getIdx r < 16). { pose proof (idx_split r) as Sp. pose proof (low3_range r). rewrite X in Sp. destruct (bit3 r); cbn [z01] in Sp; lia. }
      eapply (RS r (8 <=? getIdx r) (if 8 <=? getIdx r then 8 else 0) (bit_ r =? 16) (bit_ r)); eauto.
      * rewrite !render_app, H1, J1. cbn [ob render render1 app]. rewrite <- !app_assoc. cbn [app].
        change (low3 r) with (getIdx r mod 8). rewrite <- (stack_low alt (getIdx r) (bit_ r =? 16) rest Ca I16).
        destruct (bit_ r =? 16), (8 <=? getIdx r); reflexivity.
      * rewrite <- regno_getIdx. pose proof (idx_split r) as Sp. pose proof (low3_range r). rewrite X in Sp.
        destruct (bit3 r); cbn [z01] in Sp; destruct (8 <=? getIdx r) eqn:Q; lia.
    + destruct op as [r|a]; [einv H2|]. cbn [ob] in *. apply Exists_cons_tl, Exists_cons_hd.
      rewrite render_app, H1.
      assert (Z0 : opt (bit_ (a_op a) =? 16) (w8 102) = if bit_ (a_op a) =? 16 then [0x66] else []) by reflexivity. rewrite Z0.
      apply stack_mem; auto. rewrite <- (app_nil_r (render s i2)).
      assert (Hext : 0 <= ext < 8) by lia. destruct (regOf_small ext 32 Hext ltac:(lia)) as (E1 & E2 & E3 & E4 & E5).
      eapply (leaf_mr s (mkL NP 0 code true (Some ext) [m_ Sany] OsN I_none) 0 T_ALLOW_DIFF_SIZE code a (regOf ext REG 32 false)); [exact A|discriminate|exact H2| | | | |].
      * rewrite E5, (regOf_W _ 32) by lia. destruct C as [(-> & _)|(-> & _)], W' as [-> | ->]; reflexivity.
      * intros d Hd. rewrite E1. now injection Hd.
      * intros h mm Hf Hd. apply Forall2_cons; [|apply Forall2_nil]. unfold oper_ok. cbn [m_ o_at o_reg o_mem o_size].
        split; [reflexivity|]. split; [reflexivity|]. split; [right; exact Coq.Init.Logic.I|eauto].
      * left. reflexivity.
      * apply imm_none_ok.
Qed.
