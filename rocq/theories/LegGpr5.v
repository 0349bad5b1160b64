(* Entries of the legacy table: test and imul with an immediate, xchg, bswap. *)
From Coq Require Import ZArith List Bool String Lia.
From Verif Require Import Base Types Emit Encode SpecX86 SpecAddr SpecIsa SpecInsn SpecLeg Wf EmitFacts BitFacts MemFacts LegacyFacts VexFacts EncThms LegFacts LegShapes LegGpr LegGpr2 LegGpr3 LegGpr4.
Import ListNotations.
Open Scope Z_scope.

Lemma w32_twice imm : w32 (w32 imm) mod 2 ^ 32 = imm mod 2 ^ 32.
Proof. unfold w32. rewrite !Z.mod_mod by lia. reflexivity. Qed.
Lemma w32_mod imm : w32 imm mod 2 ^ 32 = imm mod 2 ^ 32.
Proof. unfold w32. rewrite !Z.mod_mod by lia. reflexivity. Qed.
Lemma s32_mod imm : s32 imm mod 2 ^ 32 = imm mod 2 ^ 32.
Proof.
  unfold s32. change (2 ^ 32) with 4294967296. destruct (w32 imm <? 2147483648); unfold w32; [now rewrite Z.mod_mod by lia|].
  replace (imm mod 4294967296 - 4294967296) with (imm mod 4294967296 + -1 * 4294967296) by lia. rewrite Z_mod_plus_full. now rewrite Z.mod_mod by lia.
Qed.

Lemma gpr_REGb r m : gpr r -> isREGb r m = (m =? 0) || has (bit_ r) m.
Proof. intros [K _]. unfold isREGb, is_. rewrite K. reflexivity. Qed.

(* ---- test op, imm ---- *)
Definition test_rows : list lrow := [accrow 0xA8 I_z; rmrow NP 0 0xF6 0 OsB I_z].
Lemma testi_entry nm f : (forall op imm, f op imm = test_imm op imm) ->
  limplements (mkLE nm [tOp [0; 8; 16; 32; 64]] (f_oi f) test_rows).
Proof.
  intros E s ops imm act env pos its rest u Hf Ha Hb Hh Hi H. cbn [le_fun le_sig le_rows] in *.
  apply args1 in Ha as (op & -> & A). cbn [f_oi] in Hf. injection Hf as <-. rewrite E in H. unfold test_imm in H. cbv zeta in H.
  ebind H i1 i2 x H1 H2. apply verify_split in H1 as [-> Mz]. cbn [app items_size] in *. rewrite Z.add_0_r in H2.
  ebind H2 i3 i4 y H3 H4. change (ogetBit op) with (bit_ (ob op)) in *.
  pose proof (tOp_op _ _ A) as O.
  assert (K : isMEM op = true \/ isREG (ob op) = true).
  { destruct op as [q|a]; [right; cbn [ob]|left; reflexivity].
    destruct (isREG q) eqn:R; auto. exfalso. change (oREG (OReg q)) with (isREG q) in H3. rewrite R in H3. cbn [andb] in H3.
    pose proof (rext_reg _ _ _ _ _ _ _ _ _ _ _ q H3 eq_refl eq_refl) as Q. apply isREGb_REG in Q. congruence. }
  assert (G : isMEM op = false -> gpr (ob op)).
  { intros M. destruct op as [q|]; [|discriminate]. destruct K as [K|K]; [discriminate|]. apply any_gpr; auto. }
  assert (S : In (bit_ (ob op)) [0; 8; 16; 32; 64]).
  { destruct op as [q|a]; [pose proof (gpr_bits _ (G eq_refl)) as Q; cbn in Q |- *; intuition|exact (proj2 A)]. }
  pose proof (std_op op O S Mz G) as W. set (b := bit_ (ob op)) in *.
  apply (dbn_render s) in H4 as [_ R4]; [|destruct W as [-> | [-> | [-> | ->]]]; vm_compute; discriminate].
  rewrite render_app, R4. clear R4.
  match type of H3 with emits (if ?c then _ else _) _ _ _ _ => destruct c eqn:Acc end.
  - apply andb_prop in Acc as [Ra I0].
    destruct op as [q|a]; [|exfalso; unfold oREG, isREG, is_ in Ra; cbn [ob] in Ra; rewrite (wm_kind _ (mo_wf _ O)) in Ra; discriminate].
    specialize (G eq_refl). cbn [ob] in G. ebind H3 k1 k2 z J1 J2. apply emits_db in J2 as ->. rewrite render_app. cbn [render render1 app]. rewrite <- app_assoc. cbn [app].
    apply Exists_cons_hd.
    assert (B8 : oBit (OReg q) 8 = (b =? 8)).
    { unfold oBit, isBit. change (bit_ (ob (OReg q))) with b. clearbody b. destruct W as [-> | [-> | [-> | ->]]]; reflexivity. }
    rewrite B8.
    eapply (acc_says s q 0xA8 I_z _ _ _ _ _ imm _ rest G); [unfold ogetIdx in I0; cbn [ob] in I0; lia|exact J1| | |].
    + destruct (b =? 8); reflexivity.
    + change (bit_ q) with b. destruct (b =? 8); reflexivity.
    + apply imm_z_ok; [exact W|reflexivity|apply w32_mod].
  - apply Exists_cons_tl, Exists_cons_hd.
    eapply (rext_gen s (rmrow NP 0 0xF6 0 OsB I_z) true Sv 0 0xF6 false 0 0 op _ [] [] env pos i3 _ imm _ rest (fun _ b => existsb (Z.eqb b) [8; 16; 32; 64]) (fun _ b => b)); eauto; try reflexivity; try lia.
    + intros _. fold b. clearbody b. destruct W as [-> | [-> | [-> | ->]]]; reflexivity.
    + intros _. apply imm_z_ok; [exact W|reflexivity|apply w32_mod].
Qed.

(* ---- imul reg, op, imm ---- *)
Definition f_roi (f : Reg -> Operand -> Z -> E unit) : insn := fun ops imm => match ops with [OReg r; o] => Some (f r o imm) | _ => None end.
Definition imuli_rows : list lrow := [rorow NP 0 0x69 Sv Sv OsV I_z; rorow NP 0 0x6B Sv Sv OsV I_8s].
Lemma imuli_entry nm f : (forall r op imm, f r op imm = imul_imm r op (s32 imm)) ->
  limplements (mkLE nm [tGl; tOl all_sizes] (f_roi f) imuli_rows).
Proof.
  intros E s ops imm act env pos its rest u Hf Ha Hb Hh Hi H. cbn [le_fun le_sig le_rows] in *.
  apply args2 in Ha as (o1 & op & -> & A1 & A2). destruct o1 as [r|]; [|destruct A1]. cbn [f_roi] in Hf. injection Hf as <-. rewrite E in H.
  apply tGl_low in A1 as (L1 & G & B8). unfold imul_imm in H. cbv zeta in H.
  ebind H i1 i2 d H1 H2. apply opROO_no in H1 as [-> ->]; [|eapply tOl_low; exact A2|exact L1|reflexivity].
  cbn [app items_size negb] in *. rewrite Z.add_0_r in H2. ebind H2 i3 i4 y H3 H4. apply opRO_cond in H3 as [H3 Hc].
  set (v := s32 imm) in *. pose proof (s32_mod imm) as V. fold v in V. clearbody v.
  assert (W : bit_ r = 16 \/ bit_ r = 32 \/ bit_ r = 64).
  { destruct (gpr_std _ G) as [B|[B|[B|B]]]; auto. contradiction. }
  assert (R16 : isREGb r 16 = (bit_ r =? 16)).
  { rewrite (gpr_REGb _ _ G). destruct W as [-> | [-> | ->]]; reflexivity. }
  rewrite R16 in *.
  apply (dbn_render s) in H4 as [_ R4]; [|destruct (IsInDisp8 v); cbn [Z.eqb Pos.eqb]; [lia|destruct (bit_ r =? 16); lia]].
  assert (O : is_op KG op).
  { apply tOl_op in A2. destruct op as [q|a]; [|exact A2]. apply (kind_gpr' _ _ G A2). apply Hc. reflexivity. }
  apply (ro_ok_says imuli_rows false r op imm env pos (i3 ++ i4) s rest Hh).
  destruct (IsInDisp8 v) eqn:D8; cbn [Z.eqb Pos.eqb] in *.
  - exists (rorow NP 0 0x6B Sv Sv OsV I_8s), KG, KG, true, Sv, Sv, 0, 0x6B, c_v, w_r, 1, i3, (le_bytes v (Z.to_nat 1)), y.
    split; [cbn; auto|]. split; [reflexivity|]. split; [reflexivity|]. split; [chk|]. split; [exact G|]. split; [exact O|].
    split; [unfold c_v; apply nb8; exact B8|]. split; [exact H3|]. split; [rewrite render_app, R4; reflexivity|].
    apply imm_8s_ok; auto.
  - exists (rorow NP 0 0x69 Sv Sv OsV I_z), KG, KG, true, Sv, Sv, 0, 0x69, c_v, w_r, (if bit_ r =? 16 then 2 else 4), i3, (le_bytes v (Z.to_nat (if bit_ r =? 16 then 2 else 4))), y.
    split; [cbn; auto|]. split; [reflexivity|]. split; [reflexivity|]. split; [chk|]. split; [exact G|]. split; [exact O|].
    split; [unfold c_v; apply nb8; exact B8|]. split; [exact H3|]. split; [rewrite render_app, R4; reflexivity|].
    apply imm_z_ok; [apply gpr_std; exact G| |exact V]. unfold w_r. destruct W as [-> | [-> | ->]]; reflexivity.
Qed.

(* ---- xchg ---- *)
Definition xchg_rows : list lrow :=
  [orrow NP 0 0x86 Sv Sv OsB I_none; rorow NP 0 0x86 Sv Sv OsB I_none;
   mkL NP 0 0x90 false None [acc_ Sv; opr_ Sv] OsV I_none; mkL NP 0 0x90 false None [opr_ Sv; acc_ Sv] OsV I_none].
Definition same_size (o1 o2 : Operand) : Prop := match o1, o2 with OReg r1, OReg r2 => bit_ r1 = bit_ r2 | _, _ => True end.
Lemma quiet_acc r a : gpr r -> gpr a -> bit_ a = bit_ r -> bit_ a <> 8 -> getIdx a = 0 -> quiet r a.
Proof.
  intros Gr Ga B B8 I0.
  assert (Ia : idx_ a = 0).
  { destruct Ga as [_ [[_ Ga]|[Ga _]]]; [|contradiction]. unfold getIdx in I0. rewrite land31 in I0. now rewrite Z.mod_small in I0 by lia. }
  constructor.
  - unfold regHasRex2, isExtIdx2. rewrite I0. apply andb_false_r.
  - rewrite !(in_file_REGb KG _ Ga), !(in_file_REGb KG _ Gr), B. auto.
  - unfold isExt8bit. rewrite Ia. reflexivity.
  - unfold bit3. rewrite Ia. reflexivity.
  - unfold pfx66. change (has 0 T_66) with false. cbn [orb]. unfold isBit. change (getBit r) with (bit_ r). change (getBit a) with (bit_ a). rewrite B in *.
    destruct (gpr_std _ Gr) as [Q|[Q|[Q|Q]]]; rewrite Q; reflexivity.
Qed.
Lemma xchg_acc s r a env pos i1 x2 imm rest :
  gpr r -> gpr a -> bit_ a = bit_ r -> bit_ a <> 8 -> getIdx a = 0 -> emits (rex (OReg r) (OReg a) 0) env pos i1 x2 ->
  lsays (mkL NP 0 0x90 false None [acc_ Sv; opr_ Sv] OsV I_none) [OReg a; OReg r] imm (render s i1 ++ [0x90 + low3 r]) rest
  /\ lsays (mkL NP 0 0x90 false None [opr_ Sv; acc_ Sv] OsV I_none) [OReg r; OReg a] imm (render s i1 ++ [0x90 + low3 r]) rest.
Proof.
  intros Gr Ga B B8 I0 H.
  assert (N : isREG r = false -> bit4 r = false) by (apply (in_file_bit4 KG); exact Gr).
  pose proof (low3_range r) as LR.
  assert (O2 : opcode_ok 0 (0x90 + low3 r) = true /\ (0x90 + low3 r) mod 8 = low3 r).
  { assert (X : opcode_ok 0 (0x90 + low3 r) && ((0x90 + low3 r) mod 8 =? low3 r) = true).
    { apply (sweep_low3 (fun l => opcode_ok 0 (0x90 + l) && ((0x90 + l) mod 8 =? l))); auto. }
    apply andb_prop in X as [X1 X2]. split; auto. lia. }
  destruct O2 as [O2 O3].
  assert (W : bit_ r = 16 \/ bit_ r = 32 \/ bit_ r = 64).
  { destruct (gpr_std _ Gr) as [Q|[Q|[Q|Q]]]; auto. congruence. }
  assert (Acc : forall w h reg, w = bit_ r -> oper_ok w h reg None (acc_ Sv) (OReg a)).
  { intros w h reg ->. unfold oper_ok. cbn [acc_ o_at o_reg o_mem o_size]. split; [exists KG; split; [reflexivity|exact Ga]|].
    split; [exact B|]. split; [now rewrite <- regno_getIdx|]. intros; contradiction. }
  split.
  - refine (leaf_opc s (mkL NP 0 0x90 false None [acc_ Sv; opr_ Sv] OsV I_none) (bit_ r) r a (0x90 + low3 r) env pos i1 x2 [OReg a; OReg r] imm [] rest N (quiet_acc _ _ Gr Ga B B8 I0) H eq_refl eq_refl O2 _ _ eq_refl eq_refl eq_refl _ _ _ _ (imm_none_ok _ _)).
    + destruct W as [-> | [-> | ->]]; reflexivity.
    + unfold isBit. destruct W as [-> | [-> | ->]]; reflexivity.
    + rewrite (in_file_REGb KG _ Gr). destruct W as [-> | [-> | ->]]; reflexivity.
    + cbn [l_ops existsb opr_ acc_ o_at orb l_osz w_opc l_opc]. rewrite O3. lia.
    + intros h reg Fh. apply Forall2_cons; [auto|]. apply Forall2_cons; [|apply Forall2_nil].
      eapply (opr_facts Sv (bit_ r) r r h (0x90 + low3 r) reg 0x90); eauto. reflexivity.
    + right. apply Exists_cons_hd. split; [reflexivity|exact B].
  - refine (leaf_opc s (mkL NP 0 0x90 false None [opr_ Sv; acc_ Sv] OsV I_none) (bit_ r) r a (0x90 + low3 r) env pos i1 x2 [OReg r; OReg a] imm [] rest N (quiet_acc _ _ Gr Ga B B8 I0) H eq_refl eq_refl O2 _ _ eq_refl eq_refl eq_refl _ _ _ _ (imm_none_ok _ _)).
    + destruct W as [-> | [-> | ->]]; reflexivity.
    + unfold isBit. destruct W as [-> | [-> | ->]]; reflexivity.
    + rewrite (in_file_REGb KG _ Gr). destruct W as [-> | [-> | ->]]; reflexivity.
    + cbn [l_ops existsb opr_ acc_ o_at orb l_osz w_opc l_opc]. rewrite O3. lia.
    + intros h reg Fh. apply Forall2_cons; [|apply Forall2_cons; [auto|apply Forall2_nil]].
      eapply (opr_facts Sv (bit_ r) r r h (0x90 + low3 r) reg 0x90); eauto. reflexivity.
    + right. apply Exists_cons_hd. split; reflexivity.
Qed.
(* the opcode 90 of both operands eax, which is nop, is not used *)
Definition real_xchg (row : lrow) (o1 o2 : Operand) : Prop :=
  l_modrm row = false -> bit_ (ob o1) = 32 -> regno (ob o1) <> 0 \/ regno (ob o2) <> 0.
Lemma xchg_says o1 o2 imm env pos its s u rest :
  larg_ok tE o1 -> larg_ok tE o2 -> same_size o1 o2 -> high_ok [o1; o2] -> emits (xchg o1 o2) env pos its u ->
  Exists (fun row => lsays row [o1; o2] imm (render s its) rest /\ real_xchg row o1 o2) xchg_rows.
Proof.
  intros A1 A2 Sz Hh H. unfold xchg in H. apply emits_fn in H.
  assert (MR : forall r a, gpr r -> mem_ok a ->
    emits (opRO r (OMem a) 0 (134 ||| (if isBit r 8 then 0 else 1)) (isREG r && (getBit r =? ogetBit (OMem a))) 0) env pos its u ->
    (high_ok [OReg r; OMem a] -> lsays (rorow NP 0 0x86 Sv Sv OsB I_none) [OReg r; OMem a] imm (render s its) rest)
    /\ (high_ok [OMem a; OReg r] -> lsays (orrow NP 0 0x86 Sv Sv OsB I_none) [OMem a; OReg r] imm (render s its) rest)).
  { intros r a G A Q. apply opRO_cond in Q as [Q _].
    assert (B8 : isBit r 8 = (bit_ r =? 8)).
    { unfold isBit. change (getBit r) with (bit_ r). destruct (gpr_std _ G) as [-> | [-> | [-> | ->]]]; reflexivity. }
    rewrite B8 in Q. split; intros HH.
    - assert (X : Exists (fun row => lsays row [OReg r; OMem a] imm (render s its) rest) [rorow NP 0 0x86 Sv Sv OsB I_none]).
      { apply (ro_ok_says _ false r (OMem a) imm env pos its s rest HH). destruct (bit_ r =? 8) eqn:B.
        - eapply ro_ok_intro with (k2 := KG) (m := true) (cond := fun b _ _ => b =? 8) (wsel := w_r); [left; reflexivity|reflexivity|reflexivity|reflexivity| |exact G|exact A|exact B|exact Q]. chk.
        - eapply ro_ok_intro with (k2 := KG) (m := true) (cond := fun b _ _ => negb (b =? 8)) (wsel := w_r); [left; reflexivity|reflexivity|reflexivity|reflexivity| |exact G|exact A| |exact Q]. chk. now rewrite B. }
      inversion X as [? ? Y|? ? Y]; subst; [exact Y|inversion Y].
    - assert (X : Exists (fun row => lsays row [OMem a; OReg r] imm (render s its) rest) [orrow NP 0 0x86 Sv Sv OsB I_none]).
      { apply (ro_ok_says _ true r (OMem a) imm env pos its s rest HH). destruct (bit_ r =? 8) eqn:B.
        - eapply ro_ok_intro with (k2 := KG) (m := true) (cond := fun b _ _ => b =? 8) (wsel := w_r); [left; reflexivity|reflexivity|reflexivity|reflexivity| |exact G|exact A|exact B|exact Q]. chk.
        - eapply ro_ok_intro with (k2 := KG) (m := true) (cond := fun b _ _ => negb (b =? 8)) (wsel := w_r); [left; reflexivity|reflexivity|reflexivity|reflexivity| |exact G|exact A| |exact Q]. chk. now rewrite B. }
      inversion X as [? ? Y|? ? Y]; subst; [exact Y|inversion Y]. }
  assert (RR : forall r q, gpr r -> gpr q ->
    emits (opRO r (OReg q) 0 (134 ||| (if isBit r 8 then 0 else 1)) (isREG r && (getBit r =? ogetBit (OReg q))) 0) env pos its u ->
    (high_ok [OReg r; OReg q] -> lsays (rorow NP 0 0x86 Sv Sv OsB I_none) [OReg r; OReg q] imm (render s its) rest)
    /\ (high_ok [OReg q; OReg r] -> lsays (orrow NP 0 0x86 Sv Sv OsB I_none) [OReg q; OReg r] imm (render s its) rest)).
  { intros r a G A Q. apply opRO_cond in Q as [Q _].
    assert (B8 : isBit r 8 = (bit_ r =? 8)).
    { unfold isBit. change (getBit r) with (bit_ r). destruct (gpr_std _ G) as [-> | [-> | [-> | ->]]]; reflexivity. }
    rewrite B8 in Q. split; intros HH.
    - assert (X : Exists (fun row => lsays row [OReg r; OReg a] imm (render s its) rest) [rorow NP 0 0x86 Sv Sv OsB I_none]).
      { apply (ro_ok_says _ false r (OReg a) imm env pos its s rest HH). destruct (bit_ r =? 8) eqn:B.
        - eapply ro_ok_intro with (k2 := KG) (m := true) (cond := fun b _ _ => b =? 8) (wsel := w_r); [left; reflexivity|reflexivity|reflexivity|reflexivity| |exact G|exact A|exact B|exact Q]. chk.
        - eapply ro_ok_intro with (k2 := KG) (m := true) (cond := fun b _ _ => negb (b =? 8)) (wsel := w_r); [left; reflexivity|reflexivity|reflexivity|reflexivity| |exact G|exact A| |exact Q]. chk. now rewrite B. }
      inversion X as [? ? Y|? ? Y]; subst; [exact Y|inversion Y].
    - assert (X : Exists (fun row => lsays row [OReg a; OReg r] imm (render s its) rest) [orrow NP 0 0x86 Sv Sv OsB I_none]).
      { apply (ro_ok_says _ true r (OReg a) imm env pos its s rest HH). destruct (bit_ r =? 8) eqn:B.
        - eapply ro_ok_intro with (k2 := KG) (m := true) (cond := fun b _ _ => b =? 8) (wsel := w_r); [left; reflexivity|reflexivity|reflexivity|reflexivity| |exact G|exact A|exact B|exact Q]. chk.
        - eapply ro_ok_intro with (k2 := KG) (m := true) (cond := fun b _ _ => negb (b =? 8)) (wsel := w_r); [left; reflexivity|reflexivity|reflexivity|reflexivity| |exact G|exact A| |exact Q]. chk. now rewrite B. }
      inversion X as [? ? Y|? ? Y]; subst; [exact Y|inversion Y]. }
  assert (MK : forall a, mem_ok a -> oREG (OMem a) = false).
  { intros a Q. unfold oREG, isREG, is_; cbn [ob]; rewrite (wm_kind _ (mo_wf _ Q)); reflexivity. }
  assert (MB : forall a m, mem_ok a -> oREGb (OMem a) m = false).
  { intros a m Q. unfold oREGb, isREGb, is_; cbn [ob]; rewrite (wm_kind _ (mo_wf _ Q)); reflexivity. }
  assert (GK : forall r, gpr r -> isREG r = true).
  { intros r [K _]. unfold isREG, is_. rewrite K. reflexivity. }
  destruct o1 as [r1|a1], o2 as [r2|a2]; cbn [isMEM orb] in H.
  - (* two registers *)
    cbn [larg_ok] in A1, A2. cbn [same_size] in Sz.
    assert (K1 := GK _ A1). assert (K2 := GK _ A2).
    assert (I16 : forall r, gpr r -> oREGb (OReg r) (16 ||| i32e) = negb (bit_ r =? 8)).
    { intros r G. unfold oREGb. cbn [ob]. rewrite (gpr_REGb _ _ G). destruct (gpr_std _ G) as [-> | [-> | [-> | ->]]]; reflexivity. }
    assert (I32 : forall r, gpr r -> oREGb (OReg r) 32 = (bit_ r =? 32)).
    { intros r G. unfold oREGb. cbn [ob]. rewrite (gpr_REGb _ _ G). destruct (gpr_std _ G) as [-> | [-> | [-> | ->]]]; reflexivity. }
    assert (X : forall r, oREG (OReg r) = isREG r) by reflexivity.
    assert (Y : forall r, ogetIdx (OReg r) = getIdx r) by reflexivity.
    rewrite (I16 _ A2), (Y r2) in H.
    assert (OP : forall l, 0 <= l < 8 -> w8 (0x90 ||| l) = 0x90 + l).
    { intros l L. apply Z.eqb_eq. apply (sweep_low3 (fun l => w8 (0x90 ||| l) =? 0x90 + l)); auto. }
    destruct (negb (bit_ r2 =? 8) && (getIdx r2 =? 0)) eqn:Sw; cbn [isMEM] in H.
    + apply andb_prop in Sw as [N8 I0]. rewrite (X r1), K1, (I16 _ A2), N8, (Y r2), I0, (Y r1), (I32 _ A2) in H. cbn [andb] in H.
      destruct (negb (getIdx r1 =? 0) || negb (bit_ r2 =? 32)) eqn:Nop.
      * ebind H i1 i2 x H1 H2. apply emits_db in H2 as ->. rewrite render_app. cbn [render render1 app]. rewrite low3_and, OP by apply low3_range.
        destruct (xchg_acc s r1 r2 env pos i1 x imm rest A1 A2 (eq_sym Sz) ltac:(lia) ltac:(lia) H1) as [_ P].
        do 3 apply Exists_cons_tl. apply Exists_cons_hd. split; [exact P|]. intros _ B32. cbn [ob] in *. left. rewrite <- regno_getIdx.
        rewrite <- Sz, B32 in Nop. cbn [Z.eqb Pos.eqb negb orb] in Nop. rewrite orb_false_r in Nop. lia.
      * rewrite (X r2), K2 in H. cbn [andb ob] in H. apply orb_false_iff in Nop as [N1 N2].
        destruct (RR r1 r2 A1 A2) as [P _]; [exact H|]. apply Exists_cons_tl, Exists_cons_hd. split; [apply P; exact Hh|]. intros Q. discriminate Q.
    + rewrite (X r2), K2, (I16 _ A1), (I32 _ A1), (Y r1), (Y r2) in H. cbn [andb] in H.
      destruct (negb (bit_ r1 =? 8) && (getIdx r1 =? 0) && (negb (getIdx r2 =? 0) || negb (bit_ r1 =? 32))) eqn:Nop.
      * apply andb_prop in Nop as [Nop N2]. apply andb_prop in Nop as [N8 I0].
        ebind H i1 i2 x H1 H2. apply emits_db in H2 as ->. rewrite render_app. cbn [render render1 app]. rewrite low3_and, OP by apply low3_range.
        destruct (xchg_acc s r2 r1 env pos i1 x imm rest A2 A1 Sz ltac:(lia) ltac:(lia) H1) as [P _].
        do 2 apply Exists_cons_tl. apply Exists_cons_hd. split; [exact P|]. intros _ B32. cbn [ob] in *. right. rewrite <- regno_getIdx.
        rewrite B32 in N2. cbn [Z.eqb Pos.eqb negb orb] in N2. rewrite orb_false_r in N2. lia.
      * rewrite (X r1), K1 in H. cbn [andb ob] in H.
        destruct (RR r2 r1 A2 A1) as [_ P]; [exact H|]. apply Exists_cons_hd. split; [apply P; exact Hh|]. intros Q. discriminate Q.
  - cbn [larg_ok] in A1, A2. assert (K1 := GK _ A1).
    rewrite (MB _ _ A2) in H. cbn [andb isMEM] in H. rewrite (MK _ A2) in H. cbn [andb] in H. rewrite andb_false_r in H. cbn [ob] in H.
    destruct (MR r1 a2 A1 A2) as [P _]; [exact H|]. apply Exists_cons_tl, Exists_cons_hd. split; [apply P; exact Hh|]. intros Q. discriminate Q.
  - cbn [larg_ok] in A1, A2. assert (K1 := GK _ A2). rewrite (MK _ A1) in H. cbn [andb] in H. rewrite andb_false_r in H. cbn [ob] in H.
    destruct (MR r2 a1 A2 A1) as [_ P]; [exact H|]. apply Exists_cons_hd. split; [apply P; exact Hh|]. intros Q. discriminate Q.
  - einv H.
Qed.

(* ---- bswap ---- *)
Definition bswap_row : lrow := mkL NP 1 0xC8 false None [opr_ Sv] OsY I_none.
Lemma bswap_dec l (w : bool) c : 0 <= l < 32 ->
  let rx := (if w then 8 else 0) ||| (if has l 8 then 1 else 0) in
  dec_header ((if 16 <=? l then [0xD5; w8 (128 ||| (l &&& 16) ||| rx)] else (if negb (rx =? 0) then [w8 (0x40 ||| rx)] else []) ++ [0x0F]) ++ w8 (0xC8 + (l &&& 7)) :: c)
  = Some (leg_header pfx0 ((16 <=? l) || negb (rx =? 0)) 1 w 0 0 (l - l mod 8) (0xC8 + l mod 8), c).
Proof.
  intros L. assert (C : In l (upto 32)) by (apply upto_in; exact L).
  assert (K : forall x, In x (upto 32) -> 
    let rx := (if w then 8 else 0) ||| (if has x 8 then 1 else 0) in
    dec_header ((if 16 <=? x then [0xD5; w8 (128 ||| (x &&& 16) ||| rx)] else (if negb (rx =? 0) then [w8 (0x40 ||| rx)] else []) ++ [0x0F]) ++ w8 (0xC8 + (x &&& 7)) :: c)
    = Some (leg_header pfx0 ((16 <=? x) || negb (rx =? 0)) 1 w 0 0 (x - x mod 8) (0xC8 + x mod 8), c)).
  { intros x Hx. vm_compute in Hx. repeat (destruct Hx as [<-|Hx]; [destruct w; reflexivity|]). destruct Hx. }
  exact (K _ C).
Qed.
Lemma bswap_entry nm f : (forall r, f r = bswap r) -> limplements (mkLE nm [tRe] (fun ops _ => match ops with [OReg r] => Some (f r) | _ => None end) [bswap_row]).
Proof.
  intros E s ops imm act env pos its rest u Hf Ha Hb Hh Hi H. cbn [le_fun le_sig le_rows] in *.
  apply args1 in Ha as (op & -> & A). destruct op as [r|]; [|destruct A]. destruct A as [G B]. injection Hf as <-. rewrite E in H.
  unfold bswap in H. cbv zeta in H. ebind H i1 i2 x H1 H2. apply emits_db in H2 as ->. rewrite render_app. cbn [render render1 app].
  pose proof (getIdx_range r) as R. rewrite (gpr_REGb _ _ G) in H1.
  assert (W : (64 =? 0) || has (bit_ r) 64 = (bit_ r =? 64)) by (destruct B as [-> | ->]; reflexivity). rewrite W in H1. clear W.
  pose proof (bswap_dec (getIdx r) (bit_ r =? 64) rest R) as D. cbv zeta in D.
  set (rx := (if bit_ r =? 64 then 8 else 0) ||| (if has (getIdx r) 8 then 1 else 0)) in *.
  assert (RD : render s i1 = if 16 <=? getIdx r then [0xD5; w8 (128 ||| (getIdx r &&& 16) ||| rx)] else (if negb (rx =? 0) then [w8 (0x40 ||| rx)] else []) ++ [0x0F]).
  { destruct (16 <=? getIdx r).
    - ebind H1 j1 j2 y J1 J2. apply emits_db in J1 as ->. apply emits_db in J2 as ->. reflexivity.
    - ebind H1 j1 j2 y J1 J2. apply (render_when_db s) in J1. apply emits_db in J2 as ->. rewrite render_app, J1. reflexivity. }
  apply Exists_cons_hd.
  eexists (bit_ r), _, 0, None, 0xC8, []. cbn [l_modrm bswap_row l_ops existsb opr_ o_at orb].
  rewrite RD, <- app_assoc. cbn [app].
  assert (Om : (0xC8 + getIdx r mod 8) mod 8 = getIdx r mod 8).
  { replace 0xC8 with (25 * 8) by reflexivity. rewrite Z.add_comm, Z_mod_plus_full. apply Z.mod_mod. lia. }
  split; [split; [exact D|split; [reflexivity|cbn [h_opc leg_header]; rewrite Om; lia]]|].
  split; [unfold lhead; cbn; destruct B as [-> | ->]; repeat split; reflexivity|].
  split; [discriminate|]. split; [|split; [right; apply Exists_cons_hd; split; reflexivity|apply imm_none_ok]].
  apply Forall2_cons; [|apply Forall2_nil]. unfold oper_ok. cbn [o_at o_reg o_mem o_size h_B h_opc leg_header size_is].
  split; [exists KG; split; [reflexivity|exact G]|]. split; [reflexivity|].
  split; [cbn [opr_ o_at]; rewrite Om, <- regno_getIdx; lia|]. intros B8. exfalso. rewrite B8 in B. lia.
Qed.
