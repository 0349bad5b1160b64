(* The shapes of the methods with APX encodings: conditional compare with immediate, crc32, and the methods that
   have VEX encodings for r0 .. r15 (andn, bextr, mulx, cmpccxadd ...). *)
From Coq Require Import ZArith List Bool Lia String.
From Verif Require Import Base Types Emit Encode SpecX86 SpecAddr EmitFacts BitFacts Wf MemFacts LegacyFacts VexFacts
  SpecIsa SpecInsn SpecLeg EncThms LegFacts LegShapes LegGpr LegGpr2 LegGpr3 SpecApx ApxFacts ApxShapes ApxShapes2 ApxShapes3 ApxShapes4.
Import ListNotations.
Open Scope Z_scope.

Lemma s32_mod imm : s32 imm mod 2 ^ 32 = imm mod 2 ^ 32.
Proof.
  unfold s32. change (2 ^ 32) with 4294967296. destruct (w32 imm <? 2147483648); unfold w32; [now rewrite Z.mod_mod by lia|].
  replace (imm mod 4294967296 - 4294967296) with (imm mod 4294967296 + -1 * 4294967296) by lia. rewrite Z_mod_plus_full. now rewrite Z.mod_mod by lia.
Qed.
Definition cci_row (opc dg sc : Z) : arow := mkA NP 4 opc (Some dg) [rm_a] OsB Nd0 NfNo (Some sc) I_z.
Definition cci_row8 (dg sc : Z) : arow := mkA NP 4 0x83 (Some dg) [rm_a] OsV Nd0 NfNo (Some sc) I_8s.
Lemma cci_says s row op e dfv code imz sc env pos its rest tl w imm :
  0 <= sc < 16 -> 0 <= e < 16 -> 0 <= dfv < 16 -> aarg_ok cE op -> size4 w -> bit_ (ob op) = w -> wants_zu [op] = false ->
  a_sc row = Some sc -> a_ndk row = Nd0 -> a_nf row = NfNo -> a_digit row = Some (e mod 8) -> a_ops row = [rm_a] ->
  achk row TCC code true w = true -> imm_ok (a_immk row) w imm tl ->
  emits (opROO (regOf (15 - dfv) REG w false) op (OReg (regOf e REG w false)) TCC code imz sc) env pos its true ->
  asays row [op] imm dfv (render s its ++ tl) rest.
Proof.
  intros Hsc He Hd A Hw B ZZ Sc Nd Nf Dg Eo C Im H.
  destruct (dig_facts (15 - dfv) w ltac:(lia) (size4_range w Hw)) as (R0 & B0). destruct (dig_facts e w He (size4_range w Hw)) as (R1 & B1).
  eapply says1_sc with (sc := sc) (w := w) (b64 := w =? 64) (b16 := w =? 16) (b8 := w =? 8); eauto using cE_rm_ok.
  - apply bits2; auto.
  - unfold wants_nf. cbn [existsb ob NF_ regOf]. rewrite (opnf_ok op) by (apply cE_rm_ok; auto). destruct (opnf op); reflexivity.
  - rewrite Dg. intros dg Q. injection Q as <-. now rewrite R1.
  - intros h rm R. rewrite Eo. apply Forall2_cons; [|constructor]. apply ok_rm; auto. destruct op; cbn [ob] in B; auto.
  - right. rewrite Eo. apply Exists_cons_hd. split; auto.
Qed.
Lemma ccmpi_entry nm f sc :
  (forall op imm dfv, f op imm dfv = opCcmpi op (s32 imm) (s32 dfv) sc) -> 0 <= sc < 16 ->
  achk_sizes (cci_row 0x80 7 sc) TCC 0x80 true all4 = true -> achk_sizes (cci_row8 7 sc) TCC 0x82 true no8 = true ->
  aimplements (mkAE nm [cE] XNo (a_oif f) [cci_row 0x80 7 sc; cci_row8 7 sc]).
Proof.
  intros Ef Hsc C1 C2 s ops imm dfv act env pos its rest u Ha Harg Hsz _ _ Hd Hzu _ H. cbn [ae_fun ae_sig ae_rows ae_ext] in *.
  apply sig1 in Harg as (op & -> & A). cbn [a_oif] in Ha. injection Ha as <-. rewrite Ef, (s32_int dfv) in H by auto.
  apply same1 in Hsz as (w & Hw & _ & B); [|reflexivity].
  assert (ZZ : wants_zu [op] = false). { eapply zu_nd0; eauto; [left; reflexivity|reflexivity]. }
  unfold opCcmpi in H. apply emits_fn in H. destruct ((dfv <? 0) || (15 <? dfv)) eqn:D; [einv H|]. apply orb_false_iff in D as [D1 D2].
  ebind H i1 i2 n H1 H. apply getImmBit_split in H1 as (-> & -> & _ & _).
  2:{ rewrite B. apply size4_in in Hw. right. exact Hw. }
  2:{ rewrite B. destruct Hw as [->|[->|[->| ->]]]; discriminate. }
  cbv zeta in H. change (ogetBit op) with (bit_ (ob op)) in H. rewrite B in H. fold TCC in H.
  pose proof (s32_mod imm) as V. set (v := s32 imm) in *. clearbody v.
  ebind H i3 i4 b H3 H4. assert (b = true) as -> by (eapply sc_true; [|exact H3]; reflexivity).
  apply (dbn_render s) in H4 as [_ R4]; [|unfold immBit; rewrite B; destruct Hw as [->|[->|[->| ->]]]; destruct (IsInDisp8 _); vm_compute; discriminate].
  cbn [app]. rewrite render_app, R4. clear R4.
  assert (IB : immBit op v = 8 /\ w <> 8 /\ IsInDisp8 v = true \/ immBit op v = Z.min w 32).
  { unfold immBit. rewrite B. destruct Hw as [->|[->|[->| ->]]]; destruct (IsInDisp8 v); cbn [Z.eqb Pos.eqb]; auto; left; repeat split; auto; discriminate. }
  destruct IB as [(IB & W8 & D8)|IB]; rewrite IB in *.
  - apply Exists_cons_tl, Exists_cons_hd.
    replace (8 <? Z.min w 32) with true in H3 by (destruct Hw as [->|[->|[->| ->]]]; auto; exfalso; apply W8; reflexivity).
    eapply (cci_says s (cci_row8 7 sc) op 15); eauto; try lia; try reflexivity.
    + eapply achk_sizes_in; eauto using size4_no8.
    + apply imm_8s_ok; auto.
  - apply Exists_cons_hd. rewrite Z.ltb_irrefl in H3.
    eapply (cci_says s (cci_row 0x80 7 sc) op 15); eauto; try lia; try reflexivity.
    + eapply achk_sizes_in; eauto using size4_all.
    + apply imm_z_ok; auto. f_equal. destruct Hw as [->|[->|[->| ->]]]; reflexivity.
Qed.
Lemma ctesti_entry nm f sc :
  (forall op imm dfv, f op imm dfv = opTesti op (s32 imm) (s32 dfv) sc) -> 0 <= sc < 16 ->
  achk_sizes (cci_row 0xF6 0 sc) TCC 0xF6 true all4 = true ->
  aimplements (mkAE nm [cE] XNo (a_oif f) [cci_row 0xF6 0 sc]).
Proof.
  intros Ef Hsc C1 s ops imm dfv act env pos its rest u Ha Harg Hsz _ _ Hd Hzu _ H. cbn [ae_fun ae_sig ae_rows ae_ext] in *.
  apply sig1 in Harg as (op & -> & A). cbn [a_oif] in Ha. injection Ha as <-. rewrite Ef, (s32_int dfv) in H by auto.
  apply same1 in Hsz as (w & Hw & _ & B); [|reflexivity].
  assert (ZZ : wants_zu [op] = false). { eapply zu_nd0; eauto; [left; reflexivity|reflexivity]. }
  unfold opTesti in H. apply emits_fn in H. destruct ((dfv <? 0) || (15 <? dfv)) eqn:D; [einv H|]. apply orb_false_iff in D as [D1 D2].
  cbv zeta in H. change (ogetBit op) with (bit_ (ob op)) in H. rewrite B in H. fold TCC in H.
  destruct (w =? 0); [einv H|].
  pose proof (s32_mod imm) as V. set (v := s32 imm) in *. clearbody v.
  ebind H i3 i4 b H3 H4. assert (b = true) as -> by (eapply sc_true; [|exact H3]; reflexivity).
  apply (dbn_render s) in H4 as [_ R4]; [|destruct Hw as [->|[->|[->| ->]]]; vm_compute; discriminate].
  rewrite render_app, R4. clear R4. apply Exists_cons_hd.
  eapply (cci_says s (cci_row 0xF6 0 sc) op 0); eauto; try lia; try reflexivity.
  - eapply achk_sizes_in; eauto using size4_all.
  - apply imm_z_ok; auto. f_equal. destruct Hw as [->|[->|[->| ->]]]; reflexivity.
Qed.

(* ---- crc32 ---- *)
Definition crc_row (pp : ppfx) (opc : Z) (osz : wsize) (a b : Z) : arow := mkA pp 4 opc None [rgn_ a; rmn_a b] osz Nd0 NfNo None I_none.
Lemma crc_entry nm f row type code a b :
  (forall r op env pos its u, hasRex2NFZU op || hasRex2NFZU (OReg r) = true -> bit_ r = a -> bit_ (ob op) = b -> emits (f r op) env pos its u ->
     emits (opROO noReg op (OReg r) type code 0 NONE) env pos its true) ->
  a_ops row = [rgn_ a; rmn_a b] -> a_digit row = None -> a_sc row = None -> a_ndk row = Nd0 -> a_nf row = NfNo -> a_immk row = I_none ->
  (a = 32 \/ a = 64) -> has type T_ZU = false -> achkb row type code false 0 (a =? 64) false false = true ->
  aimplements (mkAE nm [cRn a; cEn b] XAny (a_ro f) [row]).
Proof.
  intros Ef Eo Dg Sc Nd Nf Im Ha0 HZ C s ops imm dfv act env pos its rest u Ha Harg Hsz _ Hx _ Hzu _ H. cbn [ae_fun ae_sig ae_rows ae_ext] in *.
  apply sig2 in Harg as (o1 & op & -> & A1 & A2). destruct o1 as [r|]; [|contradiction]. destruct A1 as (Gr & Lr & Br).
  assert (A : aarg_ok cE op) by (destruct op; cbn in *; tauto).
  assert (B : bit_ (ob op) = b) by (destruct op; cbn in *; tauto).
  cbn [a_ro] in Ha. injection Ha as <-.
  cbn [ext_ok] in Hx. apply ext2 in Hx; [|split; auto|auto]. rewrite orb_comm in Hx. apply Ef in H; auto.
  assert (ZZ : wants_zu [OReg r; op] = false). { eapply zu_nd0; eauto; left; reflexivity. }
  rewrite <- (app_nil_r (render s its)). apply Exists_cons_hd.
  eapply says1 with (d := noReg) (w := 0) (b64 := a =? 64) (b16 := false) (b8 := false); eauto using cE_rm_ok.
  - unfold size_b, isBit, getBit. rewrite Br. destruct Ha0 as [->| ->]; repeat split.
  - apply nf_wants; [congruence|]. rewrite wants_nf2. cbn [ob NF_ noReg]. rewrite (opnf_ok op), orb_false_r by (apply cE_rm_ok; auto). reflexivity.
  - congruence.
  - congruence.
  - rewrite Dg. discriminate.
  - intros h rm R V. rewrite Eo. apply Forall2_cons; [simpl; split; [exists KG; auto|auto]|]. apply Forall2_cons; [|constructor].
    destruct op as [q|m]; cbn [ob] in B.
    + destruct A2 as (G & L & _). destruct R as (R & X). simpl. split; [exists KG; auto|]. auto.
    + simpl. auto.
  - left. reflexivity.
  - rewrite Im. apply imm_none.
Qed.

(* ---- methods with VEX encodings for r0 .. r15 ---- *)
Definition wbit (w : Z) : Z := if w =? 64 then T_W1 else T_W0.
Definition achky (row : arow) (type code : Z) : bool := forallb (fun w => achk row (type ||| wbit w) code true w) [32; 64].
Lemma achky_in row type code w : achky row type code = true -> w = 32 \/ w = 64 -> achk row (type ||| wbit w) code true w = true.
Proof. unfold achky. rewrite forallb_forall. intros H [->| ->]; apply H; simpl; auto. Qed.
Lemma rro_split s d r1 op type code imm8 env pos its u w :
  emits (opRRO d r1 op type code imm8) env pos its u -> bit_ d = w -> isREG r1 = true ->
  hasRex2 (OReg d) || hasRex2 (OReg r1) || hasRex2 op || NF_ d = true ->
  exists i1 i2, its = i1 ++ i2 /\ emits (opROO r1 op (OReg d) (type ||| wbit w) code 0 NONE) env pos i1 true
    /\ render s i2 = (if imm8 =? NONE then [] else [w8 imm8]).
Proof.
  intros H B R X. unfold opRRO in H. apply emits_fn in H. cbv zeta in H.
  match type of H with emits (if ?c then _ else _) _ _ _ _ => destruct c; [einv H|] end.
  rewrite X in H. unfold getBit in H. rewrite B in H. fold (wbit w) in H.
  ebind H i1 i2 b H1 H. pose proof (opROO_ndd _ _ _ _ _ _ _ _ _ _ _ R H1) as ->. exists i1, i2. split; auto. split; auto.
  destruct (imm8 =? NONE); cbn [negb] in H; [apply emits_ret in H as [-> _]; auto|]. apply emits_db in H as ->. reflexivity.
Qed.
Lemma rex2_op op : aarg_ok cE op -> ext_reg op = true -> hasRex2 op = true.
Proof.
  destruct op as [r|a].
  - intros (G & _) H. apply Z.leb_le in H. exact (ext_gpr _ G H).
  - intros (M & (_ & V) & _) H. unfold ext_reg in H. unfold hasRex2, addrHasRex2.
    pose proof (wm_e _ (mo_wf _ M)) as We. apply orb_true_iff in H as [H|H]; apply Z.leb_le in H.
    + rewrite (ext_addr _ (wf_base _ We) H). reflexivity.
    + rewrite (ext_addr (e_index (a_e a))); auto using orb_true_r. destruct (wf_index _ We) as [B|[[B|B] _]]; auto. contradiction.
Qed.
Lemma cGy_32 o w : aarg_ok cGy o -> psize w o -> w = 32 \/ w = 64.
Proof.
  intros A P. destruct o as [r|]; [|contradiction]. apply psize_reg in P. subst w. destruct A as (_ & A). cbn in A. tauto.
Qed.
Lemma size_y w : w = 32 \/ w = 64 -> size4 w.
Proof. unfold size4. intuition. Qed.
Lemma cGy_reg o : aarg_ok cGy o -> exists r, o = OReg r /\ gpr r /\ low8 r.
Proof. intros A. apply reg_cls_ok in A as (r & -> & G & L & _); auto. exists r. auto. Qed.
(* d in reg, r1 in V, op in r/m *)
Lemma rro_says s row ops imm dfv d r1 op type code env pos its rest tl w :
  aarg_ok cE op -> w = 32 \/ w = 64 -> bit_ d = w -> bit_ r1 = w -> isREG r1 = true ->
  emits (opROO r1 op (OReg d) (type ||| wbit w) code 0 NONE) env pos its true ->
  a_sc row = None -> a_ndk row = Nd0 -> a_nf row <> Nf1 -> wants_zu ops = false -> has type T_ZU = false ->
  achky row type code = true -> NF_ d || opnf op || NF_ r1 = wants_nf ops ->
  (has_v row = false -> regno r1 = 0) ->
  (forall dg, a_digit row = Some dg -> regno d mod 8 = dg) ->
  (forall h rm, rm_is op h rm -> h_V h = regno r1 -> Forall2 (aoper_ok w h (regno d) rm) (a_ops row) ops) ->
  asized row w ops -> imm_ok (a_immk row) w imm tl ->
  asays row ops imm dfv (render s its ++ tl) rest.
Proof.
  intros A Hw Bd Br Rr H Sc Nd Nf ZZ HZ C N HV Dg Ho Hs Hi. pose proof (size_y w Hw) as Hw4.
  eapply says1 with (w := w) (b64 := w =? 64) (b16 := w =? 16) (b8 := w =? 8); eauto using cE_rm_ok.
  - rewrite Rr. apply achky_in; auto.
  - apply bits2; auto.
  - apply nf_wants; auto.
  - intros Q. exfalso. unfold has in *. rewrite Z.land_lor_distr_l in Q. destruct (type &&& T_ZU =? 0) eqn:Q0; [|discriminate].
    apply Z.eqb_eq in Q0. rewrite Q0 in Q. destruct Hw as [->| ->]; discriminate.
  - congruence.
Qed.
Lemma ext_hd3 o1 o2 o3 : ext_ok XHd [o1; o2; o3] = true -> ext_reg o1 = true \/ ext_reg o2 = true \/ ext_reg o3 = true \/ NF_ (ob o1) = true.
Proof. unfold ext_ok. cbn [existsb]. rewrite !orb_true_iff. intuition discriminate. Qed.
Lemma wants_nf3 o1 o2 o3 : wants_nf [o1; o2; o3] = NF_ (ob o1) || NF_ (ob o2) || NF_ (ob o3).
Proof. unfold wants_nf. cbn [existsb]. now rewrite orb_false_r, orb_assoc. Qed.
Lemma reg_cE r : gpr r -> low8 r -> aarg_ok cE (OReg r).
Proof. intros; split; auto. Qed.
(* andn, mulx, pdep, pext *)
Lemma rro_v_entry nm f row type code :
  (forall d r op, f d r op = opRRO d r op type code NONE) ->
  a_ops row = [rg_; v_; rm_a] -> a_digit row = None -> a_sc row = None -> a_ndk row = Nd0 -> a_nf row <> Nf1 -> a_immk row = I_none ->
  has type T_ZU = false -> achky row type code = true ->
  aimplements (mkAE nm [cGy; cGy; cEy] XHd (a_rro f) [row]).
Proof.
  intros Ef Eo Dg Sc Nd Nf Im HZ C s ops imm dfv act env pos its rest u Ha Harg Hsz _ Hx _ Hzu _ H. cbn [ae_fun ae_sig ae_rows ae_ext] in *.
  apply sig3 in Harg as (o1 & o2 & op & -> & A1 & A2 & A3).
  apply same3 in Hsz as (w & _ & P1 & P2 & P3 & _); [|reflexivity]. specialize (P1 eq_refl). specialize (P2 eq_refl). specialize (P3 eq_refl).
  pose proof (cGy_32 _ _ A1 P1) as Hw. apply cGy_reg in A1 as (d & -> & Gd & Ld). apply cGy_reg in A2 as (r & -> & Gr & Lr).
  apply rm_cls_ok in A3; auto. apply psize_reg in P1, P2. cbn [a_rro] in Ha. injection Ha as <-. rewrite Ef in H.
  assert (ZZ : wants_zu [OReg d; OReg r; op] = false). { eapply zu_nd0; eauto; left; reflexivity. }
  pose proof (gpr_isREG r Gr) as Rr.
  eapply (rro_split s) with (w := w) in H as (i1 & i2 & -> & H & R2); auto.
  2:{ apply ext_hd3 in Hx as [X|[X|[X|X]]].
      - rewrite (rex2_op _ (reg_cE _ Gd Ld) X). reflexivity.
      - rewrite (rex2_op _ (reg_cE _ Gr Lr) X). rewrite orb_true_r. reflexivity.
      - rewrite (rex2_op _ A3 X). rewrite orb_true_r. reflexivity.
      - cbn [ob] in X. rewrite X. apply orb_true_r. }
  rewrite render_app, R2, Z.eqb_refl. apply Exists_cons_hd.
  eapply rro_says with (d := d) (r1 := r) (w := w); eauto.
  - rewrite wants_nf3. cbn [ob]. rewrite (opnf_ok op) by (apply cE_rm_ok; auto). destruct (NF_ d), (NF_ r), (opnf op); reflexivity.
  - unfold has_v. rewrite Eo. discriminate.
  - rewrite Dg. discriminate.
  - intros h rm R V. rewrite Eo. apply Forall2_cons; [apply ok_rg; auto|]. apply Forall2_cons; [apply ok_v; auto|]. apply Forall2_cons; [apply ok_rm; auto|]. constructor.
  - eapply sized_hd; eauto.
  - rewrite Im. apply imm_none.
Qed.
(* bextr, bzhi, sarx, shlx, shrx *)
Lemma ror_v_entry nm f row type code :
  (forall d op r, f d op r = opRRO d r op type code NONE) ->
  a_ops row = [rg_; rm_a; v_] -> a_digit row = None -> a_sc row = None -> a_ndk row = Nd0 -> a_nf row <> Nf1 -> a_immk row = I_none ->
  has type T_ZU = false -> achky row type code = true ->
  aimplements (mkAE nm [cGy; cEy; cGy] XHd (a_ror f) [row]).
Proof.
  intros Ef Eo Dg Sc Nd Nf Im HZ C s ops imm dfv act env pos its rest u Ha Harg Hsz _ Hx _ Hzu _ H. cbn [ae_fun ae_sig ae_rows ae_ext] in *.
  apply sig3 in Harg as (o1 & op & o2 & -> & A1 & A3 & A2).
  apply same3 in Hsz as (w & _ & P1 & P3 & P2 & _); [|reflexivity]. specialize (P1 eq_refl). specialize (P2 eq_refl). specialize (P3 eq_refl).
  pose proof (cGy_32 _ _ A1 P1) as Hw. apply cGy_reg in A1 as (d & -> & Gd & Ld). apply cGy_reg in A2 as (r & -> & Gr & Lr).
  apply rm_cls_ok in A3; auto. apply psize_reg in P1, P2. cbn [a_ror] in Ha. injection Ha as <-. rewrite Ef in H.
  assert (ZZ : wants_zu [OReg d; op; OReg r] = false). { eapply zu_nd0; eauto; left; reflexivity. }
  pose proof (gpr_isREG r Gr) as Rr.
  eapply (rro_split s) with (w := w) in H as (i1 & i2 & -> & H & R2); auto.
  2:{ apply ext_hd3 in Hx as [X|[X|[X|X]]].
      - rewrite (rex2_op _ (reg_cE _ Gd Ld) X). reflexivity.
      - rewrite (rex2_op _ A3 X). rewrite orb_true_r. reflexivity.
      - rewrite (rex2_op _ (reg_cE _ Gr Lr) X). rewrite orb_true_r. reflexivity.
      - cbn [ob] in X. rewrite X. apply orb_true_r. }
  rewrite render_app, R2, Z.eqb_refl. apply Exists_cons_hd.
  eapply rro_says with (d := d) (r1 := r) (w := w); eauto.
  - rewrite wants_nf3. cbn [ob]. rewrite (opnf_ok op) by (apply cE_rm_ok; auto). destruct (NF_ d), (NF_ r), (opnf op); reflexivity.
  - unfold has_v. rewrite Eo. discriminate.
  - rewrite Dg. discriminate.
  - intros h rm R V. rewrite Eo. apply Forall2_cons; [apply ok_rg; auto|]. apply Forall2_cons; [apply ok_rm; auto|]. apply Forall2_cons; [apply ok_v; auto|]. constructor.
  - eapply sized_hd; eauto.
  - rewrite Im. apply imm_none.
Qed.
(* cmpccxadd: memory, reg, V *)
Lemma mrr_v_entry nm f row type code :
  (forall a d r, f a d r = opRRO d r (OMem a) type code NONE) ->
  a_ops row = [mm_a; rg_; v_] -> a_digit row = None -> a_sc row = None -> a_ndk row = Nd0 -> a_nf row <> Nf1 -> a_immk row = I_none ->
  has type T_ZU = false -> achky row type code = true ->
  aimplements (mkAE nm [cA; cGy; cGy] XRegs (a_mrr f) [row]).
Proof.
  intros Ef Eo Dg Sc Nd Nf Im HZ C s ops imm dfv act env pos its rest u Ha Harg Hsz _ Hx _ Hzu _ H. cbn [ae_fun ae_sig ae_rows ae_ext] in *.
  apply sig3 in Harg as (op & o1 & o2 & -> & A3 & A1 & A2).
  apply same3 in Hsz as (w & _ & P3 & P1 & P2 & _); [|reflexivity]. specialize (P1 eq_refl). specialize (P2 eq_refl). specialize (P3 eq_refl).
  pose proof (cGy_32 _ _ A1 P1) as Hw. apply cGy_reg in A1 as (d & -> & Gd & Ld). apply cGy_reg in A2 as (r & -> & Gr & Lr).
  destruct op as [|a]; [contradiction|]. assert (A : aarg_ok cE (OMem a)) by exact A3.
  apply psize_reg in P1, P2. cbn [a_mrr] in Ha. injection Ha as <-. rewrite Ef in H.
  assert (ZZ : wants_zu [OMem a; OReg d; OReg r] = false). { eapply zu_nd0; eauto; left; reflexivity. }
  pose proof (gpr_isREG r Gr) as Rr.
  eapply (rro_split s) with (w := w) in H as (i1 & i2 & -> & H & R2); auto.
  2:{ unfold ext_ok in Hx. cbn [existsb] in Hx. rewrite orb_false_r in Hx. apply orb_true_iff in Hx as [X|X]; [|apply orb_true_iff in X as [X|X]].
      - rewrite (rex2_op _ A X). rewrite orb_true_r. reflexivity.
      - rewrite (rex2_op _ (reg_cE _ Gd Ld) X). reflexivity.
      - rewrite (rex2_op _ (reg_cE _ Gr Lr) X). rewrite orb_true_r. reflexivity. }
  rewrite render_app, R2, Z.eqb_refl. apply Exists_cons_hd.
  eapply rro_says with (d := d) (r1 := r) (w := w); eauto.
  - rewrite wants_nf3. cbn [ob opnf]. destruct (amem_nf _ A3) as [-> _]. destruct (NF_ d), (NF_ r); reflexivity.
  - unfold has_v. rewrite Eo. discriminate.
  - rewrite Dg. discriminate.
  - intros h rm R V. rewrite Eo. apply Forall2_cons; [apply ok_mm; auto|]. apply Forall2_cons; [apply ok_rg; auto|]. apply Forall2_cons; [apply ok_v; auto|]. constructor.
  - right. rewrite Eo. apply Exists_cons_tl, Exists_cons_hd. split; auto.
  - rewrite Im. apply imm_none.
Qed.
(* blsi, blsmsk, blsr *)
Lemma vo_entry nm f row type code e :
  (forall r op, f r op = opRRO (Reg32e e (getBit r)) r op type code NONE) -> 0 <= e < 8 ->
  a_ops row = [v_; rm_a] -> a_digit row = Some e -> a_sc row = None -> a_ndk row = Nd0 -> a_nf row <> Nf1 -> a_immk row = I_none ->
  has type T_ZU = false -> achky row type code = true ->
  aimplements (mkAE nm [cGy; cEy] XRegs (a_ro f) [row]).
Proof.
  intros Ef He Eo Dg Sc Nd Nf Im HZ C s ops imm dfv act env pos its rest u Ha Harg Hsz _ Hx _ Hzu _ H. cbn [ae_fun ae_sig ae_rows ae_ext] in *.
  apply sig2 in Harg as (o1 & op & -> & A1 & A3).
  apply same2 in Hsz as (w & _ & P1 & P3 & _); [|reflexivity]. specialize (P1 eq_refl). specialize (P3 eq_refl).
  pose proof (cGy_32 _ _ A1 P1) as Hw. apply cGy_reg in A1 as (r & -> & Gr & Lr).
  apply rm_cls_ok in A3; auto. apply psize_reg in P1. cbn [a_ro] in Ha. injection Ha as <-. rewrite Ef in H. unfold getBit, Reg32e in H. rewrite P1 in H.
  assert (ZZ : wants_zu [OReg r; op] = false). { eapply zu_nd0; eauto; left; reflexivity. }
  pose proof (gpr_isREG r Gr) as Rr. destruct (dig_facts e w ltac:(lia) ltac:(lia)) as (Re & Be).
  eapply (rro_split s) with (w := w) in H as (i1 & i2 & -> & H & R2); auto.
  2:{ unfold ext_ok in Hx. cbn [existsb] in Hx. rewrite orb_false_r in Hx. apply orb_true_iff in Hx as [X|X].
      - rewrite (rex2_op _ (reg_cE _ Gr Lr) X). rewrite orb_true_r. reflexivity.
      - rewrite (rex2_op _ A3 X). rewrite orb_true_r. reflexivity. }
  rewrite render_app, R2, Z.eqb_refl. apply Exists_cons_hd.
  eapply rro_says with (d := regOf e REG w false) (r1 := r) (w := w); eauto.
  - rewrite wants_nf2. cbn [ob NF_ regOf]. rewrite (opnf_ok op) by (apply cE_rm_ok; auto). destruct (NF_ r), (opnf op); reflexivity.
  - unfold has_v. rewrite Eo. discriminate.
  - rewrite Dg. intros dg Q. injection Q as <-. rewrite Re. apply Z.mod_small; auto.
  - intros h rm R V. rewrite Eo. apply Forall2_cons; [apply ok_v; auto|]. apply Forall2_cons; [apply ok_rm; auto|]. constructor.
  - eapply sized_hd; eauto.
  - rewrite Im. apply imm_none.
Qed.
(* rorx *)
Lemma roi_v_entry nm f row type code :
  (forall r op imm, f r op imm = opRRO r (Reg32e 0 (getBit r)) op type code (w8 imm)) ->
  a_ops row = [rg_; rm_a] -> a_digit row = None -> a_sc row = None -> a_ndk row = Nd0 -> a_nf row <> Nf1 -> a_immk row = I_8 ->
  has type T_ZU = false -> achky row type code = true ->
  aimplements (mkAE nm [cGy; cEy] XRegs (a_roi f) [row]).
Proof.
  intros Ef Eo Dg Sc Nd Nf Im HZ C s ops imm dfv act env pos its rest u Ha Harg Hsz _ Hx _ Hzu _ H. cbn [ae_fun ae_sig ae_rows ae_ext] in *.
  apply sig2 in Harg as (o1 & op & -> & A1 & A3).
  apply same2 in Hsz as (w & _ & P1 & P3 & _); [|reflexivity]. specialize (P1 eq_refl). specialize (P3 eq_refl).
  pose proof (cGy_32 _ _ A1 P1) as Hw. apply cGy_reg in A1 as (r & -> & Gr & Lr).
  apply rm_cls_ok in A3; auto. apply psize_reg in P1. cbn [a_roi] in Ha. injection Ha as <-. rewrite Ef in H. unfold getBit, Reg32e in H. rewrite P1 in H.
  assert (ZZ : wants_zu [OReg r; op] = false). { eapply zu_nd0; eauto; left; reflexivity. }
  destruct (dig_facts 0 w ltac:(lia) ltac:(lia)) as (Re & Be).
  eapply (rro_split s) with (w := w) in H as (i1 & i2 & -> & H & R2); auto.
  2:{ unfold ext_ok in Hx. cbn [existsb] in Hx. rewrite orb_false_r in Hx. apply orb_true_iff in Hx as [X|X].
      - rewrite (rex2_op _ (reg_cE _ Gr Lr) X). reflexivity.
      - rewrite (rex2_op _ A3 X). rewrite orb_true_r. reflexivity. }
  assert (Nn : w8 imm =? NONE = false). { apply Z.eqb_neq. unfold w8, NONE. pose proof (Z.mod_pos_bound imm 256). lia. }
  rewrite render_app, R2, Nn. apply Exists_cons_hd.
  eapply rro_says with (d := r) (r1 := regOf 0 REG w false) (w := w); eauto.
  - rewrite wants_nf2. cbn [ob NF_ regOf]. rewrite (opnf_ok op) by (apply cE_rm_ok; auto). destruct (NF_ r), (opnf op); reflexivity.
  - rewrite Dg. discriminate.
  - intros h rm R V. rewrite Eo. apply Forall2_cons; [apply ok_rg; auto|]. apply Forall2_cons; [apply ok_rm; auto|]. constructor.
  - eapply sized_hd; eauto.
  - rewrite Im. apply imm_8_byte. unfold w8. now rewrite Z.mod_mod by lia.
Qed.
