(* The shapes of the methods with APX encodings: double shifts, conditional moves, set, push2/pop2, conditional compare. *)
From Coq Require Import ZArith List Bool Lia String.
From Verif Require Import Base Types Emit Encode SpecX86 SpecAddr EmitFacts BitFacts Wf MemFacts LegacyFacts VexFacts
  SpecIsa SpecInsn SpecLeg EncThms LegFacts LegShapes LegGpr LegGpr2 LegGpr3 SpecApx ApxFacts ApxShapes ApxShapes2 ApxShapes3.
Import ListNotations.
Open Scope Z_scope.

Lemma same4 c1 c2 c3 c4 o1 o2 o3 o4 : same_size [c1; c2; c3; c4] [o1; o2; o3; o4] -> existsb takes_size [c1; c2; c3; c4] = true ->
  exists w, size4 w /\ (takes_size c1 = true -> psize w o1) /\ (takes_size c2 = true -> psize w o2) /\ (takes_size c3 = true -> psize w o3).
Proof.
  intros [N|(w & Hw & A & X)] T; [congruence|]. exists w. apply size4_in in Hw. split; auto. apply all_psize in A. cbn [combine] in *.
  inversion A as [|? ? A1 A']; subst. inversion A' as [|? ? A2 A'']; subst. apply Forall_inv in A''. cbn [fst snd] in *. auto.
Qed.

(* ---- shld, shrd ---- *)
Definition shxd_row (opc : Z) : arow := mkA NP 4 opc None [v_; rm_a; rg_] OsV Nd1 NfOpt None I_8.
Definition shxd_cl (opc : Z) : arow := mkA NP 4 opc None [v_; rm_a; rg_; cl_a] OsV Nd1 NfOpt None I_none.
Definition shxd_row2 (opc : Z) : arow := mkA NP 4 opc None [rm_a; rg_] OsV Nd0 NfOpt None I_8.
Definition shxd_cl2 (opc : Z) : arow := mkA NP 4 opc None [rm_a; rg_; cl_a] OsV Nd0 NfOpt None I_none.
Lemma shxd_rori_entry nm f code code2 :
  (forall d op r imm, f d op r imm = opShxd d op r (w8 imm) code code2 None) ->
  achk_sizes (shxd_row code2) (T_APX ||| T_NF ||| T_ND1) code2 true no8 = true ->
  aimplements (mkAE nm [cGv; cEv; cGv] XNo (a_rori f) [shxd_row code2]).
Proof.
  intros Ef C s ops imm dfv act env pos its rest u Ha Harg Hsz _ _ _ Hzu _ H. cbn [ae_fun ae_sig ae_rows ae_ext] in *.
  apply sig3 in Harg as (o1 & op & o2 & -> & A1 & A3 & A2).
  apply reg_cls_ok in A1 as (d & -> & Gd & Ld & Id & _); auto. apply reg_cls_ok in A2 as (r & -> & Gr & Lr & Ir & _); auto.
  apply rm_cls_ok in A3; auto. cbn [a_rori] in Ha. injection Ha as <-. rewrite Ef in H.
  apply same3 in Hsz as (w & Hw & P1 & P3 & P2 & _); [|reflexivity].
  specialize (P1 eq_refl). specialize (P2 eq_refl). specialize (P3 eq_refl). apply psize_reg in P1, P2.
  unfold opShxd in H. apply emits_fn in H. cbv zeta iota in H.
  destruct (negb (isREGb r (16 ||| i32e))); [einv H|].
  pose proof (gpr_isREG d Gd) as Rd. rewrite Rd in H. cbv iota in H.
  ebind H i1 i2 bb H1 H. pose proof (opROO_ndd _ _ _ _ _ _ _ _ _ _ _ Rd H1) as ->. cbn [negb] in H.
  ebind H i3 i4 uu H2 H. apply emits_ret in H2 as [-> _]. apply emits_db in H as ->. cbn [app].
  rewrite render_app. apply Exists_cons_hd.
  eapply says1 with (w := w) (b64 := w =? 64) (b16 := w =? 16) (b8 := w =? 8); eauto using cE_rm_ok; try reflexivity; try discriminate.
  - rewrite Rd. eapply achk_sizes_in; eauto. rewrite <- P1. exact Id.
  - apply bits2; auto.
  - apply nf_wants; [discriminate|]. unfold wants_nf. cbn [existsb ob]. rewrite <- (opnf_ok op) by (apply cE_rm_ok; auto).
    destruct (NF_ r), (NF_ (ob op)), (NF_ d); reflexivity.
  - intros h rm R V. apply Forall2_cons; [apply ok_v; auto|].
    apply Forall2_cons; [apply ok_rm; auto|]. apply Forall2_cons; [apply ok_rg; auto|]. constructor.
  - eapply sized_hd; try reflexivity; eauto.
  - cbn [render render1]. apply imm_8_byte. unfold w8. now rewrite Z.mod_mod by lia.
Qed.
Lemma shxd_rorb_entry nm f code code2 :
  (forall d op r c, f d op r c = opShxd d op r 0 code code2 (Some c)) ->
  achk_sizes (shxd_cl (code ||| 1)) (T_APX ||| T_NF ||| T_ND1) (code ||| 1) true no8 = true ->
  aimplements (mkAE nm [cGv; cEv; cGv; cCl] XNo (a_rorr f) [shxd_cl (code ||| 1)]).
Proof.
  intros Ef C s ops imm dfv act env pos its rest u Ha Harg Hsz _ _ _ Hzu _ H. cbn [ae_fun ae_sig ae_rows ae_ext] in *.
  apply sig4 in Harg as (o1 & op & o2 & oc & -> & A1 & A3 & A2 & A4).
  apply reg_cls_ok in A1 as (d & -> & Gd & Ld & Id & _); auto. apply reg_cls_ok in A2 as (r & -> & Gr & Lr & Ir & _); auto.
  destruct oc as [c|]; [|contradiction].
  apply rm_cls_ok in A3; auto. cbn [a_rorr] in Ha. injection Ha as <-. rewrite Ef in H.
  apply same4 in Hsz as (w & Hw & P1 & P3 & P2); [|reflexivity].
  specialize (P1 eq_refl). specialize (P2 eq_refl). specialize (P3 eq_refl). apply psize_reg in P1, P2.
  unfold opShxd in H. apply emits_fn in H. cbv zeta iota in H.
  destruct (getIdx c =? 1) eqn:Ic; cbn [negb] in H; [|einv H]. apply Z.eqb_eq in Ic.
  destruct (negb (isREGb r (16 ||| i32e))); [einv H|].
  pose proof (gpr_isREG d Gd) as Rd. rewrite Rd in H. cbv iota in H.
  ebind H i1 i2 bb H1 H. pose proof (opROO_ndd _ _ _ _ _ _ _ _ _ _ _ Rd H1) as ->. cbn [negb] in H.
  ebind H i3 i4 uu H2 H. apply emits_ret in H2 as [-> _]. apply emits_ret in H as [-> _]. cbn [app].
  rewrite render_app. apply Exists_cons_hd. destruct (no_mods_cl c A4) as (N1 & _).
  eapply says1 with (w := w) (b64 := w =? 64) (b16 := w =? 16) (b8 := w =? 8); eauto using cE_rm_ok; try reflexivity; try discriminate.
  - rewrite Rd. eapply achk_sizes_in; eauto. rewrite <- P1. exact Id.
  - apply bits2; auto.
  - apply nf_wants; [discriminate|]. unfold wants_nf. cbn [existsb ob]. rewrite <- (opnf_ok op) by (apply cE_rm_ok; auto). rewrite N1.
    destruct (NF_ r), (NF_ (ob op)), (NF_ d); reflexivity.
  - intros h rm R V. apply Forall2_cons; [apply ok_v; auto|].
    apply Forall2_cons; [apply ok_rm; auto|]. apply Forall2_cons; [apply ok_rg; auto|]. apply Forall2_cons; [apply ok_cl; auto|]. constructor.
  - eapply sized_hd; try reflexivity; eauto.
  - apply imm_none.
Qed.
Lemma shxd_ori_entry nm f code code2 :
  (forall op r imm, f op r imm = opShxd noReg op r (w8 imm) code code2 None) ->
  achkn (shxd_row2 code2) (T_APX ||| T_NF) code2 no8 = true ->
  aimplements (mkAE nm [cEv; cGv] XAny (a_ori f) [shxd_row2 code2]).
Proof.
  intros Ef C s ops imm dfv act env pos its rest u Ha Harg Hsz _ Hx _ Hzu _ H. cbn [ae_fun ae_sig ae_rows ae_ext] in *.
  apply sig2 in Harg as (op & o2 & -> & A3 & A2).
  apply reg_cls_ok in A2 as (r & -> & Gr & Lr & Ir & _); auto.
  apply rm_cls_ok in A3; auto. cbn [a_ori] in Ha. injection Ha as <-. rewrite Ef in H.
  apply same2 in Hsz as (w & Hw & P3 & P2 & _); [|reflexivity].
  specialize (P2 eq_refl). specialize (P3 eq_refl). apply psize_reg in P2.
  cbn [ext_ok] in Hx. apply ext2 in Hx; [|auto|split; auto].
  unfold opShxd in H. apply emits_fn in H. cbv zeta iota in H.
  destruct (negb (isREGb r (16 ||| i32e))); [einv H|].
  change (isREG noReg) with false in H. cbv iota in H.
  ebind H i1 i2 bb H1 H. pose proof (roo_nod _ _ _ _ _ _ _ _ _ Hx H1) as ->. cbn [negb] in H.
  ebind H i3 i4 uu H2 H. apply emits_ret in H2 as [-> _]. apply emits_db in H as ->. cbn [app].
  rewrite render_app. apply Exists_cons_hd.
  eapply nod_reg_says with (w := w); eauto; try reflexivity; try discriminate.
  - eapply achkn_in; eauto. rewrite <- P2. exact Ir.
  - apply bits_nod; auto.
  - rewrite wants_nf2. cbn [ob]. rewrite (opnf_ok op) by (apply cE_rm_ok; auto). apply orb_comm.
  - intros W. rewrite (zu_nd0 _ _ (shxd_row2 code2) Hzu) in W; [discriminate|left; auto|auto].
  - intros h rm R. apply Forall2_cons; [apply ok_rm; auto|]. apply Forall2_cons; [apply ok_rg; auto|]. constructor.
  - eapply sized_tl; try reflexivity; eauto.
  - cbn [render render1]. apply imm_8_byte. unfold w8. now rewrite Z.mod_mod by lia.
Qed.
Lemma ext3 o1 o2 c : existsb extended [o1; o2; OReg c] = true -> aarg_ok cE o1 -> aarg_ok cE o2 -> aarg_ok cCl (OReg c) -> getIdx c = 1 ->
  hasRex2NFZU o1 || hasRex2NFZU o2 = true.
Proof.
  cbn [existsb]. rewrite orb_false_r. intros H A1 A2 A3 Ic. apply orb_true_iff in H as [H|H]; [|apply orb_true_iff in H as [H|H]].
  - rewrite (ext_op o1 A1 H). auto.
  - rewrite (ext_op o2 A2 H). apply orb_true_r.
  - exfalso. destruct (no_mods_cl c A3) as (N1 & N2). unfold extended, ext_reg in H. cbn [ob] in H. rewrite N1, N2, <- regno_getIdx, Ic in H. discriminate.
Qed.
Lemma shxd_orb_entry nm f code code2 :
  (forall op r c, f op r c = opShxd noReg op r 0 code code2 (Some c)) ->
  achkn (shxd_cl2 (code ||| 1)) (T_APX ||| T_NF) (code ||| 1) no8 = true ->
  aimplements (mkAE nm [cEv; cGv; cCl] XAny (a_orr f) [shxd_cl2 (code ||| 1)]).
Proof.
  intros Ef C s ops imm dfv act env pos its rest u Ha Harg Hsz _ Hx _ Hzu _ H. cbn [ae_fun ae_sig ae_rows ae_ext] in *.
  apply sig3 in Harg as (op & o2 & oc & -> & A3 & A2 & A4).
  apply reg_cls_ok in A2 as (r & -> & Gr & Lr & Ir & _); auto. destruct oc as [c|]; [|contradiction].
  apply rm_cls_ok in A3; auto. cbn [a_orr] in Ha. injection Ha as <-. rewrite Ef in H.
  apply same3 in Hsz as (w & Hw & P3 & P2 & _); [|reflexivity].
  specialize (P2 eq_refl). specialize (P3 eq_refl). apply psize_reg in P2.
  unfold opShxd in H. apply emits_fn in H. cbv zeta iota in H.
  destruct (getIdx c =? 1) eqn:Ic; cbn [negb] in H; [|einv H]. apply Z.eqb_eq in Ic.
  cbn [ext_ok] in Hx. apply ext3 in Hx; [|auto|split; auto|auto|auto].
  destruct (negb (isREGb r (16 ||| i32e))); [einv H|].
  change (isREG noReg) with false in H. cbv iota in H.
  ebind H i1 i2 bb H1 H. pose proof (roo_nod _ _ _ _ _ _ _ _ _ Hx H1) as ->. cbn [negb] in H.
  ebind H i3 i4 uu H2 H. apply emits_ret in H2 as [-> _]. apply emits_ret in H as [-> _]. cbn [app].
  rewrite render_app. apply Exists_cons_hd. destruct (no_mods_cl c A4) as (N1 & _).
  eapply nod_reg_says with (w := w); eauto; try reflexivity; try discriminate.
  - eapply achkn_in; eauto. rewrite <- P2. exact Ir.
  - apply bits_nod; auto.
  - unfold wants_nf. cbn [existsb ob]. rewrite (opnf_ok op) by (apply cE_rm_ok; auto). rewrite N1. destruct (NF_ r), (opnf op); reflexivity.
  - intros W. rewrite (zu_nd0 _ _ (shxd_cl2 (code ||| 1)) Hzu) in W; [discriminate|left; auto|auto].
  - intros h rm R. apply Forall2_cons; [apply ok_rm; auto|]. apply Forall2_cons; [apply ok_rg; auto|]. apply Forall2_cons; [apply ok_cl; auto|]. constructor.
  - eapply sized_tl; try reflexivity; eauto.
  - apply imm_none.
Qed.

(* ---- cfcmov ---- *)
Definition cf_load (opc : Z) : arow := mkA NP 4 opc None [rg_; mm_a] OsV Nd0 NfNo None I_none.
Definition cf_store (opc : Z) : arow := mkA NP 4 opc None [rm_a; rg_] OsV Nd0 Nf1 None I_none.
Definition cf_ndd (opc : Z) : arow := mkA NP 4 opc None [v_; rg_; rm_a] OsV Nd1 Nf1 None I_none.
Lemma must_evex d o1 o2 type code imz sc env pos its b : has type T_MUST_EVEX = true ->
  emits (opROO d o1 o2 type code imz sc) env pos its b -> b = true.
Proof. intros R H. destruct (opROO_result _ _ _ _ _ _ _ _ _ _ _ H) as (-> & _). rewrite R. reflexivity. Qed.
Lemma cEv_psize op w : aarg_ok cEv op -> psize w op -> size4 w -> bit_ (ob op) = w -> In w no8.
Proof.
  intros A P Hw B. apply size4_no8; auto. intros ->. destruct op; cbn [ob] in B; destruct A as (_ & A); auto.
Qed.
Lemma cfcmov_oo_entry nm f code :
  (forall o1 o2, f o1 o2 = opCfcmov noReg o1 o2 code) ->
  achkn (cf_load code) T_MUST_EVEX code no8 = true -> achkn (cf_store code) (T_MUST_EVEX ||| T_NF) code no8 = true ->
  aimplements (mkAE nm [cEv; cEv] XNo (a_oo f) [cf_load code; cf_store code]).
Proof.
  intros Ef C1 C2 s ops imm dfv act env pos its rest u Ha Harg Hsz _ _ _ Hzu _ H. cbn [ae_fun ae_sig ae_rows ae_ext] in *.
  apply sig2 in Harg as (o1 & o2 & -> & A1 & A2). cbn [a_oo] in Ha. injection Ha as <-. rewrite Ef in H.
  apply same2 in Hsz as (w & Hw & P1 & P2 & X); [|reflexivity].
  specialize (P1 eq_refl). specialize (P2 eq_refl).
  assert (N8 : In w no8) by (destruct X as [(_ & X)|(_ & X)]; [eapply (cEv_psize o1)|eapply (cEv_psize o2)]; eauto).
  assert (ZZ : wants_zu [o1; o2] = false). { eapply zu_nd0; eauto; [left; reflexivity|reflexivity]. }
  unfold opCfcmov in H. apply emits_fn in H. cbv zeta in H. change (getBit noReg) with 0 in H. cbn [Z.ltb Z.compare andb] in H.
  destruct (oBit o1 8 || (ogetBit o2 =? 8)); [einv H|].
  destruct o2 as [r2|a2].
  - ebind H i1 i2 b H1 H. apply emits_ret in H as [-> _]. assert (b = true) as -> by (eapply must_evex; [|exact H1]; reflexivity).
    apply psize_reg in P2. destruct A2 as (G2 & B2). apply rm_cls_ok in A1; auto.
    rewrite app_nil_r, <- (app_nil_r (render s i1)). apply Exists_cons_tl, Exists_cons_hd.
    eapply says1 with (d := noReg) (w := w) (b64 := w =? 64) (b16 := w =? 16) (b8 := false); eauto using cE_rm_ok; try reflexivity; try discriminate.
    + eapply achkn_in; eauto.
    + apply bits_nod; auto.
    + congruence.
    + intros h rm R V. apply Forall2_cons; [apply ok_rm; auto|]. apply Forall2_cons; [|constructor].
      apply (ok_rg w h rm r2); auto. intros Q. contradiction.
    + eapply sized_tl; try reflexivity; eauto.
    + apply imm_none.
  - destruct o1 as [r1|a1]; [|cbn [isMEM] in H; einv H]. cbn [isMEM] in H.
    ebind H i1 i2 b H1 H. apply emits_ret in H as [-> _]. assert (b = true) as -> by (eapply must_evex; [|exact H1]; reflexivity).
    apply psize_reg in P1. destruct A1 as (G1 & B1). destruct A2 as (A2 & _).
    rewrite app_nil_r, <- (app_nil_r (render s i1)). apply Exists_cons_hd.
    eapply says1 with (d := noReg) (w := w) (b64 := w =? 64) (b16 := w =? 16) (b8 := false); eauto; try reflexivity; try discriminate.
    + exact A2.
    + eapply achkn_in; eauto.
    + apply bits_nod; auto.
    + apply nf_wants; [discriminate|]. rewrite wants_nf2. cbn [ob opnf]. destruct (amem_nf _ A2) as (-> & _). cbn [NF_ noReg]. now rewrite !orb_false_r.
    + congruence.
    + intros h rm R V. apply Forall2_cons; [|apply Forall2_cons; [apply ok_mm; auto|constructor]].
      apply (ok_rg w h rm r1); auto. intros Q. contradiction.
    + eapply sized_hd; try reflexivity; eauto.
    + apply imm_none.
Qed.
Lemma cfcmov_rro_entry nm f code :
  (forall d r op, f d r op = opCfcmov (setNF d) op (OReg r) code) ->
  achk_sizes (cf_ndd code) (T_MUST_EVEX ||| T_NF) code true no8 = true ->
  aimplements (mkAE nm [cGv; cGv; cEv] XNo (a_rro f) [cf_ndd code]).
Proof.
  intros Ef C s ops imm dfv act env pos its rest u Ha Harg Hsz _ _ _ Hzu _ H. cbn [ae_fun ae_sig ae_rows ae_ext] in *.
  apply sig3 in Harg as (o1 & o2 & op & -> & A1 & A2 & A3).
  apply reg_cls_ok in A1 as (d & -> & Gd & Ld & Id & _); auto. apply reg_cls_ok in A2 as (r & -> & Gr & Lr & Ir & _); auto.
  apply rm_cls_ok in A3; auto. cbn [a_rro] in Ha. injection Ha as <-. rewrite Ef in H.
  apply same3 in Hsz as (w & Hw & P1 & P2 & P3 & _); [|reflexivity].
  specialize (P1 eq_refl). specialize (P2 eq_refl). specialize (P3 eq_refl). apply psize_reg in P1, P2.
  unfold opCfcmov in H. apply emits_fn in H. cbv zeta in H.
  match type of H with emits (if ?c then _ else _) _ _ _ _ => destruct c; [einv H|] end.
  match type of H with emits (if ?c then _ else _) _ _ _ _ => destruct c; [einv H|] end.
  ebind H i1 i2 b H1 H. apply emits_ret in H as [-> _]. assert (b = true) as -> by (eapply must_evex; [|exact H1]; reflexivity).
  pose proof (gpr_isREG d Gd) as Rd.
  rewrite app_nil_r, <- (app_nil_r (render s i1)). apply Exists_cons_hd.
  eapply says1 with (d := setNF d) (w := w) (b64 := w =? 64) (b16 := w =? 16) (b8 := w =? 8); eauto using cE_rm_ok; try reflexivity; try discriminate.
  - change (isREG (setNF d)) with (isREG d). rewrite Rd. eapply achk_sizes_in; eauto. rewrite <- P1. exact Id.
  - exact (bits2 r d w P2 P1 Hw).
  - intros h rm R V. apply Forall2_cons; [apply ok_v; auto|].
    apply Forall2_cons; [apply (ok_rg w h rm r); auto|]. apply Forall2_cons; [apply ok_rm; auto|]. constructor.
  - eapply sized_hd; try reflexivity; eauto.
  - apply imm_none.
Qed.

(* ---- setcc ---- *)
Definition set_row (cc : Z) : arow := mkA PF2 4 (0x40 + cc) (Some 0) [rmn_a 8] Os0 NdZU NfNo None I_none.
Lemma setcc_entry nm f cc :
  (forall op, f op = opSetCC op cc) -> achkb (set_row cc) (T_APX ||| T_ZU ||| T_F2) (0x40 ||| cc) false 0 false false false = true ->
  aimplements (mkAE nm [cEn 8] XAny (a_o f) [set_row cc]).
Proof.
  intros Ef C s ops imm dfv act env pos its rest u Ha Harg Hsz _ Hx _ Hzu _ H. cbn [ae_fun ae_sig ae_rows ae_ext] in *.
  apply sig1 in Harg as (op & -> & A1). cbn [a_o] in Ha. injection Ha as <-. rewrite Ef in H.
  assert (A : aarg_ok cE op) by (destruct op; cbn in *; tauto).
  assert (B : bit_ (ob op) = 8) by (destruct op; cbn in *; tauto).
  cbn [ext_ok] in Hx. apply ext1 in Hx. apply ext_op in Hx; auto.
  unfold opSetCC in H. apply nod_done in H; [|rewrite Hx; reflexivity].
  rewrite <- (app_nil_r (render s its)). apply Exists_cons_hd.
  eapply says1 with (d := noReg) (r := noReg) (w := 0) (b64 := false) (b16 := false) (b8 := false); eauto using cE_rm_ok; try reflexivity; try discriminate.
  - repeat split.
  - apply nf_wants; [discriminate|]. unfold wants_nf. cbn [existsb NF_ noReg]. rewrite (opnf_ok op) by (apply cE_rm_ok; auto). reflexivity.
  - intros _. unfold wants_zu. cbn [existsb ZU_ noReg]. rewrite (opzu_ok op) by (apply cE_rm_ok; auto). rewrite orb_false_r. reflexivity.
  - intros dg Q. injection Q as <-. reflexivity.
  - intros h rm R V. apply Forall2_cons; [|constructor]. destruct op as [b|a]; cbn [ob] in B.
    + destruct A1 as (G & L & _). destruct R as (R & X). simpl. split; [exists KG; auto|]. auto.
    + simpl. auto.
  - left. reflexivity.
  - apply imm_none.
Qed.

(* ---- push2, pop2 ---- *)
Lemma pp2_entry nm f row type code e :
  (forall r1 r2, f r1 r2 = opROO r1 (OReg r2) (OReg (Reg64 e)) type code 0 NONE ;;; ret tt) -> 0 <= e < 8 ->
  a_ops row = [vn_ 64; rrn_a 64] -> a_digit row = Some e -> a_sc row = None -> a_ndk row = Nd1 -> a_nf row <> Nf1 -> a_immk row = I_none ->
  has type T_ZU = false -> achkb row type code true 0 true false false = true ->
  aimplements (mkAE nm [cRn 64; cRn 64] XNo (a_rr f) [row]).
Proof.
  intros Ef He Eo Dg Sc Nd Nf Im HZ C s ops imm dfv act env pos its rest u Ha Harg Hsz _ _ _ Hzu _ H. cbn [ae_fun ae_sig ae_rows ae_ext] in *.
  apply sig2 in Harg as (o1 & o2 & -> & A1 & A2). destruct o1 as [r1|]; [|contradiction]. destruct o2 as [r2|]; [|contradiction].
  cbn [a_rr] in Ha. injection Ha as <-. rewrite Ef in H. destruct A1 as (G1 & L1 & B1). destruct A2 as (G2 & L2 & B2).
  ebind H i1 i2 b H1 H. apply emits_ret in H as [-> _].
  pose proof (gpr_isREG r1 G1) as Rd. rewrite (opROO_ndd _ _ _ _ _ _ _ _ _ _ _ Rd H1) in H1.
  destruct (dig_facts e 64 ltac:(lia) ltac:(lia)) as (Re & Be).
  rewrite app_nil_r, <- (app_nil_r (render s i1)). apply Exists_cons_hd.
  eapply says1 with (w := 0) (b64 := true) (b16 := false) (b8 := false) (op := OReg r2); eauto using nd1_not0; try discriminate.
  - exact I.
  - rewrite Rd. auto.
  - unfold size_b, isBit, getBit. rewrite B1. unfold Reg64. rewrite Be. repeat split.
  - apply nf_wants; auto. rewrite wants_nf2. cbn [ob opnf NF_ Reg64 regOf]. destruct (NF_ r1), (NF_ r2); reflexivity.
  - congruence.
  - unfold has_v. rewrite Eo. discriminate.
  - rewrite Dg. intros dg Q. injection Q as <-. unfold Reg64. rewrite Re. apply Z.mod_small; auto.
  - intros h rm (R & X) V. rewrite Eo. apply Forall2_cons; [simpl; split; [exists KG; auto|auto]|]. apply Forall2_cons; [simpl; split; [exists KG; auto|auto]|]. constructor.
  - left. reflexivity.
  - rewrite Im. apply imm_none.
Qed.

(* ---- ccmp, ctest ---- *)
Definition TCC := T_APX ||| T_CODE1_IF1.
Lemma s32_int d : - 2 ^ 31 <= d < 2 ^ 31 -> s32 d = d.
Proof.
  intros H. unfold s32, w32. change (2 ^ 31) with 2147483648 in H. destruct (Z.ltb_spec d 0).
  - replace (d mod 4294967296) with (d + 4294967296). 2:{ apply Z.mod_unique with (q := -1); lia. }
    destruct (d + 4294967296 <? 2147483648) eqn:Q; lia.
  - rewrite Z.mod_small by lia. destruct (d <? 2147483648) eqn:Q; lia.
Qed.
Lemma cc_bits o1 o2 w : psize w o1 -> psize w o2 -> size4 w -> bit_ (ob o1) = w \/ bit_ (ob o2) = w -> ogetBit o1 ||| ogetBit o2 = w.
Proof.
  intros P1 P2 Hw X. unfold ogetBit, getBit.
  assert (Q1 : bit_ (ob o1) = w \/ bit_ (ob o1) = 0) by (destruct o1; cbn in *; tauto).
  assert (Q2 : bit_ (ob o2) = w \/ bit_ (ob o2) = 0) by (destruct o2; cbn in *; tauto).
  assert (Q0 : w <> 0) by (destruct Hw as [->|[->|[->| ->]]]; discriminate).
  destruct Q1 as [Q1|Q1], Q2 as [Q2|Q2]; rewrite Q1, Q2, ?Z.lor_diag, ?Z.lor_0_r, ?Z.lor_0_l; auto; destruct X; congruence.
Qed.
Lemma sc_true d op1 op2 code imz sc env pos its b : isREG d = true -> emits (opROO d op1 op2 TCC code imz sc) env pos its b -> b = true.
Proof. intros R H. exact (opROO_ndd _ _ _ _ _ _ _ _ _ _ _ R H). Qed.
Definition cc_row1 (opc sc : Z) : arow := mkA NP 4 opc None [rm_a; rg_] OsB Nd0 NfNo (Some sc) I_none.
Definition cc_row2 (opc sc : Z) : arow := mkA NP 4 (opc ||| 2) None [rg_; mm_a] OsB Nd0 NfNo (Some sc) I_none.
Definition cc_sized (w : Z) (o1 o2 : Operand) : Prop := size4 w /\ psize w o1 /\ psize w o2 /\ (bit_ (ob o1) = w \/ bit_ (ob o2) = w).
Lemma same_cc c1 c2 o1 o2 : same_size [c1; c2] [o1; o2] -> takes_size c1 = true -> takes_size c2 = true -> exists w, cc_sized w o1 o2.
Proof.
  intros H T1 T2. apply same2 in H as (w & Hw & P1 & P2 & X); [|cbn [existsb]; rewrite T1; reflexivity].
  exists w. split; [auto|]. split; [auto|]. split; [auto|tauto].
Qed.
Lemma ccmp_reg s o1 r dfv code sc env pos its rest u imm w :
  0 <= sc < 16 -> aarg_ok cE o1 -> gpr r -> low8 r -> cc_sized w o1 (OReg r) -> wants_zu [o1; OReg r] = false ->
  achk_sizes (cc_row1 code sc) TCC code true all4 = true ->
  emits (opCcmp o1 (OReg r) dfv code sc) env pos its u -> asays (cc_row1 code sc) [o1; OReg r] imm dfv (render s its) rest.
Proof.
  intros Hsc A1 Gr Lr (Hw & P1 & P2 & X) ZZ C H.
  unfold opCcmp in H. apply emits_fn in H. destruct ((dfv <? 0) || (15 <? dfv)) eqn:D; [einv H|]. apply orb_false_iff in D as [D1 D2].
  rewrite (cc_bits o1 (OReg r) w) in H by auto. fold TCC in H.
  ebind H i1 i2 b H1 H. apply emits_ret in H as [-> _]. assert (b = true) as -> by (eapply sc_true; [|exact H1]; reflexivity).
  destruct (dig_facts (15 - dfv) w ltac:(lia) (size4_range w Hw)) as (R0 & B0).
  rewrite app_nil_r, <- (app_nil_r (render s i1)). apply psize_reg in P2.
  eapply says1_sc with (w := w) (b64 := w =? 64) (b16 := w =? 16) (b8 := w =? 8); eauto using cE_rm_ok; try reflexivity; try discriminate.
  + eapply achk_sizes_in; eauto using size4_all.
  + apply bits2; auto.
  + rewrite wants_nf2. cbn [ob NF_ regOf]. rewrite (opnf_ok o1) by (apply cE_rm_ok; auto). destruct (NF_ r), (opnf o1); reflexivity.
  + lia.
  + intros h rm R. apply Forall2_cons; [apply ok_rm; auto|]. apply Forall2_cons; [apply ok_rg; auto|]. constructor.
  + eapply sized_tl; try reflexivity; eauto.
  + apply imm_none.
Qed.
Lemma ccmp_mem s o1 a dfv code sc env pos its rest u imm w :
  0 <= sc < 16 -> aarg_ok cE o1 -> amem a -> cc_sized w o1 (OMem a) -> wants_zu [o1; OMem a] = false ->
  achk_sizes (cc_row2 code sc) TCC (code ||| 2) true all4 = true ->
  emits (opCcmp o1 (OMem a) dfv code sc) env pos its u -> asays (cc_row2 code sc) [o1; OMem a] imm dfv (render s its) rest.
Proof.
  intros Hsc A1 A2 (Hw & P1 & P2 & X) ZZ C H.
  unfold opCcmp in H. apply emits_fn in H. destruct ((dfv <? 0) || (15 <? dfv)) eqn:D; [einv H|]. apply orb_false_iff in D as [D1 D2].
  rewrite (cc_bits o1 (OMem a) w) in H by auto. fold TCC in H.
  ebind H i1 i2 b H1 H. apply emits_ret in H as [-> _]. assert (b = true) as -> by (eapply sc_true; [|exact H1]; reflexivity).
  destruct (dig_facts (15 - dfv) w ltac:(lia) (size4_range w Hw)) as (R0 & B0).
  rewrite app_nil_r, <- (app_nil_r (render s i1)). destruct o1 as [r|a1].
  - apply psize_reg in P1. destruct A1 as (Gr & Lr).
    eapply says2_sc with (w := w) (b64 := w =? 64) (b16 := w =? 16) (b8 := w =? 8); eauto; try reflexivity; try discriminate.
    * eapply achk_sizes_in; eauto using size4_all.
    * apply bits2; auto.
    * rewrite wants_nf2. cbn [ob NF_ regOf]. destruct (amem_nf _ A2) as [-> _]. reflexivity.
    * lia.
    * intros h rm R. apply Forall2_cons; [apply ok_rg; auto|]. apply Forall2_cons; [apply ok_mm; auto|]. constructor.
    * eapply sized_hd; try reflexivity; eauto.
    * apply imm_none.
  - exfalso. unfold opROO in H1. apply emits_fn in H1. cbn [isMEM negb] in H1.
    match type of H1 with emits (if ?c then _ else _) _ _ _ _ => destruct c end; [apply emits_ret in H1 as [_ H1]; discriminate|]. einv H1.
Qed.
Lemma ccmp_entry nm f code sc :
  (forall o1 o2 dfv, f o1 o2 dfv = opCcmp o1 o2 (s32 dfv) code sc) -> 0 <= sc < 16 ->
  achk_sizes (cc_row1 code sc) TCC code true all4 = true -> achk_sizes (cc_row2 code sc) TCC (code ||| 2) true all4 = true ->
  aimplements (mkAE nm [cE; cE] XNo (a_oof f) [cc_row1 code sc; cc_row2 code sc]).
Proof.
  intros Ef Hsc C1 C2 s ops imm dfv act env pos its rest u Ha Harg Hsz _ _ Hd Hzu _ H. cbn [ae_fun ae_sig ae_rows ae_ext] in *.
  apply sig2 in Harg as (o1 & o2 & -> & A1 & A2). cbn [a_oof] in Ha. injection Ha as <-. rewrite Ef, s32_int in H by auto.
  apply same_cc in Hsz as (w & Hw); auto.
  assert (ZZ : wants_zu [o1; o2] = false). { eapply zu_nd0; eauto; [left; reflexivity|reflexivity]. }
  destruct o2 as [r|a].
  - apply Exists_cons_hd. destruct A2. eapply ccmp_reg; eauto.
  - apply Exists_cons_tl, Exists_cons_hd. eapply ccmp_mem; eauto.
Qed.
Lemma ctest_entry nm f code sc :
  (forall o1 r dfv, f o1 r dfv = opCcmp o1 (OReg r) (s32 dfv) code sc) -> 0 <= sc < 16 ->
  achk_sizes (cc_row1 code sc) TCC code true all4 = true ->
  aimplements (mkAE nm [cE; cG] XNo (a_orf f) [cc_row1 code sc]).
Proof.
  intros Ef Hsc C1 s ops imm dfv act env pos its rest u Ha Harg Hsz _ _ Hd Hzu _ H. cbn [ae_fun ae_sig ae_rows ae_ext] in *.
  apply sig2 in Harg as (o1 & o2 & -> & A1 & A2). destruct o2 as [r|]; [|contradiction].
  cbn [a_orf] in Ha. injection Ha as <-. rewrite Ef, s32_int in H by auto.
  apply same_cc in Hsz as (w & Hw); auto.
  assert (ZZ : wants_zu [o1; OReg r] = false). { eapply zu_nd0; eauto; [left; reflexivity|reflexivity]. }
  apply Exists_cons_hd. destruct A2. eapply ccmp_reg; eauto.
Qed.
