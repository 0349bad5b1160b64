(* VEX/EVEX methods with a defect: they implement their row outside of it. *)
From Coq Require Import ZArith List Bool String Lia.
From Verif Require Import Base Types Emit Encode SpecX86 SpecAddr SpecIsa SpecInsn SpecExcept Wf EmitFacts BitFacts MemFacts LegacyFacts VexFacts EncThms IsaFacts
  VexShapes VexShapes2 VexShapes3 VexTac Mnemonic MnemonicAvx IsaRows.
Import ListNotations.
Open Scope Z_scope.

(* row' is the row except for the defect *)
Definition evex_like (f' f : eform) : Prop := e_form f' = e_form f /\ e_rc f' = e_rc f.
Definition differs (d : defect) (row' row : vrow) : Prop :=
  r_enc row' = r_enc row /\ r_digit row' = r_digit row /\
  match d with
  | OnEvexMem => r_vex row' = r_vex row /\ exists f' f, r_evex row' = Some f' /\ r_evex row = Some f /\ evex_like f' f
  | OnEvex => r_vex row' = r_vex row
  | OnVex => r_evex row' = r_evex row
  | OnBroadcast => r_vex row' = r_vex row /\ exists f' f, r_evex row' = Some f' /\ r_evex row = Some f /\ evex_like f' f /\ e_tuple f' = e_tuple f
  end.

Lemma core_except d row' row vl reg v op ops tail bs rest : differs d row' row -> (forall a, op = OMem a -> In op ops) ->
  says_core row' vl reg v op ops tail bs rest -> says_core row vl reg v op ops tail bs rest \/ excused d ops bs rest.
Proof.
  intros (EE & ED & D) IO [H|H].
  - destruct H as (f & h & rm & F & DC & SP & R).
    destruct d; try (left; left; exists f, h, rm; split; [first [rewrite <- D; exact F|rewrite <- (proj1 D); exact F]|]; auto; fail).
    right. do 5 eexists. split; [exact DC|exact SP].
  - destruct H as (f' & h & rm & rnd & F & DC & SP & FO & HV & RI & VI & BC & R).
    destruct d.
    + destruct D as (_ & g & f & G & F' & (Ef & Er)). rewrite F in G. injection G as <-.
      destruct rm as [g v'|m]; [|right; do 5 eexists; split; [exact DC|]; split; [exact SP|eauto]].
      left. right. exists f, h, (RReg g v'), rnd. rewrite <- Ef, <- Er. destruct op as [b|a]; [|destruct RI].
      split; [exact F'|]. split; [eapply decode_reg_n8; exact DC|]. repeat (split; [assumption|]).
      split; [discriminate|]. exact R.
    + right. do 5 eexists. split; [exact DC|exact SP].
    + left. right. exists f', h, rm, rnd. split; [rewrite <- D; exact F|]. auto 20.
    + destruct D as (_ & g & f & G & F' & (Ef & Er) & Et). rewrite F in G. injection G as <-.
      destruct (bcast op) eqn:B.
      * right. do 5 eexists. split; [exact DC|]. split; [exact SP|]. destruct op as [|a]; [discriminate|].
        destruct R as (_ & _ & _ & Rm & R0 & _). assert (rnd = 0) as Z0. { destruct (Z.eq_dec rnd 0); auto. destruct (Rm n) as (r & Q). discriminate. }
        destruct (R0 Z0) as (-> & _). split; [reflexivity|]. exists a. split; [now apply (IO a)|exact B].
      * left. right. exists f, h, rm, rnd. rewrite <- Ef, <- Er, <- Et, B.
        split; [exact F'|]. split; [exact DC|]. repeat (split; [assumption|]). split; [discriminate|]. exact R.
Qed.
Lemma at_slot_in s enc ops o : at_slot s enc ops = Some o -> In o ops.
Proof.
  revert ops. induction enc as [|e enc IH]; intros [|x ops]; cbn; try discriminate. destruct (slot_eqb s e); [intros H; injection H as ->; auto|auto].
Qed.
Lemma impl_except d rc nm sg F row' row vl : differs d row' row -> implements rc (mkEntry nm sg F row' vl) ->
  implements_except d rc (mkEntry nm sg F row vl).
Proof.
  intros D I s ops imm act env pos its rest u Hf Ha Hm Hw Hr Hi H. cbn [en_fun en_sig en_row en_vl] in *.
  pose proof D as (EE & ED & _).
  assert (EV : vl_of vl row' ops = vl_of vl row ops) by (unfold vl_of; now rewrite EE).
  specialize (I s ops imm act env pos its rest u Hf Ha Hm). cbn [en_fun en_sig en_row en_vl] in I. rewrite EV in I.
  specialize (I Hw Hr Hi H). unfold says in *. rewrite EE, ED in I. eapply (core_except d row' row) in I; eauto.
  intros a E. destruct (at_slot SM (r_enc row) ops) as [o|] eqn:Q; [|discriminate]. eapply at_slot_in; eauto.
Qed.

(* ---- general register in ModRM.reg, encoded as an xmm register of the same number ---- *)
Lemma impl_g_ro type code row w rc nm : check type code row true (avx_lens type 128) = true -> (rc = true -> row_rc type row = true) ->
  r_digit row = None -> r_enc row = RM -> w <= 128 ->
  implements rc (mkEntry nm [cR w; cO] (ro (fun r op => opAVX_X_X_XM (Xmm (getIdx r)) (OReg (Xmm 0)) op type code NONE)) row VlRegs).
Proof.
  intros CH RC ED EE W. opn. destruct y as [r|]; try discriminate. cbn [ro] in Hf. fun_. slots EE ED.
  match goal with Q : arg_ok (cR _) _ |- _ => destruct Q as (GR & BR & WR) end.
  assert (VL : longest [bit_ r; 0] = 128) by (unfold longest; cbn [fold_right]; lia). rewrite VL in *.
  match goal with Q : arg_ok cO _ |- _ => pose proof (arg_rm _ _ Q) as RK; pose proof (arg_some _ _ Q) as NN; pose proof (arg_width _ _ Q ltac:(discriminate)) as OK end.
  rewrite getIdx_regno in H. pose proof (regno_range r).
  destruct (Xmm_bare 0 ltac:(lia)) as (V0 & B0 & R0 & W0), (Xmm_bare (regno r) ltac:(lia)) as (V1 & B1 & R1 & W1).
  assert (width y0 <= 128) as Hwo by (apply Forall_inv_tail, Forall_inv in Hw; exact Hw).
  destruct (avx3_core' s row (Xmm (regno r)) (Xmm 0) y0 y0 type code NONE 128 (regno r) 0 [OReg r; y0] env pos its rest u) as (_ & _ & S); auto.
  - rcs.
  - now apply bare_mods.
  - now apply bare_mods.
  - lia.
  - eapply same_mods_trans; [apply bare_in_mods, B1|]. eapply same_mods_trans; [apply bare_in_mods, B0|]. apply same_mods_sym, bare_in_mods, BR.
Qed.

(* the rows as the methods encode them *)
Definition with_evex (row : vrow) (e : option eform) : vrow := mkRow (r_enc row) (r_digit row) (r_vex row) e.
Definition with_vex (row : vrow) (v : option form) : vrow := mkRow (r_enc row) (r_digit row) v (r_evex row).
Definition retuple (row : vrow) (t : tuple * option Z) : vrow :=
  with_evex row (match r_evex row with Some f => Some (mkEform (e_form f) (fst t) (snd t) (e_rc f)) | None => None end).

Ltac dgro row' := eapply (impl_except _ _ _ _ _ row'); [repeat split; repeat eexists; reflexivity|
  apply impl_g_ro; [chk|rcm|reflexivity|reflexivity|lia]].
Ltac drvm row' := eapply (impl_except _ _ _ _ _ row'); [repeat split; repeat eexists; reflexivity|
  eapply impl_rvm; [reflexivity|reflexivity|discriminate|chk|rcm|reflexivity|reflexivity]].
Ltac drvmi row' := eapply (impl_except _ _ _ _ _ row'); [repeat split; repeat eexists; reflexivity|
  eapply impl_rvmi; [reflexivity|reflexivity|discriminate|chk|rcm|reflexivity|reflexivity]].

Definition evexmem_table : list entry := [
  mkEntry "vcvtsd2si/do" [cR 32; cO] (ro i_vcvtsd2si_do) r_vcvtsd2si_do VlRegs;
  mkEntry "vcvtsd2si/qo" [cR 64; cO] (ro i_vcvtsd2si_qo) r_vcvtsd2si_qo VlRegs;
  mkEntry "vcvtss2si/do" [cR 32; cO] (ro i_vcvtss2si_do) r_vcvtss2si_do VlRegs;
  mkEntry "vcvtss2si/qo" [cR 64; cO] (ro i_vcvtss2si_qo) r_vcvtss2si_qo VlRegs;
  mkEntry "vcvttsd2si/do" [cR 32; cO] (ro i_vcvttsd2si_do) r_vcvttsd2si_do VlRegs;
  mkEntry "vcvttsd2si/qo" [cR 64; cO] (ro i_vcvttsd2si_qo) r_vcvttsd2si_qo VlRegs;
  mkEntry "vcvttss2si/do" [cR 32; cO] (ro i_vcvttss2si_do) r_vcvttss2si_do VlRegs;
  mkEntry "vcvttss2si/qo" [cR 64; cO] (ro i_vcvttss2si_qo) r_vcvttss2si_qo VlRegs;
  mkEntry "vcvtne2ph2bf8/xxo" [cX; cX; cO] (rro i_vcvtne2ph2bf8) r_vcvtne2ph2bf8_xxo VlRegs;
  mkEntry "vcvtne2ph2bf8s/xxo" [cX; cX; cO] (rro i_vcvtne2ph2bf8s) r_vcvtne2ph2bf8s_xxo VlRegs;
  mkEntry "vcvtne2ph2hf8/xxo" [cX; cX; cO] (rro i_vcvtne2ph2hf8) r_vcvtne2ph2hf8_xxo VlRegs;
  mkEntry "vcvtne2ph2hf8s/xxo" [cX; cX; cO] (rro i_vcvtne2ph2hf8s) r_vcvtne2ph2hf8s_xxo VlRegs;
  mkEntry "vcvthf82ph/xo" [cX; cO] (ro i_vcvthf82ph) r_vcvthf82ph_xo VlRegs].
Lemma evexmem_all : Forall (implements_except OnEvexMem true) evexmem_table.
Proof.
  apply Forall_cons; [dgro (retuple r_vcvtsd2si_do (TS 4))|].
  apply Forall_cons; [dgro (retuple r_vcvtsd2si_qo (TS 4))|].
  apply Forall_cons; [dgro (retuple r_vcvtss2si_do (TS 8))|].
  apply Forall_cons; [dgro (retuple r_vcvtss2si_qo (TS 8))|].
  apply Forall_cons; [dgro (retuple r_vcvttsd2si_do (TS 4))|].
  apply Forall_cons; [dgro (retuple r_vcvttsd2si_qo (TS 4))|].
  apply Forall_cons; [dgro (retuple r_vcvttss2si_do (TS 8))|].
  apply Forall_cons; [dgro (retuple r_vcvttss2si_qo (TS 8))|].
  apply Forall_cons; [drvm (retuple r_vcvtne2ph2bf8_xxo (TFixed 1, Some 2))|].
  apply Forall_cons; [drvm (retuple r_vcvtne2ph2bf8s_xxo (TFixed 1, Some 2))|].
  apply Forall_cons; [drvm (retuple r_vcvtne2ph2hf8_xxo (TFixed 1, Some 2))|].
  apply Forall_cons; [drvm (retuple r_vcvtne2ph2hf8s_xxo (TFixed 1, Some 2))|].
  apply Forall_cons; [|apply Forall_nil].
  eapply (impl_except _ _ _ _ _ (retuple r_vcvthf82ph_xo (TS 1))); [repeat split; repeat eexists; reflexivity|].
  apply (impl_d_ro (((((T_MUST_EVEX ||| T_F2) ||| T_MAP5) ||| T_EW0) ||| T_YMM) ||| T_N1) 0x1E [128; 256; 512]);
    [reflexivity|discriminate|chk|rcm|reflexivity|reflexivity|dred i_vcvthf82ph].
Qed.
Definition onevex_table : list entry := [
  mkEntry "vsm3msg1/xxo" [cX; cX; cO] (rro i_vsm3msg1) r_vsm3msg1_xxo VlRegs;
  mkEntry "vsm3msg2/xxo" [cX; cX; cO] (rro i_vsm3msg2) r_vsm3msg2_xxo VlRegs;
  mkEntry "vsm3rnds2/xxoi" [cX; cX; cO] (rroi i_vsm3rnds2) r_vsm3rnds2_xxoi VlRegs].
Lemma onevex_all : Forall (implements_except OnEvex true) onevex_table.
Proof.
  apply Forall_cons; [drvm (with_evex r_vsm3msg1_xxo (EV Lx NP M0F38 W0 0xDA FVM NoRc))|].
  apply Forall_cons; [drvm (with_evex r_vsm3msg2_xxo (EV Lx P66 M0F38 W0 0xDA FVM NoRc))|].
  apply Forall_cons; [drvmi (with_evex r_vsm3rnds2_xxoi (EV Lx P66 M0F3A W0 0xDE FVM NoRc))|].
  apply Forall_nil.
Qed.
Definition onvex_table : list entry := [
  mkEntry "vpermq/yyo" [cY; cY; cO] (rro i_vpermq_yyo) r_vpermq_yyo VlRegs;
  mkEntry "vp2intersectd/kxo" [cK; cX; cO] (rro i_vp2intersectd) r_vp2intersectd_kxo VlRegs;
  mkEntry "vp2intersectq/kxo" [cK; cX; cO] (rro i_vp2intersectq) r_vp2intersectq_kxo VlRegs].
Ltac dkxo row' type f := eapply (impl_except _ _ _ _ _ row'); [repeat split; repeat eexists; reflexivity|];
  apply (impl_kxo type 0x68 [128; 256; 512]); [chk|rcm|reflexivity|reflexivity|discriminate|incls|reflexivity|
    intros; match goal with Q : emits (f _ _ _) _ _ _ _ |- _ => unfold f in Q; ungrd Q; unfold opAVX_K_X_XM in Q; ungrd Q; exact Q end].
Lemma onvex_all : Forall (implements_except OnVex true) onvex_table.
Proof.
  apply Forall_cons; [drvm (with_vex r_vpermq_yyo (V Lxy P66 M0F38 W0 0x36))|].
  apply Forall_cons; [dkxo (with_vex r_vp2intersectd_kxo (V L_0 PF2 M0F38 W0 0x68)) (((((T_F2 ||| T_0F38) ||| T_YMM) ||| T_EVEX) ||| T_EW0) ||| T_B32) i_vp2intersectd|].
  apply Forall_cons; [dkxo (with_vex r_vp2intersectq_kxo (V L_0 PF2 M0F38 W0 0x68)) (((((T_F2 ||| T_0F38) ||| T_YMM) ||| T_EVEX) ||| T_EW1) ||| T_B64) i_vp2intersectq|].
  apply Forall_nil.
Qed.
Definition onbcast_table (enc : PreferredEncoding) : list entry := [
  mkEntry "vmpsadbw/xxoip" [cX; cX; cO] (rroi (fun a b o i => i_vmpsadbw_xxoip a b o i enc)) r_vmpsadbw_xxoip VlRegs].
Lemma onbcast_all enc : Forall (implements_except OnBroadcast true) (onbcast_table enc).
Proof.
  apply Forall_cons; [|apply Forall_nil].
  eapply (impl_except _ _ _ _ _ (retuple r_vmpsadbw_xxoip (TFull, Some 4))); [repeat split; repeat eexists; reflexivity|].
  eapply impl_enci; [reflexivity|reflexivity|discriminate|chk|rcm|chk|rcm|reflexivity|reflexivity].
Qed.

(* ---- instructions with two rows ---- *)
Lemma vex_reg_low vs n bs h reg rm tail : decode vs n bs = Some (h, reg, rm, tail) -> h_space h = Vex -> reg < 16.
Proof.
  unfold decode. destruct (dec_header bs) as [[h' r]|] eqn:D; [|discriminate]. intros R SP.
  destruct (dec_rm _ _ _ _) as [[[reg' rm'] r']|] eqn:Q; [|discriminate]. injection R as <- <- <- <-.
  assert (h_R h' <= 8).
  { unfold dec_header in D. destruct (scan_prefixes pfx0 bs) as [p l]. destruct l as [|b r0]; [discriminate|].
    repeat match type of D with
      | (if ?c then _ else _) = _ => destruct c
      | match ?c with _ => _ end = _ => destruct c; try discriminate
      | dec_legacy _ _ _ _ _ _ _ = _ => unfold dec_legacy in D; destruct (dec_opcode _) as [[[? ?] ?]|]; [|discriminate]
      end; try discriminate; injection D as <- <-; cbn [leg_header h_space h_R] in *; try discriminate;
      match goal with |- context [negb ?b] => destruct b end; cbn; lia. }
  assert (forall m, 0 <= m / 8 mod 8 < 8) by (intros; apply Z.mod_pos_bound; lia).
  unfold dec_rm in Q. destruct r as [|m r]; [discriminate|]. specialize (H0 m).
  repeat match type of Q with
    | (if ?c then _ else _) = _ => destruct c
    | match ?c with _ => _ end = _ => destruct c; try discriminate
    end; try discriminate; injection Q as <- _ _; lia.
Qed.
Lemma core_high row' row vl reg v op ops tail bs rest : r_evex row' = r_evex row -> 16 <= reg ->
  says_core row' vl reg v op ops tail bs rest -> says_core row vl reg v op ops tail bs rest.
Proof.
  intros EV R [(f & h & rm & F & D & SP & _)|Q]; [|right; rewrite <- EV; exact Q].
  apply vex_reg_low in D; auto. lia.
Qed.

Lemma at_core row vl ops imm bs rest : says row vl ops imm bs rest -> forall row', r_enc row' = r_enc row -> r_digit row' = r_digit row ->
  r_evex row' = r_evex row -> r_digit row = None -> 16 <= slot_reg (at_slot SR (r_enc row) ops) -> says row' vl ops imm bs rest.
Proof.
  unfold says. intros H row' EE ED EV D R. rewrite EE, ED. rewrite D in *. cbv zeta in *. eapply core_high; [symmetry; exact EV|exact R|exact H].
Qed.
(* the method is one of two, by the number of the register in ModRM.reg *)
Lemma impl_two rc nm sg F F1 F2 row1 row2 row2' vl :
  (forall ops imm act, F ops imm = Some act ->
     (F1 ops imm = Some act) \/ (F2 ops imm = Some act /\ 16 <= slot_reg (at_slot SR (r_enc row2) ops))) ->
  implements rc (mkEntry nm sg F1 row1 vl) -> implements rc (mkEntry nm sg F2 row2' vl) ->
  r_enc row2' = r_enc row2 -> r_digit row2' = None -> r_digit row2 = None -> r_evex row2' = r_evex row2 -> r_enc row1 = r_enc row2 ->
  implements_one row2 rc (mkEntry nm sg F row1 vl).
Proof.
  intros SPL I1 I2 EE ED' ED EV E12 s ops imm act env pos its rest u Hf Ha Hm Hw Hr Hi H. cbn [en_fun en_sig en_row en_vl] in *.
  destruct (SPL _ _ _ Hf) as [Q|[Q R]].
  - left. eapply (I1 s ops imm act); eauto.
  - right. assert (V1 : vl_of vl row1 ops = vl_of vl row2' ops) by (unfold vl_of; now rewrite E12, EE).
    assert (V2 : vl_of vl row2 ops = vl_of vl row2' ops) by (unfold vl_of; now rewrite EE).
    rewrite V1 in *. rewrite V2. eapply at_core with (row := row2'); try congruence.
    eapply (I2 s ops imm act); eauto.
Qed.
Definition r_vmovq_ax := mkRow MR None (V Lx P66 M0F WIG 0xD6) (EV Lx P66 M0F W1 0xD6 (TS 8) NoRc).
Definition r_vmovq_ax2 := mkRow MR None (V Lx P66 M0F W1 0x7E) (EV Lx P66 M0F W1 0x7E (TS 8) NoRc).
Definition r_vmovq_xa := mkRow RM None (V Lx PF3 M0F WIG 0x7E) (EV Lx PF3 M0F W1 0x7E (TS 8) NoRc).
Definition r_vmovq_xa2 := mkRow RM None (V Lx P66 M0F W1 0x6E) (EV Lx P66 M0F W1 0x6E (TS 8) NoRc).
Definition e_vmovq_ax := mkEntry "vmovq/ax" [cA; cX] (ar i_vmovq_ax) r_vmovq_ax VlRegs.
Definition e_vmovq_xa := mkEntry "vmovq/xa" [cX; cA] (ra i_vmovq_xa) r_vmovq_xa VlRegs.
Lemma movq_ax_one : implements_one r_vmovq_ax2 true e_vmovq_ax.
Proof.
  eapply (impl_two _ _ _ _ (ar (fun o a => opAVX_X_X_XM a (OReg (Xmm 0)) (OMem o) ((((T_0F ||| T_66) ||| T_EVEX) ||| T_EW1) ||| T_N8) 0xD6 NONE))
    (ar (fun o a => opAVX_X_X_XM a (OReg (Xmm 0)) (OMem o) ((((T_0F ||| T_66) ||| T_EVEX) ||| T_EW1) ||| T_N8) 0x7E NONE))
    _ _ (with_vex r_vmovq_ax2 (V Lx P66 M0F W0 0x7E))); try reflexivity.
  - intros [|[r|a] [|[x|b] [|? ?]]] imm act; cbn [ar]; try discriminate. unfold i_vmovq_ax. rewrite getIdx_regno.
    destruct (regno x <? 16) eqn:L; [left; auto|right; split; [auto|cbn; lia]].
  - apply impl_mr0_a; [reflexivity|chk|rcm|reflexivity|reflexivity].
  - apply impl_mr0_a; [reflexivity|chk|rcm|reflexivity|reflexivity].
Qed.
Lemma movq_xa_one : implements_one r_vmovq_xa2 true e_vmovq_xa.
Proof.
  eapply (impl_two _ _ _ _ (ra (fun a o => opAVX_X_X_XM a (OReg (Xmm 0)) (OMem o) (T_0F ||| T_F3) 0x7E NONE))
    (ra (fun a o => opAVX_X_X_XM a (OReg (Xmm 0)) (OMem o) ((((T_0F ||| T_66) ||| T_EVEX) ||| T_EW1) ||| T_N8) 0x6E NONE))
    _ _ (with_vex r_vmovq_xa2 (V Lx P66 M0F W0 0x6E))); try reflexivity.
  - intros [|[x|b] [|[r|a] [|? ?]]] imm act; cbn [ra]; try discriminate. unfold i_vmovq_xa. cbv zeta. rewrite getIdx_regno.
    destruct (regno x <? 16) eqn:L; [left; auto|right; split; [auto|cbn; lia]].
  - apply impl_rm0_a; [reflexivity|chk|rcm|reflexivity|reflexivity].
  - apply impl_rm0_a; [reflexivity|chk|rcm|reflexivity|reflexivity].
Qed.
(* the word extracted into a general register with ModRM.reg (0F C5), otherwise with ModRM.rm (0F3A 15) *)
Definition r_vpextrw := mkRow MRI None (V Lx P66 M0F3A W0 0x15) (EV Lx P66 M0F3A WIG 0x15 (TS 2) NoRc).
Definition r_vpextrw2 := mkRow RMI None (V Lx P66 M0F W0 0xC5) (EV Lx P66 M0F WIG 0xC5 FVM NoRc).
Definition e_vpextrw := mkEntry "vpextrw/oxi" [cO; cX] (ori i_vpextrw) r_vpextrw VlAll.
Lemma vpextrw_one : implements_one r_vpextrw2 true e_vpextrw.
Proof.
  intros s ops imm act env pos its rest u Hf Ha Hm Hw Hr Hi H. cbn [en_fun en_sig en_row en_vl e_vpextrw] in *.
  assert (EA : exists o x, ops = [o; OReg x] /\ i_vpextrw o x imm = act).
  { destruct ops as [|o [|[x|] [|? ?]]]; try discriminate. exists o, x. split; auto. injection Hf as <-. auto. }
  destruct EA as (o & x & -> & <-). clear Hf.
  assert (Ao : arg_ok cO o) by (inversion Ha; auto). assert (Ax : arg_ok cX (OReg x)) by (inversion Ha as [|? ? ? ? _ Q]; inversion Q; auto). clear Ha.
  pose proof Ax as (Vx & Mx). pose proof (arg_rm _ _ Ao) as RK. pose proof (arg_some _ _ Ao) as NN. pose proof (arg_width _ _ Ao ltac:(discriminate)) as OK.
  unfold i_vpextrw in H. ungrd H. apply negb_false_iff, andb_prop in G as [G GX]. rewrite w8_small in H by auto.
  destruct (vec_kinds _ Vx) as (X1 & _ & _ & X2). rewrite X1 in GX. apply Z.eqb_eq in GX.
  assert (WO : width o <= 128).
  { destruct o as [r|a]; [|cbn; lia]. cbn [width]. destruct OK as (W & _). destruct Ao as [[Vr _]|[(Kr & Br) _]].
    - exfalso. destruct (vec_kinds _ Vr) as (_ & _ & _ & V2). cbn [ob isMEM] in G. rewrite orb_false_r in G.
      destruct Vr as [[[K _]|[[K _]|[K _]]] _]; unfold isREGb, is_ in G; rewrite K in G; discriminate.
    - cbn in Br. intuition lia. }
  assert (VL : forall row, vl_of VlAll row [o; OReg x] = 128). { intros row. unfold vl_of, longest. cbn [map width fold_right]. lia. }
  rewrite !VL in *.
  destruct (isREG (ob o) && (getIdx x <? 16)) eqn:C.
  - right. apply andb_prop in C as [C1 C2]. destruct o as [r|a]; [|exfalso; destruct Ao as [Wa _ _ _ _ _ _]; cbn [ob] in C1; unfold isREG, is_ in C1; rewrite (wm_kind _ Wa) in C1; discriminate C1]. cbn [ob] in *.
    destruct Ao as [[Vr _]|[Gr Br]]; [exfalso; destruct Vr as [[[K _]|[[K _]|[K _]]] _]; unfold isREG, is_ in C1; rewrite K in C1; discriminate|].
    rewrite !getIdx_regno in *. pose proof (regno_range r).
    destruct (Xmm_bare 0 ltac:(lia)) as (V0 & B0 & R0 & W0), (Xmm_bare (regno r) ltac:(lia)) as (V1 & B1 & R1 & W1).
    destruct (avx3_core' s r_vpextrw2 (Xmm (regno r)) (Xmm 0) (OReg x) (OReg x) (T_0F ||| T_66) 0xC5 imm 128 (regno r) 0 [OReg r; OReg x] env pos its rest u) as (_ & _ & Q); auto.
    all: try solve [reflexivity | left; reflexivity | now apply bare_mods | lia | discriminate | cbn [width]; lia
      | apply (arg_width _ _ Ax); discriminate | apply (arg_rm _ _ Ax) | apply (arg_some _ _ Ax)
      | eapply same_mods_trans; [apply bare_in_mods, B1|]; eapply same_mods_trans; [apply bare_in_mods, B0|]; apply same_mods_sym, bare_in_mods, Br].
    rewrite W1 in Q. rewrite imm_bytes_small in Q by auto. exact Q.
  - left. unfold says. cbn. rewrite <- GX. eapply vrm_core with (vls := [128]) (rc := true) (type := (((T_0F3A ||| T_66) ||| T_EVEX) ||| T_N2)) (code := 0x15) (imm8 := imm); eauto.
    all: try solve [reflexivity | discriminate | exists cO; split; [exact Ao|discriminate] | lia | cbn; auto | apply same_mods_swap
      | symmetry; now apply imm_bytes_small | rewrite GX; cbn; auto].
Qed.
