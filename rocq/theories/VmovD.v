(* vmovd and vmovw (xbyak.h:3268-3287): the row by operands and encoding. *)
From Coq Require Import ZArith List Bool String Lia.
From Verif Require Import Base Types Emit Encode SpecX86 SpecAddr SpecIsa SpecInsn SpecExcept Wf EmitFacts BitFacts MemFacts LegacyFacts VexFacts EncThms IsaFacts
  VexShapes VexShapes2 VexShapes3 VexTac VexMore IsaRows EncSel.
Import ListNotations.
Open Scope Z_scope.

Lemma below_on rc nm sg row vl F G :
  (forall ops imm act, Forall2 arg_ok sg ops -> F ops imm = Some act -> exists act', G ops imm = Some act' /\ le1 act act') ->
  implements rc (mkEntry nm sg G row vl) -> implements rc (mkEntry nm sg F row vl).
Proof.
  intros L I s ops imm act env pos its rest u Hf Ha Hm Hw Hr Hi H. cbn [en_fun en_sig en_row en_vl] in *.
  destruct (L _ _ _ Ha Hf) as (act' & Hg & Hl). eapply (I s ops imm act'); eauto.
Qed.
Section Z.
Variables (tt_ ct : list Z) (enc : PreferredEncoding) (bit : Z).
Definition z_ty (n : nat) := nth n tt_ 0.
Definition z_code (n : nat) := nth n ct 0.
Definition zx (n : nat) (x : Reg) (o : Operand) : E unit := opAVX_X_X_XM x (OReg (Xmm 0)) o (z_ty n) (z_code n) NONE.
Lemma ge_nil i a env pos : emits (getEncoding enc 1) env pos i a -> i = [].
Proof.
  intros H. unfold getEncoding in H. apply emits_fn in H. apply emits_bind in H as (j1 & j2 & e' & H1 & H2 & ->). apply emits_ask in H1 as [-> ->].
  cbv zeta in H2. match type of H2 with emits (if ?c then _ else _) _ _ _ _ => destruct c; [einv H2|] end. apply emits_ret in H2 as [-> _]. reflexivity.
Qed.
Lemma vec_not_reg r b : vec_reg r -> isREGb r b = false.
Proof. intros [[[K _]|[[K _]|[K _]]] _]; unfold isREGb, is_; rewrite K; reflexivity. Qed.
Lemma gpr_not_xmm r : gpr r -> isXMM r = false.
Proof. intros (K & _). unfold isXMM, is_. rewrite K. reflexivity. Qed.
Ltac open H := unfold opAVX10ZeroExt in H; apply emits_fn in H.
Ltac enc_ H := apply seq_nil in H; [|intros; eapply ge_nil; eassumption]; let e := fresh "e" in destruct H as (e & _ & H); cbv zeta in H.
Lemma z_xx x y : vec_reg x -> vec_reg y -> le1 (opAVX10ZeroExt (OReg x) (OReg y) tt_ ct enc bit) (zx 3 x (OReg y)).
Proof.
  intros Vx Vy env pos its u H. open H. cbn [isMEM oXMM] in H. unfold oXMM, oREGb in H. cbn [ob] in H.
  destruct (isXMM x) eqn:Ex; enc_ H; cbn [isMEM ob] in H.
  - destruct (isXMM y) eqn:Ey; cbn [orb andb negb b2z] in H; [exact H|]. rewrite (vec_not_reg y bit Vy) in H. cbn in H. einv H.
  - rewrite Ex, (vec_not_reg x bit Vx) in H. cbn in H. einv H.
Qed.
Lemma z_xr x r : vec_reg x -> gpr r -> le1 (opAVX10ZeroExt (OReg x) (OReg r) tt_ ct enc bit) (zx 1 x (OReg r)).
Proof.
  intros Vx Gr env pos its u H. open H. cbn [isMEM oXMM] in H. unfold oXMM, oREGb in H. cbn [ob] in H.
  destruct (isXMM x) eqn:Ex; enc_ H; cbn [isMEM ob] in H.
  - rewrite (gpr_not_xmm r Gr) in H. destruct (isREGb r bit); cbn [orb andb negb b2z] in H; [exact H|]. cbn in H. einv H.
  - rewrite Ex, (vec_not_reg x bit Vx) in H. cbn in H. einv H.
Qed.
Lemma z_rx x r : vec_reg x -> gpr r -> le1 (opAVX10ZeroExt (OReg r) (OReg x) tt_ ct enc bit) (zx 0 x (OReg r)).
Proof.
  intros Vx Gr env pos its u H. open H. cbn [isMEM oXMM] in H. unfold oXMM, oREGb in H. cbn [ob] in H.
  rewrite (gpr_not_xmm r Gr) in H. enc_ H; cbn [isMEM ob] in H. rewrite (gpr_not_xmm r Gr) in H. destruct (isREGb r bit); cbn [orb andb negb b2z] in H; [exact H|]. cbn in H. einv H.
Qed.
(* memory: the AVX10.2 form exactly if that encoding is chosen *)
Lemma mem_kind a : mem_ok a -> isXMM (a_op a) = false /\ isREGb (a_op a) bit = false.
Proof. intros M. pose proof (wm_kind _ (mo_wf _ M)) as K. unfold isXMM, isREGb, is_. rewrite K. split; reflexivity. Qed.
Lemma ge_chosen e env pos i : emits (getEncoding enc 1) env pos i e -> i = [] /\ e = chosen env 1 enc.
Proof.
  intros H. unfold getEncoding in H. apply emits_fn in H. apply emits_bind in H as (j1 & j2 & e' & H1 & H2 & ->). apply emits_ask in H1 as [-> ->].
  cbv zeta in H2. match type of H2 with emits (if ?c then _ else _) _ _ _ _ => destruct c; [einv H2|] end. apply emits_ret in H2 as [-> Q]. split; [reflexivity|].
  first [exact Q|exact (eq_sym Q)].
Qed.
Definition new_form (env : Env) : bool := PreferredEncoding_beq (chosen env 1 enc) AVX10v2Encoding.
Lemma z_xm x a env pos its u : vec_reg x -> mem_ok a -> emits (opAVX10ZeroExt (OReg x) (OMem a) tt_ ct enc bit) env pos its u ->
  emits (zx (if new_form env then 3 else 1) x (OMem a)) env pos its u.
Proof.
  intros Vx Ma H. destruct (mem_kind a Ma) as [K1 K2]. open H. cbn [isMEM oXMM] in H. unfold oXMM, oREGb in H. cbn [ob] in H.
  destruct (isXMM x) eqn:Ex; (apply seq_nil in H; [|intros; eapply ge_nil; eassumption]; destruct H as (e & Q & H); apply ge_chosen in Q as [_ ->]; cbv zeta in H); cbn [isMEM ob] in H.
  - rewrite K1, K2 in H. unfold new_form. destruct (PreferredEncoding_beq _ _); exact H.
  - rewrite Ex, (vec_not_reg x bit Vx) in H. cbn in H. einv H.
Qed.
Lemma z_mx x a env pos its u : vec_reg x -> mem_ok a -> emits (opAVX10ZeroExt (OMem a) (OReg x) tt_ ct enc bit) env pos its u ->
  emits (zx (if new_form env then 2 else 0) x (OMem a)) env pos its u.
Proof.
  intros Vx Ma H. destruct (mem_kind a Ma) as [K1 K2]. open H. cbn [isMEM oXMM] in H. unfold oXMM, oREGb in H. cbn [ob] in H.
  destruct (isXMM x) eqn:Ex; (apply seq_nil in H; [|intros; eapply ge_nil; eassumption]; destruct H as (e & Q & H); apply ge_chosen in Q as [_ ->]; cbv zeta in H); cbn [isMEM ob] in H.
  - rewrite K1, K2 in H. unfold new_form. destruct (PreferredEncoding_beq _ _); exact H.
  - rewrite Ex, (vec_not_reg x bit Vx) in H. cbn in H. einv H.
Qed.
End Z.

(* as implements, the row chosen by the settings of the generator *)
Definition implements_by (rowf : Env -> vrow) (rc : bool) (nm : string) (sg : list cls) (F : insn) (vl : vlrule) : Prop :=
  forall s ops imm act env pos its rest u, F ops imm = Some act -> Forall2 arg_ok sg ops -> one_mask ops ->
    Forall (fun o => width o <= vl_of vl (rowf env) ops) ops ->
    (rc = false -> Forall (fun o => ornd o = 0) ops) -> 0 <= imm < 256 -> emits act env pos its u ->
    says (rowf env) (vl_of vl (rowf env) ops) ops imm (render s its) rest.
(* SDM vol. 2, MOVD; AVX10.2 specification, VMOVD and VMOVW with zero extension *)
Definition r_d_load := mkRow RM None (V Lx P66 M0F W0 0x6E) (EV Lx P66 M0F W0 0x6E (TS 4) NoRc).
Definition r_d_store := mkRow MR None (V Lx P66 M0F W0 0x7E) (EV Lx P66 M0F W0 0x7E (TS 4) NoRc).
Definition r_d_load2 := mkRow RM None None (EV Lx PF3 M0F W0 0x7E (TS 4) NoRc).
Definition r_d_store2 := mkRow MR None None (EV Lx P66 M0F W0 0xD6 (TS 4) NoRc).
Definition r_w_load := mkRow RM None None (EV Lx P66 MAP5 WIG 0x6E (TS 2) NoRc).
Definition r_w_store := mkRow MR None None (EV Lx P66 MAP5 WIG 0x7E (TS 2) NoRc).
Definition r_w_load2 := mkRow RM None None (EV Lx PF3 MAP5 W0 0x6E (TS 2) NoRc).
Definition r_w_store2 := mkRow MR None None (EV Lx PF3 MAP5 W0 0x7E (TS 2) NoRc).

Section Mr.
Variables (type code : Z) (row : vrow) (c2 : cls) (rc : bool) (nm : string).
Hypothesis (NT : c2 <> cT).
Hypothesis (CH : check type code row true (avx_lens type 128) = true) (RC : rc = true -> row_rc type row = true).
Hypothesis (ED : r_digit row = None).
Lemma impl_mr0_r : r_enc row = MR ->
  implements rc (mkEntry nm [c2; cX] (rr (fun o a => opAVX_X_X_XM a (OReg (Xmm 0)) (OReg o) type code NONE)) row VlRegs).
Proof.
  assert (K1 : vcls cX = true) by reflexivity.
  intros EE. opn. destruct y as [x2|], y0 as [x1|]; try discriminate. cbn [rr] in Hf. fun_.
  assert (OC : exists c, arg_ok c (OReg x2) /\ c <> cT) by eauto. vargs. slots EE ED. vl1. widths.
  destruct Xmm0_ok as (A & B' & C & _).
  eapply (rm_core s row x1 (Xmm 0) (OReg x2) type code NONE cX); fin2.
Qed.
End Mr.

Ltac two_args Ha := inversion Ha as [|? ? ? ? A1 Hb]; subst; inversion Hb as [|? ? ? ? A2 Hc]; subst; inversion Hc; subst; clear Ha Hb Hc.
Section Regs.
Variables (tt_ ct : list Z) (enc : PreferredEncoding) (bit : Z) (rc : bool) (nm : string).
Notation M a b := (opAVX10ZeroExt a b tt_ ct enc bit).
Lemma reg_xx row : implements rc (mkEntry nm [cX; cX] (rr (fun x y => zx tt_ ct 3 x (OReg y))) row VlRegs) ->
  implements rc (mkEntry nm [cX; cX] (rr (fun x y => M (OReg x) (OReg y))) row VlRegs).
Proof.
  apply below_on. intros ops imm act Ha Hf. two_args Ha. destruct y as [x|], y0 as [z|]; try discriminate. injection Hf as <-.
  eexists. split; [reflexivity|]. apply z_xx; [apply A1|apply A2].
Qed.
Lemma reg_xr w row : implements rc (mkEntry nm [cX; cR w] (rr (fun x y => zx tt_ ct 1 x (OReg y))) row VlRegs) ->
  implements rc (mkEntry nm [cX; cR w] (rr (fun x y => M (OReg x) (OReg y))) row VlRegs).
Proof.
  apply below_on. intros ops imm act Ha Hf. two_args Ha. destruct y as [x|], y0 as [z|]; try discriminate. injection Hf as <-.
  eexists. split; [reflexivity|]. apply z_xr; [apply A1|apply A2].
Qed.
Lemma reg_rx w row : implements rc (mkEntry nm [cR w; cX] (rr (fun y x => zx tt_ ct 0 x (OReg y))) row VlRegs) ->
  implements rc (mkEntry nm [cR w; cX] (rr (fun y x => M (OReg y) (OReg x))) row VlRegs).
Proof.
  apply below_on. intros ops imm act Ha Hf. two_args Ha. destruct y as [x|], y0 as [z|]; try discriminate. injection Hf as <-.
  eexists. split; [reflexivity|]. apply z_rx; [apply A2|apply A1].
Qed.
Lemma mem_xm row row2 : implements rc (mkEntry nm [cX; cA] (ra (fun x a => zx tt_ ct 1 x (OMem a))) row VlRegs) ->
  implements rc (mkEntry nm [cX; cA] (ra (fun x a => zx tt_ ct 3 x (OMem a))) row2 VlRegs) ->
  implements_by (fun env => if new_form enc env then row2 else row) rc nm [cX; cA] (ra (fun x a => M (OReg x) (OMem a))) VlRegs.
Proof.
  intros I1 I2 s ops imm act env pos its rest u Hf Ha Hm Hw Hr Hi H. pose proof Ha as Ha'. two_args Ha'. destruct y as [x|], y0 as [|ma]; try discriminate. injection Hf as <-.
  apply z_xm in H; [|apply A1|exact A2]. destruct (new_form enc env); [eapply I2|eapply I1]; eauto; reflexivity.
Qed.
Lemma mem_mx row row2 : implements rc (mkEntry nm [cA; cX] (ar (fun a x => zx tt_ ct 0 x (OMem a))) row VlRegs) ->
  implements rc (mkEntry nm [cA; cX] (ar (fun a x => zx tt_ ct 2 x (OMem a))) row2 VlRegs) ->
  implements_by (fun env => if new_form enc env then row2 else row) rc nm [cA; cX] (ar (fun a x => M (OMem a) (OReg x))) VlRegs.
Proof.
  intros I1 I2 s ops imm act env pos its rest u Hf Ha Hm Hw Hr Hi H. pose proof Ha as Ha'. two_args Ha'. destruct y as [|ma], y0 as [x|]; try discriminate. injection Hf as <-.
  apply z_mx in H; [|apply A2|exact A1]. destruct (new_form enc env); [eapply I2|eapply I1]; eauto; reflexivity.
Qed.
End Regs.

Definition movd_table (enc : PreferredEncoding) : list entry := [
  mkEntry "vmovd xmm, xmm" [cX; cX] (rr (fun x y => vmovd (OReg x) (OReg y) enc)) r_d_load2 VlRegs;
  mkEntry "vmovd xmm, r32" [cX; cR 32] (rr (fun x y => vmovd (OReg x) (OReg y) enc)) r_d_load VlRegs;
  mkEntry "vmovd r32, xmm" [cR 32; cX] (rr (fun x y => vmovd (OReg x) (OReg y) enc)) r_d_store VlRegs;
  mkEntry "vmovw xmm, xmm" [cX; cX] (rr (fun x y => vmovw (OReg x) (OReg y) enc)) r_w_load2 VlRegs;
  mkEntry "vmovw xmm, r16" [cX; cR 16] (rr (fun x y => vmovw (OReg x) (OReg y) enc)) r_w_load VlRegs;
  mkEntry "vmovw xmm, r32" [cX; cR 32] (rr (fun x y => vmovw (OReg x) (OReg y) enc)) r_w_load VlRegs;
  mkEntry "vmovw xmm, r64" [cX; cR 64] (rr (fun x y => vmovw (OReg x) (OReg y) enc)) r_w_load VlRegs;
  mkEntry "vmovw r16, xmm" [cR 16; cX] (rr (fun x y => vmovw (OReg x) (OReg y) enc)) r_w_store VlRegs;
  mkEntry "vmovw r32, xmm" [cR 32; cX] (rr (fun x y => vmovw (OReg x) (OReg y) enc)) r_w_store VlRegs;
  mkEntry "vmovw r64, xmm" [cR 64; cX] (rr (fun x y => vmovw (OReg x) (OReg y) enc)) r_w_store VlRegs].
Lemma movd_all enc : Forall (implements true) (movd_table enc).
Proof.
  unfold movd_table, vmovd, vmovw. repeat apply Forall_cons; try apply Forall_nil.
  all: first [apply reg_xx|apply reg_xr|apply reg_rx]; first [apply impl_rm0_r|apply impl_mr0_r]; first [reflexivity|discriminate|chk|rcm].
Qed.
Lemma movd_mem enc :
  implements_by (fun env => if new_form enc env then r_d_load2 else r_d_load) true "vmovd" [cX; cA] (ra (fun x a => vmovd (OReg x) (OMem a) enc)) VlRegs
  /\ implements_by (fun env => if new_form enc env then r_d_store2 else r_d_store) true "vmovd" [cA; cX] (ar (fun a x => vmovd (OMem a) (OReg x) enc)) VlRegs
  /\ implements_by (fun env => if new_form enc env then r_w_load2 else r_w_load) true "vmovw" [cX; cA] (ra (fun x a => vmovw (OReg x) (OMem a) enc)) VlRegs
  /\ implements_by (fun env => if new_form enc env then r_w_store2 else r_w_store) true "vmovw" [cA; cX] (ar (fun a x => vmovw (OMem a) (OReg x) enc)) VlRegs.
Proof.
  unfold vmovd, vmovw. split; [|split; [|split]]; first [apply mem_xm|apply mem_mx]; first [apply impl_rm0_a|apply impl_mr0_a]; first [reflexivity|discriminate|chk|rcm].
Qed.
