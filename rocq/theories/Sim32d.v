(* The 32-bit build against the 64-bit build: the tactic for the method tables. *)
From Coq Require Import ZArith List Bool Lia.
From Verif Require Import Base Types Emit EmitFacts MemFacts BitFacts VexFacts LegacyFacts SpecX86 SpecAddr Encode Encode32 Spec32 SpecB32 Sim32 Sim32b Sim32c.
Import ListNotations.
Open Scope Z_scope.

Lemma nm v x y : ((forall r, an_arg v r -> isBit r 16 = false) \/ (forall r, an_arg v r -> isBit r 64 = false)) ->
  an_arg v x -> an_arg v y -> mixed x y = false.
Proof. intros [H|H] X Y; unfold mixed; rewrite (H x X), (H y Y); rewrite ?andb_false_r; reflexivity. Qed.
Lemma arg_o v i : an_arg v (ob (ar_o v i)). Proof. exists i. auto. Qed.
Lemma arg_a v i : an_arg v (a_op (ar_a v i)). Proof. exists i. auto. Qed.
Lemma arg_r v i : an_arg v (ar_r v i). Proof. exists i. auto. Qed.

Lemma checkCvt1_w x o : checkCvt1 x (widen_op o) = checkCvt1 x o.
Proof. unfold checkCvt1. now rewrite isMEM_w, oXMM_w, ob_w. Qed.
Lemma checkCvt4_w x o : checkCvt4 x (widen_op o) = checkCvt4 x o.
Proof. unfold checkCvt4. now rewrite ob_w, oBit_w. Qed.
Lemma isREGb_120 r : reg32 r -> isREGb r 120 = isREGb r 56. Proof. exact (isREGb_w r 24). Qed.
Section Helpers.
Context {M : Prop}.
Notation sim := (bsame M).
Lemma setBit_sim r b : reg32 r -> b <> 8 -> sim (setBit r b) (Emit.setBit r b).
Proof.
  intros ((I1 & I2) & _) B8. unfold setBit, Emit.setBit. apply sim_fn. destruct (negb _); [apply sim_throw|]. destruct (isBit r b); [apply sim_refl|].
  destruct (is_ r _ 0); [apply sim_refl|]. destruct (is_ r _ 0); [|apply sim_throw]. destruct (_ && _ && _); [apply sim_throw|].
  assert (getIdx r = idx_ r) as -> by (unfold getIdx; change 31 with (Z.ones 5); rewrite Z.land_ones by lia; apply Z.mod_small; lia).
  destruct (Z.eqb_spec b 8); [lia|].
  destruct (16 <=? idx_ r) eqn:Q; [apply Z.leb_le in Q; lia|]. destruct (32 <=? idx_ r) eqn:Q1; [apply Z.leb_le in Q1; lia|]. apply sim_refl.
Qed.
Lemma bit_896 r b : isBit r 896 = true -> getBit r = b -> b <> 8.
Proof. intros H E0 ->. unfold isBit in H. fold (getBit r) in H. rewrite E0 in H. discriminate H. Qed.
(* a register of at most 32 bits with a memory operand whose size must agree *)
Lemma sim_opMR_nd a r t c : addr32 a -> has t T_ALLOW_DIFF_SIZE = false -> 0 <= bit_ r <= 32 -> sim (opMR a r t c 0 NONE) (Encode.opMR (widen_addr a) r t c 0 NONE).
Proof.
  intros H T B. destruct (mixed r (a_op a)) eqn:MX; [|apply sim_opMR; auto; intros _; left; lia].
  assert (Q : (0 <? getBit (a_op a)) && negb (getBit (a_op a) =? getBit r) = true).
  { destruct H as (_ & (_ & HB & _ & HM) & _). unfold mixed, isBit, getBit in *. destruct (Z.ltb_spec 0 (bit_ (a_op a))).
    - destruct (Z.eqb_spec (bit_ (a_op a)) (bit_ r)) as [E0|]; [|reflexivity]. exfalso.
      rewrite E0 in *. destruct (has (bit_ r) 16) eqn:P; [rewrite HM in MX by reflexivity|]; discriminate MX.
    - exfalso. assert (bit_ (a_op a) = 0) as E0 by lia. rewrite E0 in MX. change (has 0 16) with false in MX. change (has 0 64) with false in MX.
      rewrite andb_false_r in MX. discriminate MX. }
  unfold opMR, Encode.opMR. apply sim_fn. cbv zeta. change (negb (0 =? 0)) with false. apply sim_retr, sim_retl. unfold is64bitDisp. destruct (mode_32 a H) as [-> ->].
  change (a_op (widen_addr a)) with (a_op a). rewrite T. cbn [negb andb]. wcst. unfold getBit in *.
  replace (bit_ r <=? 32) with true by (symmetry; apply Z.leb_le; lia). replace (bit_ r <=? 64) with true by (symmetry; apply Z.leb_le; lia).
  cbn [andb]. rewrite Q. apply sim_throw.
Qed.
Lemma sim_ntd a i t c : addr32 a -> has t T_ALLOW_DIFF_SIZE = false -> sim (opSSE (Reg16 i) (OMem a) t c None NONE) (Encode.opSSE (Reg16 i) (OMem (widen_addr a)) t c None NONE).
Proof.
  intros H T. unfold opSSE, Encode.opSSE. apply sim_fn. change (isValidSSE (OMem (widen_addr a))) with (isValidSSE (OMem a)). destruct (_ || _); [apply sim_throw|].
  apply sim_bind; [|intros; apply sim_refl]. unfold opRO, Encode.opRO. apply sim_fn. apply (sim_opMR_nd (set_immSize a _)); [now apply addr32_imm|exact T|cbn; lia].
Qed.
Lemma cvt32_post r env pos its x : emits (Emit.cvt32 r) env pos its x -> exists i, x = Reg32 i.
Proof. intros J. unfold Emit.cvt32 in J. ebind J i1 i2 y J1 J2. apply emits_ret in J2 as [_ ->]. eauto. Qed.
Lemma cvt32_post' r env pos its x : emits (cvt32 r) env pos its x -> exists i, x = Reg32 i.
Proof. intros J. unfold cvt32 in J. ebind J i1 i2 y J1 J2. apply emits_ret in J2 as [_ ->]. eauto. Qed.
Lemma sim_cvt_bind {C} r (f f' : Reg -> E C) : reg32 r -> (forall i, sim (f (Reg32 i)) (f' (Reg32 i))) -> sim (bind (cvt32 r) f) (bind (Emit.cvt32 r) f').
Proof.
  intros H F. destruct (@sim_cvt32 M r H) as [C1 C2]. split; [|intros Q]; intros env pos its u J; ebind J i1 i2 x J1 J2.
  - destruct (cvt32_post _ _ _ _ _ J1) as [i ->]. eapply emits_bind_i; [exact (C1 _ _ _ _ J1)|exact (proj1 (F _) _ _ _ _ J2)].
  - destruct (cvt32_post' _ _ _ _ _ J1) as [i ->]. eapply emits_bind_i; [exact (C2 Q _ _ _ _ J1)|exact (proj2 (F _) Q _ _ _ _ J2)].
Qed.
End Helpers.
Lemma mixed_X r i : mixed (Xmm i) r = false.
Proof. apply mixed_regOf; [lia|right; reflexivity|right; reflexivity]. Qed.

Ltac arg := first [apply (arg_r (mkArgs _ _ _ _ _ _)) | apply (arg_a (mkArgs _ _ _ _ _ _)) | apply (arg_o (mkArgs _ _ _ _ _ _))].
Lemma fit_o o a r n e s q i : args_fit (mkArgs o a r n e s) -> (exists j, q = r j \/ o j = OReg q) -> fits_op q (o i).
Proof. intros H Q. apply (H q Q). Qed.
Lemma fit_a o a r n e s q i : args_fit (mkArgs o a r n e s) -> (exists j, q = r j \/ o j = OReg q) -> fits q (a_op (a i)).
Proof. intros H Q. apply (H q Q). Qed.
Lemma fit_sw o r : fits_op r o -> fit_ops o (OReg r). Proof. destruct o; auto. Qed.
Lemma fit_oo o a r n e s i j : args_fit (mkArgs o a r n e s) -> fit_ops (o i) (o j).
Proof.
  intros H. unfold fit_ops. destruct (o i) as [q|m] eqn:E1, (o j) as [q'|m'] eqn:E2; try exact Logic.I.
  - destruct (H q) as [K _]; [exists i; right; exact E1|]. specialize (K j). cbn [ar_o] in K. rewrite E2 in K. exact K.
  - destruct (H q') as [K _]; [exists j; right; exact E2|]. specialize (K i). cbn [ar_o] in K. rewrite E1 in K. exact K.
Qed.
Ltac arg2 := eexists; first [left; reflexivity | right; eassumption].
Ltac side := match goal with
  | |- _ -> fits (Reg32 _) _ => intros _; left; cbn; lia
  | |- _ -> fits (Reg8 _) _ => intros _; left; cbn; lia
  | |- _ -> fits (Xmm _) _ => intros _; left; cbn; lia
  | |- _ -> fits_op (Xmm _) _ => intros _; apply fits_opnm; cbn; lia
  | |- _ -> fits_op (Reg32 _) _ => intros _; apply fits_opnm; cbn; lia
  | |- _ -> fits_op (Reg8 _) _ => intros _; apply fits_opnm; cbn; lia
  | |- _ -> fits_op _ (OReg _) => intros _; exact Logic.I
  | |- _ -> fits_op _ (OMem _) => cbn [fits_op]; side
  | |- _ -> fits (ob _) _ => fail
  | |- _ -> fits _ (a_op (set_immSize _ _)) => cbn [a_op set_immSize]; side
  | |- _ -> fits_op _ _ => let Q := fresh in intros Q; eapply fit_o; [exact Q|arg2]
  | |- _ -> fits _ _ => let Q := fresh in intros Q; eapply fit_a; [exact Q|arg2]
  | |- _ -> fit_ops (OReg _) (OReg _) => intros _; exact Logic.I
  | |- _ -> fit_ops (OMem _) (OMem _) => intros _; exact Logic.I
  | |- _ -> fit_ops (OReg ?r) ?o => change (fit_ops (OReg r) o) with (fits_op r o); side
  | |- _ -> fit_ops (OMem ?a) (OReg ?r) => change (fit_ops (OMem a) (OReg r)) with (fits r (a_op a)); side
  | |- _ -> fit_ops ?o (OReg ?r) => let Q := fresh in intros Q; apply fit_sw; revert Q; side
  | |- _ -> fit_ops _ _ => let Q := fresh in intros Q; eapply fit_oo; exact Q
  | |- wk (OReg _) => exact Logic.I
  | |- wk (OMem _) => cbn [wk]; side
  | |- wk _ => apply op32_wk; side
  | |- op32 (OReg _) => cbn [op32]; side
  | |- op32 (OMem _) => cbn [op32]; side
  | H : forall i, op32 (?o i) |- op32 (?o _) => apply H
  | H : forall i, addr32 (?o i) |- addr32 (?o _) => apply H
  | H : forall i, reg32 (?o i) |- reg32 (?o _) => apply H
  | H : forall i, op32 (?o i) |- reg32 (ob (?o _)) => apply op32_ob, H
  | |- addr32 (set_immSize _ _) => apply addr32_imm; side
  | |- mixed (Reg32 _) _ = false => apply mixed_32
  | |- mixed _ (Reg32 _) = false => rewrite mixed_sym; apply mixed_32
  | |- mixed (Xmm _) _ = false => apply mixed_X
  | H : reg32 ?r |- reg32 ?r => exact H
  | H : op32 ?r |- op32 ?r => exact H
  | H : addr32 ?r |- addr32 ?r => exact H
  | H : mixed ?x ?y = false |- mixed ?x ?y = false => exact H
  | H : mixed ?x ?y = false |- mixed ?y ?x = false => rewrite mixed_sym; exact H
  | |- mixed (Reg8 _) _ = false => apply mixed_8
  | |- mixed _ noReg = false => apply mixed_noReg
  | |- mixed noReg _ = false => rewrite mixed_sym; apply mixed_noReg
  | |- mixed (regOf _ REG (getBit ?r) _) ?r = false => apply (mixed_ext _ (OReg r)); cbn [ob]; side
  | |- mixed _ _ = false => cbn [ob]; eapply nm; [eassumption|arg|arg]
  | |- isXMMorMMX_MEM _ _ = _ => apply isXMMorMMX_MEM_w
  | |- isXMM_XMMorMEM _ _ = _ => apply (isXMM_XMMorMEM_w (OReg _))
  | |- isXMM_MMXorMEM _ _ = _ => apply isXMM_MMXorMEM_w
  | |- isMMX_XMMorMEM _ _ = _ => apply isMMX_XMMorMEM_w
  | |- Encode.isXMM_REG32orMEM _ _ = _ => apply isXMM_REG32orMEM_w; side
  | |- Encode.isREG32_XMMorMEM _ _ = _ => apply isREG32_XMMorMEM_w; side
  | |- Encode.isREG32_REG32orMEM _ _ = _ => apply isREG32_REG32orMEM_w; side
  | |- True => exact Logic.I
  | |- isREGb ?x ?b = isREGb ?x ?b => reflexivity
  | |- isREGb _ 96 = isREGb _ 32 => apply isREGb_96; side
  | |- isREGb _ 112 = isREGb _ 48 => apply isREGb_112; side
  end.
#[global] Hint Rewrite checkCvt1_w checkCvt4_w checkCvt2_w verify_w immBit_w : w.
#[global] Hint Rewrite isREGb_120 oREGb_96 oREGb_112 isREGb_96 isREGb_112 isREGb_64 using side : w.
Ltac s1 := match goal with
  | |- bsame _ ?m ?m => apply sim_refl
  | |- bsame _ (fn _ _) (fn _ _) => apply sim_fn
  | |- bsame _ (throw _) (throw _) => apply sim_throw
  | |- bsame _ (if ?c then _ else _) (if ?c then _ else _) => destruct c eqn:?
  | |- bsame _ (bind (cvt32 _) _) _ => apply sim_cvt_bind; [side|intros]
  | |- bsame _ (bind _ _) (bind _ _) => apply sim_bind; [|intros]
  | |- bsame _ (opRR _ _ _ _) _ => apply sim_opRR; side
  | |- bsame _ (opMR (set_immSize _ _) _ _ _ _ _) _ => apply sim_opMR0; side
  | |- bsame _ (opMR _ _ _ _ _ _) _ => apply sim_opMR; side
  | |- bsame _ (opLoadSeg _ _ _ _) _ => apply sim_opLoadSeg; side
  | |- bsame _ (opMIB _ _ _ _) _ => apply sim_opMIB; side
  | |- bsame _ (opRext _ _ _ _ _ _ _ _) _ => apply sim_opRext; [side|rewrite ?ob_w; side]
  | |- bsame _ (opRO _ _ _ _ _ _) _ => apply sim_opRO; side
  | |- bsame _ (opSSE (Reg16 _) _ _ _ _ _) _ => apply sim_ntd; [side|reflexivity]
  | H : negb (isBit ?x 896) = false |- bsame _ (changeBit _ (getBit ?x)) _ => apply setBit_sim; [side|eapply bit_896; [apply negb_false_iff; exact H|reflexivity]]
  | |- bsame _ (opSSE _ _ _ _ _ _) _ => apply sim_opSSE; side
  | |- bsame _ (opMMX_IMM _ _ _ _) _ => apply sim_opMMX_IMM; side
  | |- bsame _ (opMMX _ _ _ _ _ _) _ => apply sim_opMMX; side
  | |- bsame _ (opMovXMM _ _ _ _) _ => apply sim_opMovXMM; side
  | |- bsame _ (opExt _ _ _ _ _) _ => apply sim_opExt; side
  | |- bsame _ (opSetCC _ _) _ => apply sim_opSetCC; side
  | |- bsame _ (opShift _ _ _ _) _ => apply sim_opShift; side
  | |- bsame _ (opShiftCL _ _ _ _) _ => apply sim_opShiftCL; side
  | |- bsame _ (opShxd _ _ _ _ _ _ _) _ => apply sim_opShxd; side
  | |- bsame _ (opRO_MR _ _ _) _ => apply sim_opRO_MR; side
  | |- bsame _ (opOI _ _ _ _) _ => apply sim_opOI; side
  | |- bsame _ (opROI _ _ _ _ _) _ => apply sim_opROI; side
  | |- bsame _ (mov_imm _ _) _ => apply sim_mov_imm; side
  | |- bsame _ (opMovxx _ _ _) _ => apply sim_opMovxx; side
  | |- bsame _ (opFpuMem _ _ _ _ _ _) _ => apply sim_opFpuMem; side
  | |- bsame _ (opRRO _ _ _ _ _ _) _ => apply sim_opRRO; side
  | |- bsame _ (opVex _ _ _ _ _ _) _ => apply sim_opVex; side
  | |- bsame _ (opROO _ _ _ _ _ _ _) _ => apply sim_opROO; side
  | |- bsame _ (opAVX_X_X_XM _ _ _ _ _ _) _ => apply sim_opAVX_X_X_XM; side
  | |- bsame _ (opAVX_K_X_XM _ _ _ _ _ _) _ => apply sim_opAVX_K_X_XM; side
  | |- bsame _ (opCvt _ _ _ _) _ => apply sim_opCvt; side
  | |- bsame _ (opCvt2 _ _ _ _) _ => apply sim_opCvt2; side
  | |- bsame _ (opCvt3 _ _ _ _ _ _ _) _ => apply sim_opCvt3; side
  | |- bsame _ (opCvt5 _ _ _ _) _ => apply sim_opCvt5; side
  | |- bsame _ (opCvt6 _ _ _ _ _) _ => apply sim_opCvt6; side
  | |- bsame _ (opAVX_X_XM_IMM _ _ _ _ _) _ => apply sim_opAVX_X_XM_IMM; side
  | |- bsame _ (opCnt _ _ _) _ => apply sim_opCnt; side
  | |- bsame _ (opGather _ _ _ _ _ _) _ => apply sim_opGather; side
  | |- bsame _ (opGather2 _ _ _ _ _) _ => apply sim_opGather2; side
  | |- bsame _ (opVmov _ _ _ _ _) _ => apply sim_opVmov; side
  | |- bsame _ (opGatherFetch _ _ _ _ _) _ => apply sim_opGatherFetch; side
  | |- bsame _ (opEncoding _ _ _ _ _ _ _ _ _ _) _ => apply sim_opEncoding; side
  | |- bsame _ (opCcmp _ _ _ _ _) _ => apply sim_opCcmp; side
  | |- bsame _ (opCcmpi _ _ _ _) _ => apply sim_opCcmpi; side
  | |- bsame _ (opTesti _ _ _ _) _ => apply sim_opTesti; side
  | |- bsame _ (opCfcmov _ _ _ _) _ => apply sim_opCfcmov; side
  | |- bsame _ (opKmov _ _ _ _) _ => apply sim_opKmov; side
  | |- bsame _ (opEncodeKey _ _ _ _) _ => apply sim_opEncodeKey; side
  | |- bsame _ (opSSE_APX _ _ _ _ _ _ _) _ => apply sim_opSSE_APX; side
  | |- bsame _ (opAVX10ZeroExt _ _ _ _ _ _) _ => apply sim_opAVX10ZeroExt; side
  | |- bsame _ (test_ _ _) _ => apply sim_test_; side
  | |- bsame _ (test_imm _ _) _ => apply sim_test_imm; side
  | |- bsame _ (imul_imm _ _ _) _ => apply sim_imul_imm; side
  | |- bsame _ (mov_oi _ _) _ => apply sim_mov_oi; side
  | |- bsame _ (mov_o_seg _ _) _ => apply sim_mov_o_seg; side
  | |- bsame _ (mov_seg_o _ _) _ => apply sim_mov_seg_o; side
  | |- bsame _ (vmovd _ _ _) _ => apply sim_opAVX10ZeroExt; side
  | |- bsame _ (vmovw _ _ _) _ => apply sim_opAVX10ZeroExt; side
  end.
Ltac srow := cbv zeta; wcst; change (8 ||| 16 ||| 96) with 120 in *; change (8 ||| 16 ||| 32) with 56 in *; change (128 ||| 256 ||| 512) with 896 in *; autorewrite with w; s1.
Ltac row_sim := solve [repeat srow].
