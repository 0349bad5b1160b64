(* The 32-bit build against the 64-bit build: the remaining encoder helpers. *)
From Coq Require Import ZArith List Bool Lia.
From Verif Require Import Base Types Emit EmitFacts MemFacts BitFacts VexFacts LegacyFacts SpecX86 SpecAddr Encode Encode32 Spec32 Sim32 Sim32b.
Import ListNotations.
Open Scope Z_scope.

Ltac simt := lazymatch goal with |- bsame _ (if ?c then throw _ else _) _ => destruct c; [apply sim_throw|] end.
Lemma changeBit_self q : (exists e, changeBit q (getBit q) = fn q (throw e) /\ Emit.changeBit q (getBit q) = fn q (throw e))
  \/ (changeBit q (getBit q) = fn q (ret q) /\ Emit.changeBit q (getBit q) = fn q (ret q)).
Proof.
  unfold changeBit, setBit, Emit.changeBit, Emit.setBit. set (b := getBit q).
  destruct (negb _) eqn:Q; [left; eexists; split; reflexivity|right].
  assert (isBit q b = true) as ->; [|split; reflexivity].
  unfold isBit, has. fold (getBit q). fold b. rewrite Z.land_diag.
  destruct (Z.eqb_spec b 0) as [->|]; [discriminate Q|reflexivity].
Qed.
Section Helpers.
Context {M : Prop}.
Notation sim := (bsame M).
Lemma fits_nm r a : no_mmx (OReg r) -> fits r a. Proof. intros H. left. exact H. Qed.
Lemma fits_opnm r o : no_mmx (OReg r) -> fits_op r o. Proof. intros H. destruct o; [exact Logic.I|left; exact H]. Qed.
Lemma fit_opsnm o1 o2 : no_mmx o1 /\ no_mmx o2 -> fit_ops o1 o2. Proof. intros [H1 H2]. destruct o1, o2; try exact Logic.I; left; assumption. Qed.

Lemma sim_opRext o b b' ext t c dr i d : op32 o -> isREGb (ob o) b' = isREGb (ob o) b ->
  sim (opRext o b ext t c dr i d) (Encode.opRext (widen_op o) b' ext t c dr i d).
Proof.
  intros H B. unfold opRext, Encode.opRext. apply sim_fn. cbv zeta. rewrite rex2nf_w, ogetBit_w.
  assert (MX : mixed (regOf ext REG (if dr && (ogetBit o =? 64) then 32 else ogetBit o) false) (ob o) = false).
  { destruct (dr && _); [apply mixed_regOf; [lia|right; reflexivity|right; reflexivity]|]. apply mixed_ext. now apply op32_ob. }
  remember (if dr && (ogetBit o =? 64) then 32 else ogetBit o) as ob_ eqn:OB.
  apply sim_bind.
  - destruct (has t T_APX && _); [|apply sim_refl]. apply (sim_opROO _ o (OReg (regOf ext REG ob_ false))); [now apply op32_wk|exact Logic.I].
  - intros [|]; [apply sim_refl|]. destruct o as [q|a]; cbn [widen_op ob] in *.
    + rewrite B. destruct (isREGb q b) eqn:Q; [|apply sim_throw].
      assert (ob_ = getBit q) as E0.
      { rewrite OB. unfold ogetBit. cbn [ob]. destruct H as (_ & _ & H & _). assert (isREG q = true) as R.
        { unfold isREGb, isREG, is_ in *. apply andb_true_iff in Q as [Q _]. rewrite Q. reflexivity. }
        specialize (H R). destruct (Z.eqb_spec (getBit q) 64) as [E|]; [|now rewrite andb_false_r].
        unfold isBit in H. fold (getBit q) in H. rewrite E in H. discriminate H. }
      rewrite E0 in *. destruct (changeBit_self q) as [(e & -> & ->)|[-> ->]]; [apply sim_fnthrow|].
      apply sim_fnret. now apply sim_opRR.
    + apply sim_opMR0; [assumption|assumption|]. intros _. unfold fits. rewrite bit_regOf; [|subst ob_; destruct H as (_ & (_ & B0 & _) & _); unfold ogetBit, getBit; cbn [ob]; destruct (_ && _); [split; reflexivity || discriminate|exact B0]].
      subst ob_. unfold ogetBit, getBit. cbn [ob]. destruct (_ && _); [left; lia|right; right; reflexivity].
Qed.
Lemma sim_opRO r o t c cr i : wk o -> mixed r (ob o) = false -> (M -> fits_op r o) -> sim (opRO r o t c cr i) (Encode.opRO r (widen_op o) t c cr i).
Proof.
  intros H MX FT. unfold opRO, Encode.opRO. apply sim_fn. destruct o as [q|a]; cbn [widen_op ob wk] in *.
  - destruct cr; [|apply sim_throw]. now apply sim_opRR.
  - now apply sim_opMR0.
Qed.
Lemma sim_opSSE r o t c f f' i : wk o -> mixed r (ob o) = false -> (M -> fits_op r o) ->
  match f, f' with Some f, Some f' => f' (OReg r) (widen_op o) = f (OReg r) o | None, None => True | _, _ => False end ->
  sim (opSSE r o t c f i) (Encode.opSSE r (widen_op o) t c f' i).
Proof.
  intros H MX FT F. unfold opSSE, Encode.opSSE. apply sim_fn. rewrite isValidSSE_w.
  assert ((match f' with Some f => negb (f (OReg r) (widen_op o)) | None => false end) = match f with Some f => negb (f (OReg r) o) | None => false end) as ->.
  { destruct f, f'; try contradiction; [now rewrite F|reflexivity]. }
  destruct (match f with Some _ => _ | None => _ end); [apply sim_throw|]. destruct (_ || _); [apply sim_throw|].
  apply sim_bind; [apply sim_opRO; auto|intros; apply sim_refl].
Qed.
Lemma isXMMorMMX_MEM_w r o : isXMMorMMX_MEM (OReg r) (widen_op o) = isXMMorMMX_MEM (OReg r) o.
Proof. unfold isXMMorMMX_MEM, isXMM_XMMorMEM. now rewrite oMMX_w, oXMM_w, isMEM_w. Qed.
Lemma isXMM_MMXorMEM_w r o : isXMM_MMXorMEM (OReg r) (widen_op o) = isXMM_MMXorMEM (OReg r) o.
Proof. unfold isXMM_MMXorMEM. now rewrite oMMX_w, isMEM_w. Qed.
Lemma isMMX_XMMorMEM_w r o : isMMX_XMMorMEM (OReg r) (widen_op o) = isMMX_XMMorMEM (OReg r) o.
Proof. unfold isMMX_XMMorMEM. now rewrite oXMM_w, isMEM_w. Qed.
Lemma isXMM_REG32orMEM_w r o : op32 o -> Encode.isXMM_REG32orMEM (OReg r) (widen_op o) = isXMM_REG32orMEM (OReg r) o.
Proof. intros H. unfold isXMM_REG32orMEM, Encode.isXMM_REG32orMEM. wcst. now rewrite oREGb_w, isMEM_w, oREGb_96. Qed.
Lemma isREG32_XMMorMEM_w r o : reg32 r -> Encode.isREG32_XMMorMEM (OReg r) (widen_op o) = isREG32_XMMorMEM (OReg r) o.
Proof. intros H. unfold isREG32_XMMorMEM, Encode.isREG32_XMMorMEM. wcst. rewrite oXMM_w, isMEM_w. unfold oREGb; cbn [ob]. now rewrite isREGb_96. Qed.
Lemma isREG32_REG32orMEM_w r o : reg32 r -> op32 o -> Encode.isREG32_REG32orMEM (OReg r) (widen_op o) = isREG32_REG32orMEM (OReg r) o.
Proof.
  intros H H2. unfold isREG32_REG32orMEM, Encode.isREG32_REG32orMEM. wcst. rewrite oREGb_w, ogetBit_w, isMEM_w. unfold oREGb; cbn [ob].
  rewrite (isREGb_96 r H), (isREGb_96 (ob o) (op32_ob _ H2)). reflexivity.
Qed.
Lemma sim_opMMX_IMM r i c e : sim (opMMX_IMM r i c e) (Encode.opMMX_IMM r i c e).
Proof. unfold opMMX_IMM, Encode.opMMX_IMM. apply sim_fn. destruct (negb _); [apply sim_throw|]. apply sim_bind; [apply sim_opRR, mixed_32|intros; apply sim_refl]. Qed.
Lemma sim_opMMX r o c t p i : wk o -> mixed r (ob o) = false -> (M -> fits_op r o) -> sim (opMMX r o c t p i) (Encode.opMMX r (widen_op o) c t p i).
Proof. intros. unfold opMMX, Encode.opMMX. apply sim_opSSE; auto. apply isXMMorMMX_MEM_w. Qed.
Lemma sim_opMovXMM o1 o2 t c : wk o1 -> wk o2 -> mixed (ob o1) (ob o2) = false -> (M -> fit_ops o1 o2) -> sim (opMovXMM o1 o2 t c) (Encode.opMovXMM (widen_op o1) (widen_op o2) t c).
Proof.
  intros H1 H2 MX FT. unfold opMovXMM, Encode.opMovXMM. apply sim_fn. rewrite !isValidSSE_w. destruct (_ || _); [apply sim_throw|].
  destruct o1 as [r1|a1], o2 as [r2|a2]; cbn [widen_op ob wk] in *; try apply sim_throw; (destruct (isXMM _); [|apply sim_throw]); apply sim_opMR; auto; try (now rewrite mixed_sym); exact FT.
Qed.
Lemma sim_opExt o r c i h : op32 o -> mixed (ob o) r = false -> (M -> fits_op r o) -> sim (opExt o r c i h) (Encode.opExt (widen_op o) r c i h).
Proof.
  intros H MX FT. unfold opExt, Encode.opExt. apply sim_fn. rewrite isValidSSE_w. destruct (_ || _); [apply sim_throw|]. wcst. rewrite oREGb_w, oREGb_96, ob_w by exact H.
  destruct (_ && _).
  - apply sim_bind; [apply sim_refl|intros]. apply sim_bind; [now apply sim_opRR|intros; apply sim_refl].
  - apply sim_opSSE; [now apply op32_wk|now rewrite mixed_sym|exact FT|now apply isXMM_REG32orMEM_w].
Qed.
Lemma sim_opSetCC o e : op32 o -> sim (opSetCC o e) (Encode.opSetCC (widen_op o) e).
Proof.
  intros H. unfold opSetCC, Encode.opSetCC. apply sim_bind; [apply (sim_opROO _ o (OReg noReg)); [now apply op32_wk|exact Logic.I]|].
  intros [|]; [apply sim_refl|]. now apply sim_opRext.
Qed.
Lemma verify_w o : verifyMemHasSize (widen_op o) = verifyMemHasSize o.
Proof. unfold verifyMemHasSize. now rewrite isMEM_w, ogetBit_w. Qed.
Lemma immBit_w o i : getImmBit (widen_op o) i = getImmBit o i.
Proof. unfold getImmBit. now rewrite ?oBit_w, ?ogetBit_w, ?verify_w. Qed.
Lemma sim_opShift o i e d : op32 o -> sim (opShift o i e d) (Encode.opShift (widen_op o) i e d).
Proof.
  intros H. unfold opShift, Encode.opShift. apply sim_fn. rewrite verify_w, ogetBit_w. apply sim_bind; [apply sim_refl|intros _].
  destruct (match d with Some _ => _ | None => _ end); [apply sim_throw|]. apply sim_bind; [now apply sim_opRext|intros; apply sim_refl].
Qed.
Lemma sim_opShiftCL o r e d : op32 o -> sim (opShiftCL o r e d) (Encode.opShiftCL (widen_op o) r e d).
Proof.
  intros H. unfold opShiftCL, Encode.opShiftCL. apply sim_fn. rewrite ogetBit_w. destruct (negb _); [apply sim_throw|].
  destruct (match d with Some _ => _ | None => _ end); [apply sim_throw|]. now apply sim_opRext.
Qed.
Lemma sim_opShxd d o r i c c2 cl_ : op32 o -> reg32 r -> mixed (ob o) r = false -> (M -> fits_op r o) -> sim (opShxd d o r i c c2 cl_) (Encode.opShxd d (widen_op o) r i c c2 cl_).
Proof.
  intros H R MX FT. unfold opShxd, Encode.opShxd. apply sim_fn. destruct (match cl_ with Some _ => _ | None => _ end); [apply sim_throw|]. wcst.
  rewrite isREGb_112 by exact R. destruct (negb _); [apply sim_throw|]. cbv zeta.
  apply sim_bind; [apply (sim_opROO _ o (OReg r)); [now apply op32_wk|exact Logic.I]|]. intros x. apply sim_bind; [|intros; apply sim_refl].
  destruct (negb x); [|apply sim_refl]. apply sim_opRO; [now apply op32_wk|now rewrite mixed_sym|]. exact FT.
Qed.
Lemma sim_opRO_MR o1 o2 c : wk o1 -> wk o2 -> mixed (ob o1) (ob o2) = false -> (M -> fit_ops o1 o2) -> sim (opRO_MR o1 o2 c) (Encode.opRO_MR (widen_op o1) (widen_op o2) c).
Proof.
  intros H1 H2 MX FT. unfold opRO_MR, Encode.opRO_MR. apply sim_fn. destruct o2 as [r2|a2]; cbn [widen_op ob wk] in *.
  - rewrite oKind_w. apply sim_opRO; [exact H1|now rewrite mixed_sym|]. intros Q. specialize (FT Q). now destruct o1.
  - rewrite oREG_w, ob_w. destruct o1 as [r1|a1].
    + destruct (negb _); [apply sim_throw|]. apply sim_opMR; auto.
    + assert (oREG (OMem a1) = false) as -> by (destruct H1 as (K & _); unfold oREG, isREG, is_; cbn [ob]; rewrite K; reflexivity). apply sim_throw.
Qed.
Lemma sim_rex1 o t : op32 o -> sim (rex o noOp t) (Encode.rex (widen_op o) noOp t).
Proof. intros H. apply (sim_rex o noOp); [now apply op32_wk|exact Logic.I|apply mixed_noReg]. Qed.
Lemma sim_opOI o i c e : op32 o -> sim (opOI o i c e) (Encode.opOI (widen_op o) i c e).
Proof.
  intros H. unfold opOI, Encode.opOI. cbv zeta. rewrite immBit_w, oREG_w, ogetIdx_w, ogetBit_w, oBit_w. apply sim_bind; [apply sim_refl|intros b].
  apply sim_bind; [|intros; apply sim_refl]. destruct (_ && _).
  - apply sim_bind; [now apply sim_rex1|intros; apply sim_refl].
  - now apply sim_opRext.
Qed.
Lemma sim_opROI d o i t e : wk o -> sim (opROI d o i t e) (Encode.opROI d (widen_op o) i t e).
Proof.
  intros H. unfold opROI, Encode.opROI. cbv zeta. apply sim_bind; [apply sim_refl|intros b].
  apply sim_bind; [|intros; apply sim_refl]. now apply (sim_opROO _ o (OReg _)).
Qed.
Lemma sim_mov_imm r i : reg32 r -> sim (mov_imm r i) (Encode.mov_imm r i).
Proof.
  intros H. unfold mov_imm, Encode.mov_imm. cbv zeta. apply sim_bind; [|intros [? ?]; apply sim_refl]. destruct (_ && _).
  - apply sim_bind; [|intros; apply sim_refl]. apply (sim_rex (OReg (Reg32 (getIdx r))) noOp); [exact Logic.I|exact Logic.I|apply mixed_noReg].
  - apply sim_bind; [|intros; apply sim_refl]. now apply (sim_rex1 (OReg r)).
Qed.
Lemma sim_opMovxx r o c : wk o -> mixed r (ob o) = false -> (M -> fits_op r o) -> sim (opMovxx r o c) (Encode.opMovxx r (widen_op o) c).
Proof.
  intros H MX FT. unfold opMovxx, Encode.opMovxx. apply sim_fn. rewrite !oBit_w, ogetBit_w. destruct (oBit o 32); [apply sim_throw|]. cbv zeta.
  destruct (negb _); [apply sim_throw|]. now apply sim_opRO.
Qed.
Lemma sim_opFpuMem a m1 m2 m3 e me : addr32 a -> sim (opFpuMem a m1 m2 m3 e me) (Encode.opFpuMem (widen_addr a) m1 m2 m3 e me).
Proof.
  intros H. unfold opFpuMem, Encode.opFpuMem. apply sim_fn. unfold is64bitDisp. destruct (mode_32 a H) as [-> ->].
  change (a_op (widen_addr a)) with (a_op a). cbv zeta. destruct (_ =? 0); [apply sim_throw|].
  apply sim_bind; [|intros; apply sim_bind; [apply sim_refl|intros; now apply sim_opAddr]].
  apply (sim_rex (OMem a) (OReg (Fpu 0))); [exact H|exact Logic.I|]. rewrite mixed_sym. apply mixed_regOf; [lia|right; reflexivity|right; reflexivity].
Qed.
Lemma sim_opRRO d r o t c i : wk o -> sim (opRRO d r o t c i) (Encode.opRRO d r (widen_op o) t c i).
Proof.
  intros H. unfold opRRO, Encode.opRRO. apply sim_fn. rewrite oREG_w, ogetBit_w, !rex2_w. cbv zeta. destruct (_ || _); [apply sim_throw|].
  destruct (_ || NF_ d); [|now apply sim_opVex]. apply sim_bind; [now apply (sim_opROO _ o (OReg d))|intros; apply sim_refl].
Qed.
Lemma sim_opAVX_X_X_XM x o1 o2 t c i : wk o1 -> wk o2 -> sim (opAVX_X_X_XM x o1 o2 t c i) (Encode.opAVX_X_X_XM x (widen_op o1) (widen_op o2) t c i).
Proof.
  intros H1 H2. unfold opAVX_X_X_XM, Encode.opAVX_X_X_XM. apply sim_fn. rewrite !ob_w. destruct (isNone (ob o2)); (destruct (negb _); [apply sim_throw|]); now apply sim_opVex.
Qed.
Lemma sim_opAVX_K_X_XM k x o t c i : wk o -> sim (opAVX_K_X_XM k x o t c i) (Encode.opAVX_K_X_XM k x (widen_op o) t c i).
Proof. intros H. unfold opAVX_K_X_XM, Encode.opAVX_K_X_XM. apply sim_fn. rewrite isMEM_w, oKind_w. destruct (_ && _); [apply sim_throw|]. now apply sim_opVex. Qed.
Lemma sim_opCvt x o t c : wk o -> sim (opCvt x o t c) (Encode.opCvt x (widen_op o) t c).
Proof. intros H. unfold opCvt, Encode.opCvt. rewrite oBit_w. now apply sim_opVex. Qed.
Lemma checkCvt2_w x o : checkCvt2 x (widen_op o) = checkCvt2 x o.
Proof. unfold checkCvt2. now rewrite ?isMEM_w, ?oXMM_w, ?ob_w, ?oBit_w. Qed.
Lemma sim_opCvt2 x o t c : wk o -> sim (opCvt2 x o t c) (Encode.opCvt2 x (widen_op o) t c).
Proof. intros H. unfold opCvt2, Encode.opCvt2. rewrite checkCvt2_w. apply sim_bind; [apply sim_refl|intros; now apply sim_opCvt]. Qed.
Lemma sim_opCvt3 x1 x2 o t t1 t2 c : op32 o -> sim (opCvt3 x1 x2 o t t1 t2 c) (Encode.opCvt3 x1 x2 (widen_op o) t t1 t2 c).
Proof.
  intros H. unfold opCvt3, Encode.opCvt3. apply sim_fn. wcst. rewrite oREGb_w, oREGb_96, isMEM_w, ogetIdx_w, oREG_w, oBit_w by exact H. destruct (negb _); [apply sim_throw|]. cbv zeta.
  destruct (oREG o); [apply (sim_opVex _ _ (OReg _)); exact Logic.I|]. apply sim_opVex. now apply op32_wk.
Qed.
Lemma sim_opCvt5 x o t c : wk o -> sim (opCvt5 x o t c) (Encode.opCvt5 x (widen_op o) t c).
Proof. intros H. unfold opCvt5, Encode.opCvt5. apply sim_fn. rewrite !oBit_w. destruct (negb _); [apply sim_throw|]. now apply sim_opVex. Qed.
Lemma sim_opCvt6 x1 x2 o t c : wk o -> sim (opCvt6 x1 x2 o t c) (Encode.opCvt6 x1 x2 (widen_op o) t c).
Proof. intros H. unfold opCvt6, Encode.opCvt6. apply sim_fn. rewrite !ogetBit_w, !isMEM_w. cbv zeta. destruct (_ || _); [|apply sim_throw]. now apply sim_opVex. Qed.
Lemma sim_opAVX_X_XM_IMM x o t c i : wk o -> sim (opAVX_X_XM_IMM x o t c i) (Encode.opAVX_X_XM_IMM x (widen_op o) t c i).
Proof. intros H. unfold opAVX_X_XM_IMM, Encode.opAVX_X_XM_IMM. now apply (sim_opAVX_X_X_XM _ (OReg _)). Qed.
Lemma sim_opCnt r o c : reg32 r -> op32 o -> mixed r (ob o) = false -> (M -> fits_op r o) -> sim (opCnt r o c) (Encode.opCnt r (widen_op o) c).
Proof.
  intros R H MX FT. unfold opCnt, Encode.opCnt. apply sim_fn. wcst. rewrite !oREGb_w, isMEM_w, isREGb_96 by exact R. destruct (isBit r 8); [apply sim_throw|].
  cbv zeta. destruct (_ && negb _); [apply sim_throw|]. apply sim_opRO; [now apply op32_wk|exact MX|]. exact FT.
Qed.
Lemma index_w (a : Address) : addr32 a -> forall b, 128 <= b -> (getBit (widen (e_index (getRegExp a))) =? b) = (getBit (e_index (getRegExp a)) =? b).
Proof.
  intros H b B. pose proof (getRegExp_32 _ H) as (_ & HI & _). unfold getBit. destruct (index_bits _ HI) as [[-> ->]|[(-> & -> & _)|(_ & -> & _)]]; try reflexivity.
  destruct (Z.eqb_spec 64 b), (Z.eqb_spec 32 b); auto; lia.
Qed.
Lemma sim_opGather x1 a x2 t c m : addr32 a -> sim (opGather x1 a x2 t c m) (Encode.opGather x1 (widen_addr a) x2 t c m).
Proof.
  intros H. unfold opGather, Encode.opGather. apply sim_fn. rewrite getRegExp_w by exact H. cbv zeta. cbn [widen_exp e_index]. rewrite index_w, widen_getIdx by (assumption || lia).
  assert (isVsibE (widen_exp (getRegExp a)) 384 = isVsibE (getRegExp a) 384) as ->.
  { unfold isVsibE. cbn [widen_exp e_index]. pose proof (getRegExp_32 _ H) as (_ & HI & _). unfold isBit.
    destruct (index_bits _ HI) as [[-> ->]|[(-> & -> & _)|(_ & -> & _)]]; reflexivity. }
  destruct (negb _); [apply sim_throw|]. destruct (_ && negb _); [apply sim_throw|]. destruct (_ || (_ =? _)); [apply sim_throw|].
  now apply (sim_opAVX_X_X_XM _ (OReg _) (OMem a)).
Qed.
Lemma checkGather2_w x r m : checkGather2 x (widen r) m = checkGather2 x r m.
Proof. unfold checkGather2. now rewrite ?isXMM_widen, ?isYMM_widen, ?isZMM_widen. Qed.
Lemma sim_opGather2 x a t c m : addr32 a -> sim (opGather2 x a t c m) (Encode.opGather2 x (widen_addr a) t c m).
Proof.
  intros H. unfold opGather2, Encode.opGather2. apply sim_fn. rewrite getRegExp_w by exact H. cbv zeta. cbn [widen_exp e_index]. rewrite checkGather2_w, widen_getIdx.
  change (a_op (widen_addr a)) with (a_op a). destruct (zero_ x); [apply sim_throw|]. apply sim_bind; [apply sim_refl|intros _].
  simt. simt. now apply (sim_opVex _ _ (OMem a)).
Qed.
Lemma sim_opVmov o x t c m : wk o -> sim (opVmov o x t c m) (Encode.opVmov (widen_op o) x t c m).
Proof. intros H. unfold opVmov, Encode.opVmov. apply sim_fn. rewrite isMEM_w, oXMM_w, ob_w. simt. now apply sim_opVex. Qed.
Lemma sim_opGatherFetch a x t c k : addr32 a -> sim (opGatherFetch a x t c k) (Encode.opGatherFetch (widen_addr a) x t c k).
Proof.
  intros H. unfold opGatherFetch, Encode.opGatherFetch. apply sim_fn. rewrite getRegExp_w by exact H. cbn [widen_exp e_index]. rewrite widen_kind.
  change (a_op (widen_addr a)) with (a_op a). destruct (zero_ _); [apply sim_throw|]. destruct (negb _); [apply sim_throw|]. now apply (sim_opVex _ _ (OMem a)).
Qed.
Lemma sim_opEncoding x1 x2 o t c e i tv te s : wk o -> sim (opEncoding x1 x2 o t c e i tv te s) (Encode.opEncoding x1 x2 (widen_op o) t c e i tv te s).
Proof. intros H. unfold opEncoding, Encode.opEncoding. apply sim_bind; [apply sim_refl|intros]. now apply (sim_opAVX_X_X_XM _ (OReg _)). Qed.
Lemma sim_opCcmp o1 o2 d c s : wk o1 -> wk o2 -> sim (opCcmp o1 o2 d c s) (Encode.opCcmp (widen_op o1) (widen_op o2) d c s).
Proof.
  intros H1 H2. unfold opCcmp, Encode.opCcmp. apply sim_fn. rewrite !ogetBit_w. destruct (_ || _); [apply sim_throw|]. apply sim_bind; [now apply sim_opROO|intros; apply sim_refl].
Qed.
Lemma sim_opCcmpi o i d s : wk o -> sim (opCcmpi o i d s) (Encode.opCcmpi (widen_op o) i d s).
Proof.
  intros H1. unfold opCcmpi, Encode.opCcmpi. apply sim_fn. rewrite !ogetBit_w, immBit_w. destruct (_ || _); [apply sim_throw|]. apply sim_bind; [apply sim_refl|intros b].
  cbv zeta. apply sim_bind; [now apply (sim_opROO _ o (OReg _))|intros; apply sim_refl].
Qed.
Lemma sim_opTesti o i d s : wk o -> sim (opTesti o i d s) (Encode.opTesti (widen_op o) i d s).
Proof.
  intros H1. unfold opTesti, Encode.opTesti. apply sim_fn. rewrite !ogetBit_w. destruct (_ || _); [apply sim_throw|]. cbv zeta. destruct (_ =? 0); [apply sim_throw|].
  apply sim_bind; [now apply (sim_opROO _ o (OReg _))|intros; apply sim_refl].
Qed.
Lemma sim_opCfcmov d o1 o2 c : wk o1 -> wk o2 -> sim (opCfcmov d o1 o2 c) (Encode.opCfcmov d (widen_op o1) (widen_op o2) c).
Proof.
  intros H1 H2. unfold opCfcmov, Encode.opCfcmov. apply sim_fn. rewrite !ogetBit_w, oBit_w, isMEM_w. cbv zeta. destruct (_ && _); [apply sim_throw|]. destruct (_ || _); [apply sim_throw|].
  destruct o2 as [r2|a2]; cbn [widen_op].
  - apply sim_bind; [now apply (sim_opROO _ o1 (OReg _))|intros; apply sim_refl].
  - destruct (isMEM o1); [apply sim_throw|]. apply sim_bind; [now apply (sim_opROO _ (OMem a2) o1)|intros; apply sim_refl].
Qed.
Lemma sim_opKmov k o rv s : wk o -> sim (opKmov k o rv s) (Encode.opKmov k (widen_op o) rv s).
Proof.
  intros H. unfold opKmov, Encode.opKmov. apply sim_fn. cbv zeta. rewrite !oREGb_w, !isMEM_w, !ob_w. destruct (_ =? 0); [apply sim_throw|].
  destruct (_ =? 147); (apply sim_bind; [|intros [|]; [apply sim_refl|]]);
    [apply (sim_opROO _ (OReg k) o)|rewrite ob_w; apply (sim_opVex _ _ (OReg k))|apply (sim_opROO _ o (OReg k))|apply sim_opVex]; auto with sim.
Qed.
Lemma sim_opEncodeKey r1 r2 c1 c2 : sim (opEncodeKey r1 r2 c1 c2) (Encode.opEncodeKey r1 r2 c1 c2).
Proof.
  unfold opEncodeKey, Encode.opEncodeKey. destruct (_ && _); [apply sim_refl|]. apply sim_bind; [apply (sim_opROO _ (OReg _) (OReg _)); exact Logic.I|intros; apply sim_refl].
Qed.
Lemma sim_opSSE_APX r o t1 c1 t2 c2 i : wk o -> mixed r (ob o) = false -> (M -> fits_op r o) -> sim (opSSE_APX r o t1 c1 t2 c2 i) (Encode.opSSE_APX r (widen_op o) t1 c1 t2 c2 i).
Proof.
  intros H MX FT. unfold opSSE_APX, Encode.opSSE_APX. rewrite rex2_w. apply sim_bind.
  - destruct (_ && _); [|apply sim_refl]. now apply (sim_opROO _ o (OReg r)).
  - intros [|]; [apply sim_refl|]. apply sim_opSSE; auto. apply (isXMM_XMMorMEM_w (OReg r) o).
Qed.
Lemma sim_opAVX10ZeroExt o1 o2 tt_ ct e b : wk o1 -> wk o2 -> sim (opAVX10ZeroExt o1 o2 tt_ ct e b) (Encode.opAVX10ZeroExt (widen_op o1) (widen_op o2) tt_ ct e b).
Proof.
  intros H1 H2. unfold opAVX10ZeroExt, Encode.opAVX10ZeroExt. apply sim_fn. rewrite !isMEM_w.
  destruct (isMEM o1); rewrite !isMEM_w; (destruct (isMEM _); [apply sim_throw|]); rewrite !oXMM_w; destruct (oXMM _); rewrite ?oREGb_w, ?isMEM_w, ?ob_w, ?oXMM_w;
   (apply sim_bind; [apply sim_refl|intros x]); cbv zeta; destruct (_ =? -1); try apply sim_throw; apply (sim_opAVX_X_X_XM _ (OReg _)); auto with sim.
Qed.
Lemma sim_test_ o r : wk o -> mixed r (ob o) = false -> (M -> fits_op r o) -> sim (test_ o r) (Encode.test_ (widen_op o) r).
Proof. intros. unfold test_, Encode.test_. rewrite oKind_w. apply sim_opRO; auto. Qed.
Lemma sim_test_imm o i : op32 o -> sim (test_imm o i) (Encode.test_imm (widen_op o) i).
Proof.
  intros H. unfold test_imm, Encode.test_imm. cbv zeta. rewrite verify_w, oREG_w, ogetIdx_w, oBit_w, ogetBit_w. apply sim_bind; [apply sim_refl|intros _].
  apply sim_bind; [|intros; apply sim_refl]. destruct (_ && _); [|now apply sim_opRext]. apply sim_bind; [now apply sim_rex1|intros; apply sim_refl].
Qed.
Lemma sim_imul_imm r o i : wk o -> mixed r (ob o) = false -> (M -> fits_op r o) -> sim (imul_imm r o i) (Encode.imul_imm r (widen_op o) i).
Proof.
  intros H MX FT. unfold imul_imm, Encode.imul_imm. cbv zeta. rewrite oKind_w. apply sim_bind; [now apply (sim_opROO _ o (OReg r))|intros x].
  apply sim_bind; [|intros; apply sim_refl]. destruct (negb x); [|apply sim_refl]. now apply sim_opRO.
Qed.
Lemma sim_mov_oi o i : op32 o -> sim (mov_oi o i) (Encode.mov_oi (widen_op o) i).
Proof.
  intros H. unfold mov_oi, Encode.mov_oi. apply sim_fn. cbv zeta. destruct o as [r|a]; cbn [widen_op].
  - destruct (isREG r); [|apply sim_throw]. apply sim_bind; [now apply sim_mov_imm|intros; apply sim_refl].
  - change (ogetBit (OMem (widen_addr a))) with (ogetBit (OMem a)). change (verifyMemHasSize (OMem (widen_addr a))) with (verifyMemHasSize (OMem a)).
    apply sim_bind; [apply sim_refl|intros _]. simt. apply sim_bind; [|intros; apply sim_refl].
    apply sim_opMR0; [exact H|apply (mixed_ext 0 (OMem a)); now apply (op32_ob (OMem a))|]. intros _. right; right. symmetry. apply bit_regOf.
    destruct H as (_ & (_ & B0 & _) & _). exact B0.
Qed.
Lemma sim_mov_o_seg o s : op32 o -> sim (mov_o_seg o s) (Encode.mov_o_seg (widen_op o) s).
Proof.
  intros H. unfold mov_o_seg, Encode.mov_o_seg. wcst. rewrite oREGb_w, oREGb_112 by exact H. apply sim_opRO; [now apply op32_wk|apply mixed_8|]. intros _. apply fits_opnm. cbn. lia.
Qed.
Lemma sim_cvt32 r : reg32 r -> sim (cvt32 r) (Emit.cvt32 r).
Proof. intros H. unfold cvt32, Emit.cvt32. apply sim_bind; [now apply setBit_32|intros; apply sim_refl]. Qed.
Lemma sim_mov_seg_o s o : op32 o -> sim (mov_seg_o s o) (Encode.mov_seg_o s (widen_op o)).
Proof.
  intros H. unfold mov_seg_o, Encode.mov_seg_o. wcst. rewrite oREGb_w, oREGb_112, ob_w by exact H.
  assert (R : forall p, wk p -> sim (opRO (Reg8 (segIdx s)) p (T_ALLOW_DIFF_SIZE ||| T_ALLOW_ABCDH) 142 (oREGb o 48) 0)
                               (Encode.opRO (Reg8 (segIdx s)) (widen_op p) (T_ALLOW_DIFF_SIZE ||| T_ALLOW_ABCDH) 142 (oREGb o 48) 0)).
  { intros p Hp. apply sim_opRO; [exact Hp|apply mixed_8|]. intros _. apply fits_opnm. cbn. lia. }
  destruct (oREGb o 48).
  - assert (X : sim (p <- cvt32 (ob o) ;; opRO (Reg8 (segIdx s)) (OReg p) (T_ALLOW_DIFF_SIZE ||| T_ALLOW_ABCDH) 142 true 0)
                    (p <- Emit.cvt32 (ob o) ;; Encode.opRO (Reg8 (segIdx s)) (OReg p) (T_ALLOW_DIFF_SIZE ||| T_ALLOW_ABCDH) 142 true 0)).
    { apply sim_bind; [apply sim_cvt32; now apply op32_ob|]. intros x. now apply (R (OReg x)). }
    assert (AS : forall (c : E Reg) (f : Operand -> E unit) env pos its u, emits (p <- (r <- c ;; ret (OReg r)) ;; f p) env pos its u <-> emits (r <- c ;; f (OReg r)) env pos its u).
    { intros c f env pos its u. split; intros J.
      - ebind J i1 i2 x J1 J2. ebind J1 j1 j2 y K1 K2. apply emits_ret in K2 as [-> ->]. rewrite app_nil_r in *. eapply emits_bind_i; [exact K1|exact J2].
      - ebind J i1 i2 x J1 J2. eapply emits_bind_i; [|exact J2]. rewrite <- (app_nil_r i1). eapply emits_bind_i; [exact J1|]. split; [exact (proj1 J1)|reflexivity]. }
    destruct X as [X1 X2]. split; [|intros Q]; intros env pos its u J; apply AS in J; apply AS; [apply X1|apply (X2 Q)]; exact J.
  - apply sim_retr, sim_retl. apply R. now apply op32_wk.
Qed.
Lemma sim_opJmpOp o ty e : op32 o -> isBit (ob o) 64 = false -> sim (opJmpOp o ty e) (Encode.opJmpOp (widen_op o) ty e).
Proof.
  intros H B. unfold opJmpOp, Encode.opJmpOp. apply sim_fn. cbv zeta. wcst.
  rewrite isMEMb_w. assert (isMEMb o 112 = isMEMb o 48) as ->.
  { unfold isMEMb, is_. destruct o as [r|a]; [reflexivity|]. change 112 with (48 ||| 64). rewrite has_lor. cbn [ob] in B. unfold isBit in B. rewrite B. now rewrite orb_false_r. }
  assert (isREGb (ob o) 112 = isREGb (ob o) 48) by (apply isREGb_112; now apply op32_ob).
  destruct (LabelType_beq ty T_FAR); [destruct (negb _); [apply sim_throw|]|]; now apply sim_opRext.
Qed.
End Helpers.
