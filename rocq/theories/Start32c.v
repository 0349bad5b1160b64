(* The 32-bit build: the tactic for the table of methods that begin alike in both modes. *)
From Coq Require Import ZArith List Bool String Lia.
From Verif Require Import Base Types Emit EmitFacts MemFacts LegacyFacts SpecX86 Encode Encode32 Spec32 SpecB32 SpecStart32 Sim32 Sim32b Start32 Start32b.
Import ListNotations.
Open Scope Z_scope.

Lemma okr_reg32 r : reg32 r -> nomods r -> okr r.
Proof. intros H B. split; [apply H|]. split; [exact B|now apply isREGb_64]. Qed.
Lemma oko_op32 o : op32 o -> nomods_op o -> oko o.
Proof. destruct o as [r|a]; [apply okr_reg32|]. intros H B. now split. Qed.
Lemma SS_alike_args x v : SS (b_call32 x v) -> alike (b_call32 x v). Proof. apply SS_alike. Qed.
Lemma SS_db b : opcok b = true -> SS (db b). Proof. intros H. now apply SL_SS, SL_op. Qed.

Lemma bit_not64 r m : negb (isBit r m) = false -> has 64 m = false -> (getBit r =? 64) = false.
Proof. intros H K. apply negb_false_iff in H. unfold isBit in H. destruct (Z.eqb_spec (getBit r) 64) as [E0|]; [|reflexivity]. unfold getBit in E0. rewrite E0 in H. congruence. Qed.
Lemma SS_fn {A} (d : A) m : SS m -> SS (fn d m). Proof. apply T_fn. Qed.
Lemma SS_bind_assoc {A B C} (m : E A) (g : A -> E B) (f : B -> E C) : SS (bind m (fun x => bind (g x) f)) -> SS (bind (bind m g) f).
Proof. intros H s env pos its a J rest. ebind J i1 i2 x J1 J2. ebind J1 i3 i4 y J1 J3. rewrite <- app_assoc. refine (H s env pos (i3 ++ (i4 ++ i2))%list a _ rest). eapply emits_bind_i; [exact J1|]. eapply emits_bind_i; [exact J3|]. rewrite items_size_app, Z.add_assoc in J2. exact J2. Qed.

Ltac sd := match goal with
  | H : forall i, oko (?o i) |- oko (?o _) => apply H
  | H : forall i, oka (?o i) |- oka (?o _) => apply H
  | H : forall i, okr (?o i) |- okr (?o _) => apply H
  | H : forall i, noq (?o i) |- noq (?o _) => apply H
  | H : okr ?r |- okr ?r => exact H
  | H : lb ?r |- lb ?r => exact H
  | H : oka ?r |- oka ?r => exact H
  | H : oko ?r |- oko ?r => exact H
  | H : noq ?r |- noq ?r => exact H
  | |- oko (OReg _) => cbn [oko]; sd
  | |- oko (OMem _) => cbn [oko]; sd
  | |- oko noOp => exact oko_noOp
  | |- noq (OReg _) => exact Logic.I
  | |- noq (OMem _) => cbn [noq]; sd
  | |- okr (ob _) => apply oko_ob; sd
  | |- okr noReg => exact okr_noR
  | |- okr (setKind _ _) => apply okr_setKind; sd
  | |- okr (cvtIdx0 _) => apply okr_cvtIdx0
  | |- okr (Reg8 (segIdx _)) => apply okr_seg
  | |- okr (if ?c then _ else _) => destruct c; sd
  | |- lb (XmmK _ _) => unfold XmmK; apply lb_regOf; sd
  | |- lb (Reg32e _ _) => unfold Reg32e; apply lb_regOf; sd
  | |- okr _ => apply okr_regOf; [sd|sd]
  | |- oka (set_immSize _ _) => apply oka_set; sd
  | |- lbv None => exact Logic.I
  | |- lbv (Some _) => cbn [lbv]; sd
  | |- lbo (OReg _) => cbn [lbo]; sd
  | |- lbo (OMem _) => cbn [lbo]; sd
  | |- lbo (if ?c then _ else _) => destruct c; sd
  | |- lbo _ => apply oko_lbo; sd
  | |- lb (if ?c then _ else _) => destruct c; sd
  | |- lb (setKind _ _) => apply lb_setKind; sd
  | |- lb (regOf _ _ _ _) => apply lb_regOf; sd
  | |- lb _ => apply okr_lb; sd
  | |- 0 <= getIdx _ < 8 => apply okr_idx; sd
  | |- 0 <= ogetIdx _ < 8 => apply okr_idx; sd
  | |- 0 <= _ < 8 => lia
  | |- True => exact Logic.I
  | |- has (getBit _ mod _) 64 = false => apply has_mod; sd
  | H : forall i, isBit (?r i) 64 = false |- has (getBit (?r _)) 64 = false => apply H
  | |- has _ _ = false => repeat match goal with |- context [if ?b then _ else _] => destruct b end; reflexivity
  | |- _ && has _ 64 = false => first [reflexivity | apply andb_false_intro2; sd]
  | |- _ = true => reflexivity
  | |- codeok _ _ = true => repeat match goal with |- context [if ?b then _ else _] => destruct b end; reflexivity
  | |- mapok _ = true => repeat match goal with |- context [if ?b then _ else _] => destruct b end; reflexivity
  | |- isREG noReg = false => reflexivity
  end.
Ltac ss := match goal with
  | |- SS (fn _ _) => apply SS_fn; ss
  | |- SS (throw _) => apply T_throw
  | |- SS (if ?c then _ else _) => destruct c eqn:?; ss
  | |- SS (match ?o with OReg _ => _ | OMem _ => _ end) => let E0 := fresh in pose proof (fun P : Operand -> Prop => eq_refl (P o)) as E0; clear E0; destruct o eqn:?; ss
  | |- SS (let '(_, _) := if ?c then _ else _ in _) => destruct c; ss
  | |- SS (let x := _ in _) => cbv zeta; ss
  | |- SS (bind (bind _ _) _) => first [apply SS_head; ss | apply SS_bind_assoc; ss]
  | |- SS (bind (db 0x66) _) => pre
  | |- SS (bind (db 0xF2) _) => pre
  | |- SS (bind (db 0xF3) _) => pre
  | |- SS (bind (ret _) _) => apply SS_ret; ss
  | |- SS (bind (when _ do db _) _) => pre
  | |- SS (bind (verifyMemHasSize _) _) => eapply SS_N; [apply Nn_vms|intros _ _; ss]
  | |- SS (bind (checkCvt1 _ _) _) => eapply SS_N; [apply Nn_checkCvt1|intros _ _; ss]
  | |- SS (bind (checkCvt2 _ _) _) => eapply SS_N; [apply Nn_checkCvt2|intros _ _; ss]
  | |- SS (bind (checkCvt4 _ _) _) => eapply SS_N; [apply Nn_checkCvt4|intros _ _; ss]
  | |- SS (bind (getImmBit _ _) _) => eapply SS_N; [apply Nn_immBit|intros ? _; ss]
  | |- SS (bind (getEncoding _ _) _) => eapply SS_N; [apply Nn_getEncoding|intros ? _; ss]
  | |- SS (bind (orEvexIf _ _ _ _) _) => eapply SS_N; [apply Nn_orEvexIf|intros ? [->| ->]; ss]
  | |- SS (bind (changeBit _ _) _) => eapply SS_N; [apply Nn_setBit; [sd|first [reflexivity|nb]]|intros ? ?; ss]
  | |- SS (bind (cvt32 _) _) => eapply SS_N; [apply Nn_cvt32; sd|intros ? ?; ss]
  | |- SS (bind (cvt16 _) _) => eapply SS_N; [apply Nn_cvt16; sd|intros ? ?; ss]
  | |- SS (bind (opROO _ _ _ _ _ _ _) _) => eapply SS_N; [apply Nn_opROO; sd|intros ? ->; cbv iota; ss]
  | |- SS (bind _ _) => apply SS_head; ss
  | |- SS (db _) => apply SS_db; sd
  | |- SS (opRR _ _ _ _) => apply SL_SS, SL_opRR; sd
  | |- SS (opMR _ _ _ _ _ _) => apply SL_SS, SL_opMR; sd
  | |- SS (opLoadSeg _ _ _ _) => apply SL_SS, SL_opLoadSeg; sd
  | |- SS (opMIB _ _ _ _) => apply SL_SS, SL_opMIB; sd
  | |- SS (opRext _ _ _ _ _ _ _ _) => apply SL_SS, SL_opRext; sd
  | |- SS (opRO _ _ _ _ _ _) => apply SL_SS, SL_opRO; sd
  | |- SS (opSSE _ _ _ _ _ _) => apply SL_SS, SL_opSSE; sd
  | |- SS (opMMX_IMM _ _ _ _) => apply SL_SS, SL_opMMX_IMM; sd
  | |- SS (opMMX _ _ _ _ _ _) => apply SL_SS, SL_opMMX; sd
  | |- SS (opMovXMM _ _ _ _) => apply SL_SS, SL_opMovXMM; sd
  | |- SS (opExt _ _ _ _ _) => apply SL_SS, SL_opExt; sd
  | |- SS (opSetCC _ _) => apply SL_SS, SL_opSetCC; sd
  | |- SS (opShift _ _ _ _) => apply SL_SS, SL_opShift; sd
  | |- SS (opShiftCL _ _ _ _) => apply SL_SS, SL_opShiftCL; sd
  | |- SS (opShxd _ _ _ _ _ _ _) => apply SL_SS, SL_opShxd; sd
  | |- SS (opRO_MR _ _ _) => apply SL_SS, SL_opRO_MR; sd
  | |- SS (opOI _ _ _ _) => apply SL_SS, SL_opOI; sd
  | |- SS (opMovxx _ _ _) => apply SL_SS, SL_opMovxx; sd
  | |- SS (opFpuMem _ _ _ _ _ _) => apply SL_SS, SL_opFpuMem; sd
  | |- SS (opRRO _ _ _ _ _ _) => apply SS_opRRO; sd
  | |- SS (opVex _ _ _ _ _ _) => apply SS_opVex; sd
  | |- SS (opAVX_X_X_XM _ _ _ _ _ _) => apply SS_opAVX_X_X_XM; sd
  | |- SS (opAVX_K_X_XM _ _ _ _ _ _) => apply SS_opAVX_K_X_XM; sd
  | |- SS (opCvt _ _ _ _) => apply SS_opCvt; sd
  | |- SS (opCvt2 _ _ _ _) => apply SS_opCvt2; sd
  | |- SS (opCvt3 _ _ _ _ _ _ _) => apply SS_opCvt3; sd
  | |- SS (opCvt5 _ _ _ _) => apply SS_opCvt5; sd
  | |- SS (opCvt6 _ _ _ _ _) => apply SS_opCvt6; sd
  | |- SS (opAVX_X_XM_IMM _ _ _ _ _) => apply SS_opAVX_X_XM_IMM; sd
  | |- SS (opCnt _ _ _) => apply SL_SS, SL_opCnt; sd
  | |- SS (opGather _ _ _ _ _ _) => apply SS_opGather; sd
  | |- SS (opGather2 _ _ _ _ _) => apply SS_opGather2; sd
  | |- SS (opVmov _ _ _ _ _) => apply SS_opVmov; sd
  | |- SS (opGatherFetch _ _ _ _ _) => apply SS_opGatherFetch; sd
  | |- SS (opEncoding _ _ _ _ _ _ _ _ _ _) => apply SS_opEncoding; sd
  | |- SS (opKmov _ _ _ _) => apply SS_opKmov; sd
  | |- SS (opEncodeKey _ _ _ _) => apply SL_SS, SL_opEncodeKey; sd
  | |- SS (opSSE_APX _ _ _ _ _ _ _) => apply SL_SS, SL_opSSE_APX; sd
  | |- SS (opAVX10ZeroExt _ _ _ _ _ _) => apply SS_opAVX10ZeroExt; sd
  | |- SS (vmovd _ _ _) => apply SS_opAVX10ZeroExt; sd
  | |- SS (vmovw _ _ _) => apply SS_opAVX10ZeroExt; sd
  | |- SS (test_ _ _) => apply SL_SS, SL_test; sd
  | |- SS (test_imm _ _) => apply SL_SS, SL_test_imm; sd
  | |- SS (imul_imm _ _ _) => apply SL_SS, SL_imul_imm; sd
  | |- SS (mov_oi _ _) => apply SL_SS, SL_mov_oi; sd
  | |- SS (mov_o_seg _ _) => apply SL_SS, SL_mov_o_seg; sd
  | |- SS (mov_seg_o _ _) => apply SL_SS, SL_mov_seg_o; sd
  end
with pre := apply SL_SS; sl
with sl := match goal with
  | |- SL (bind (db ?b) _) => first [eapply SL_pre; [apply (Pp_db b (fun _ => True)); [reflexivity|exact Logic.I]|intros _ _; sl] | apply SL_head, SL_op; reflexivity]
  | |- SL (bind (when _ do db _) _) => eapply SL_pre; [apply Pp_when; reflexivity|intros _ _; sl]
  | |- SL (bind _ _) => apply SL_head; sl
  | |- SL (opRR _ _ _ _) => apply SL_opRR; sd
  | |- SL (opMR _ _ _ _ _ _) => apply SL_opMR; sd
  | |- SL (opRO _ _ _ _ _ _) => apply SL_opRO; sd
  | |- SL (opSSE _ _ _ _ _ _) => apply SL_opSSE; sd
  end
with nb := match goal with H : negb (isBit (ob ?o) _) = false |- (getBit (ob ?o) =? 64) = false => apply (bit_not64 _ _ H); reflexivity end.
Lemma start_row apx small x : (forall o a r n e s, (forall i, oko (o i)) -> (forall i, oka (a i)) -> (forall i, okr (r i)) -> SS (b_call32 x (mkArgs o a r n e s))) -> entry_alike apx small x.
Proof.
  intros H _ [o a r n e s] (Ho & Ha & Hr & _) (Bo & Ba & Br) _. cbn [ar_o ar_a ar_r] in *. apply alike_both, SS_alike, H; intros i.
  - now apply oko_op32. - now split. - now apply okr_reg32.
Qed.
Lemma small_row apx small x : existsb (String.eqb (b_name x)) small = true ->
  (forall o a r n e s, (forall i, oko (o i)) -> (forall i, oka (a i)) -> (forall i, okr (r i)) -> (forall i, noq (o i)) -> (forall i, isBit (r i) 64 = false) -> SS (b_call32 x (mkArgs o a r n e s))) -> entry_alike apx small x.
Proof.
  intros S0 H _ [o a r n e s] (Ho & Ha & Hr & _) (Bo & Ba & Br) Q. specialize (Q S0). cbn [ar_o ar_a ar_r] in *. apply alike_both, SS_alike, H; [| | |exact (proj1 Q)|exact (proj2 Q)]; intros i.
  - now apply oko_op32. - now split. - now apply okr_reg32.
Qed.
