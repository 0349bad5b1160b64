(* Property theorems C42: pseudo-operations, alternative names and omitted operands stand for the instruction their
   name says.  The predicates and the meaning of the names are in SpecAlias.v. *)
From Coq Require Import ZArith List Bool String Lia.
From Verif Require Import Base Types Emit Encode Mnemonic MnemonicAvx MnemonicOmit SpecX86 SpecAddr SpecIsa SpecInsn SpecLeg Wf EmitFacts ArgCheck IsaRows
  SpecAlias AliasTables AliasFacts.
Import ListNotations.
Open Scope Z_scope.
Open Scope string_scope.

(* each pseudo-operation is the comparison of its type with the predicate of its name *)
Theorem C42_compare_pseudo_ops :
  Forall (compares sse_compare_base "cmp") sse_compare /\ Forall (compares avx_compare_base "vcmp") avx_compare
  /\ Forall (compares mask_compare_base "vcmp") mask_compare.
Proof. exact (conj sse_compare_ok (conj avx_compare_ok mask_compare_ok)). Qed.
Print Assumptions C42_compare_pseudo_ops.
(* so the bytes are CMPcc with an immediate whose predicate is the one of the name: for SSE one of the first eight, *)
Theorem C42_sse_compare_bytes : forall name r sf t f, In (name, (r, sf, t), f) sse_compare ->
  forall s x op env pos its rest u,
    larg_ok tX (OReg x) -> larg_ok tOx op -> lbare (OReg x) -> lbare op -> high_ok [OReg x; op] ->
    emits (f (x, op)) env pos its u ->
    exists imm, predicate imm = Some (name_pred r sf) /\ 0 <= imm < 8 /\ lsays (sse_row t) [OReg x; op] imm (render s its) rest.
Proof. exact sse_compare_lemma. Qed.
Print Assumptions C42_sse_compare_bytes.
(* VEX.VCMPcc *)
Theorem C42_avx_compare_bytes : forall name r sf t f, In (name, (r, sf, t), f) avx_compare ->
  forall s x1 x2 op env pos its rest u,
    let ops := [OReg x1; OReg x2; op] in
    arg_ok cX (OReg x1) -> arg_ok cX (OReg x2) -> arg_ok cO op -> one_mask ops ->
    Forall (fun o => width o <= vl_of VlRegs (avx_row t) ops) ops ->
    emits (f (x1, x2, op)) env pos its u ->
    exists imm, predicate imm = Some (name_pred r sf) /\ says (avx_row t) (vl_of VlRegs (avx_row t) ops) ops imm (render s its) rest.
Proof. exact avx_compare_lemma. Qed.
Print Assumptions C42_avx_compare_bytes.
(* EVEX.VCMPcc into an opmask register *)
Theorem C42_mask_compare_bytes : forall name r sf t f, In (name, (r, sf, t), f) mask_compare ->
  forall s k x op env pos its rest u,
    let ops := [OReg k; OReg x; op] in
    arg_ok cK (OReg k) -> arg_ok cX (OReg x) -> arg_ok cO op -> one_mask ops ->
    Forall (fun o => width o <= vl_of VlRegs (mask_row t) ops) ops ->
    emits (f (k, x, op)) env pos its u ->
    exists imm, predicate imm = Some (name_pred r sf) /\ says (mask_row t) (vl_of VlRegs (mask_row t) ops) ops imm (render s its) rest.
Proof. exact mask_compare_lemma. Qed.
Print Assumptions C42_mask_compare_bytes.
(* vcmpnge_uqsd k3, xmm20, [rax]: true if less than or unordered, quiet *)
Example C42_compare_example :
  name_pred Rnge Uq = mkPred false true false true false
  /\ In ("vcmpnge_uqsd", (Rnge, Uq, Fsd), fun '(k, x, op) => i_vcmpnge_uqsd_kxo k x op) mask_compare
  /\ let m := OMem (address0 0 false (mkRegExp (Reg64 0) noReg 0 0)) in
     let ops := [OReg (Opmask 3); OReg (Xmm 20); m] in
     Forall2 arg_ok [cK; cX; cO] ops /\ one_mask ops
     /\ Forall (fun o => width o <= vl_of VlRegs (mask_row Fsd) ops) ops
     /\ exists its, emits (i_vcmpnge_uqsd_kxo (Opmask 3) (Xmm 20) m) (mkEnv false 0x400000 false false VexEncoding PreAVX10v2Encoding) 0 its tt
        /\ render (fun _ _ _ => 0) its = [0x62; 0xF1; 0xDF; 0x00; 0xC2; 0x18; 25].
Proof.
  split; [reflexivity|]. split; [|cbv zeta; split; [|split; [|split]]].
  - apply (nth_error_In _ 74). reflexivity.
  - apply args_okb_ok. reflexivity.
  - apply one_mask_none. reflexivity.
  - repeat constructor; cbn; lia.
  - eexists; split; [split; reflexivity|reflexivity].
Qed.
(* pclmulhqlqdq ...: the quadwords of the name *)
Theorem C42_clmul_pseudo_ops :
  Forall (multiplies sse_clmul_base "pclmul") sse_clmul /\ Forall (multiplies avx_clmul_base "vpclmul") avx_clmul.
Proof. exact (conj sse_clmul_ok avx_clmul_ok). Qed.
Print Assumptions C42_clmul_pseudo_ops.
(* op(x, ...) is op(x, x, ...): XBYAK_ENABLE_OMITTED_OPERAND *)
Theorem C42_omitted_operand : Forall omits omitted_xo /\ Forall omits omitted_xoi /\ Forall omits omitted_xox /\ Forall omits omitted_xi.
Proof. exact (conj omitted_xo_ok (conj omitted_xoi_ok (conj omitted_xox_ok omitted_xi_ok))). Qed.
Print Assumptions C42_omitted_operand.
(* and, or, xor, not are and_, or_, xor_, not_ *)
Theorem C42_operator_names :
  (forall a b, i_and_oo a b = i_and__oo a b) /\ (forall a b, i_or_oo a b = i_or__oo a b) /\ (forall a b, i_xor_oo a b = i_xor__oo a b)
  /\ (forall a n, i_and_oi a n = i_and__oi a n) /\ (forall a n, i_or_oi a n = i_or__oi a n) /\ (forall a n, i_xor_oi a n = i_xor__oi a n)
  /\ (forall a, i_not a = i_not__o a).
Proof. exact operator_names_lemma. Qed.
Print Assumptions C42_operator_names.
Example C42_table_sizes : (List.length sse_compare, List.length avx_compare, List.length mask_compare, List.length omitted_xo) = (32, 128, 128, 221)%nat.
Proof. reflexivity. Qed.
