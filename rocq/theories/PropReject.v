(* Property theorems C57: calls with operands that the instruction does not have are rejected (SpecReject): exactly which ones are
   not. *)
From Coq Require Import ZArith List Bool String Lia.
From Verif Require Import Base Types Emit EmitFacts Encode Mnemonic MnemonicAvx SpecX86 SpecAddr SpecIsa SpecInsn SpecLeg SpecMix Wf ArgCheck LegTables LegTables2 MixTables MixTables2 LegGpr2 SpecAccept Accept SpecReject Params Reject RejectVec.
Import ListNotations.
Open Scope string_scope.
Open Scope list_scope.
Open Scope Z_scope.

(* legacy methods, operands of every kind and size that the parameter types admit: what no row has and is not listed is rejected *)
Theorem C57_rejected_partial : forall name f ps n ops act, In (name, f, ps) callables -> In n [1; 12] -> In ops (prod (map (operands n) ps)) -> f ops 1 = Some act ->
  legal (rows_of name) ops = false -> listed name ops = false -> ~ accepted act.
Proof. intros name f ps n ops act H Hn Ho Hf L Q A. apply (exact name f ps n ops act H Hn Ho Hf L) in A. rewrite Q in A. discriminate. Qed.
Print Assumptions C57_rejected_partial.
(* the list is exact: cmova(xmm1, eax), add(xmm1, xmm2), seta(dword [rcx]), div(tword [rcx]), lea(mm1, [rcx]), rdrand(xmm1), movd(xmm1, qword [rcx]), psllw(ymm1, 1) .. are accepted *)
Theorem C57_listed_refuted : forall name f ps n ops act, In (name, f, ps) callables -> In n [1; 12] -> In ops (prod (map (operands n) ps)) -> f ops 1 = Some act ->
  legal (rows_of name) ops = false -> listed name ops = true -> accepted act.
Proof. intros name f ps n ops act H Hn Ho Hf L Q. apply (exact name f ps n ops act H Hn Ho Hf L). exact Q. Qed.
Print Assumptions C57_listed_refuted.
(* and are another instruction: add(xmm1, xmm2) is add ecx, edx; cmova(xmm1, edx) is cmova ecx, edx; imul(cl, dl) is imul ecx, edx; div(tword [m]) is div qword [m], div(zword [m]) is div dword [m]; movzx(cl, [m]) is movzx ecx, byte [m]; rdrand(mm1) is rdrand rcx; pshufw(xmm1, xmm2, 1) is pshufw mm1, mm2, 1; fild(tword [m]) is fild qword [m] *)
Theorem C57_alike_refuted : forall name ops ops', In (name, ops, ops') alike ->
  legal (rows_of name) ops = false /\ legal (rows_of name) ops' = true /\ exists its, emitted name ops = Some its /\ emitted name ops' = Some its.
Proof. exact alike_ok. Qed.
Print Assumptions C57_alike_refuted.
(* vector methods: the registers in ModRM.reg and vvvv have to be equally long *)
Theorem C57_vector_lengths : forall e ops act, In e (methods DefaultEncoding) -> two_vectors e = true -> In ops (prod (choices (vectors 7 ++ [memory false 1 0]) 1 (en_sig e))) ->
  en_fun e ops 1 = Some act -> accepted act -> lengths_agree (en_name e) ops = true.
Proof. exact lengths_checked. Qed.
Print Assumptions C57_vector_lengths.
(* the register file of an operand of type Operand is not looked at (xbyak.h:2548, opAVX_X_X_XM; opAVX_X_XM_IMM): 646 methods accept an opmask register; vaddps(xmm1, xmm2, k7), vaddps(xmm1, xmm2, edi), vaddps(xmm1, xmm2, st7) are vaddps xmm1, xmm2, xmm7 *)
Theorem C57_vector_file_refuted :
  List.length (filter takes_mask (filter has_operand (methods DefaultEncoding))) = 646%nat
  /\ forall e ops its, In e (methods DefaultEncoding) -> has_operand e = true -> existsb (String.eqb (en_name e)) general_source = false ->
       In ops (prod (choices odds 1 (en_sig e))) -> emit e ops = Some its -> emit e (with_xmm (en_sig e) ops) = Some its.
Proof. split; [exact ignoring|exact file_ignored]. Qed.
Print Assumptions C57_vector_file_refuted.

(* ---- instances ---- *)
(* the parameter types are those of the methods of the tables; how many calls there are, how many the instructions have, how many are listed *)
Example C57_params : map le_name (legacy_table ++ gpr_table) = map fst leg_params /\ map me_name (mix_table ++ mix2_table ++ wait_table) = map fst mix_params.
Proof. exact params_fit. Qed.
Definition calls (c : string * insn * list ptype) : list (bool * bool) :=
  let '(name, f, ps) := c in let rows := rows_of name in
  map (fun ops => (legal rows ops, listed name ops)) (filter (fun ops => match f ops 1 with Some _ => true | None => false end) (prod (map (operands 1) ps))).
Example C57_counts : let l := flat_map calls callables in
  (Z.of_nat (List.length callables), Z.of_nat (List.length l), Z.of_nat (List.length (filter fst l)), Z.of_nat (List.length (filter (fun p => negb (fst p) && snd p) l))) = (508, 76965, 8667, 6719).
Proof. vm_compute. reflexivity. Qed.
Example C57_vector_counts : (List.length (filter two_vectors (methods DefaultEncoding)), List.length (filter has_operand (methods DefaultEncoding))) = (501, 784)%nat.
Proof. vm_compute. reflexivity. Qed.
(* vaddps(xmm1, xmm2, k7) *)
Example C57_vaddps : let f := rro (fun d v o => i_vaddps d (OReg v) o) in
  match f [OReg (Xmm 1); OReg (Xmm 2); OReg (Opmask 7)] 1, f [OReg (Xmm 1); OReg (Xmm 2); OReg (Xmm 7)] 1 with
  | Some a, Some b => accepted a /\ fst (a env0 0) = fst (b env0 0) | _, _ => False end.
Proof. cbv beta iota zeta delta [rro]. split; [apply acc_ok; vm_compute; reflexivity|vm_compute; reflexivity]. Qed.
