(* Property theorems C46: names of registers, the predefined register and memory-size objects, and the comparison of operands.
   [toString], [operand_eqb] are the model (Names.v); [members] .. [util_members] are the declarations of CodeGenerator and of namespace
   util (NameTables.v); [arch_name], [unmodified] the specification (SpecNames.v). *)
From Coq Require Import ZArith List Bool String Lia.
From Verif Require Import Base Types Emit Encode Mnemonic MnemonicAvx NameTables Names SpecX86 SpecAddr SpecReg Wf SpecNames NamesProofs EmitFacts.
Import ListNotations.
Open Scope Z_scope.

(* every register has its architectural name *)
Theorem C46_names : forall r, arch_reg r -> toString (OReg r) = Str (arch_name r).
Proof. exact names. Qed.
Print Assumptions C46_names.
Example C46_names_ex : map (fun r => toString (OReg r)) [Reg8 4; regOf 4 REG 8 true; Reg16 5; Reg32 19; Reg64 0; Zmm 31; Tmm 7]
  = [Str "ah"; Str "spl"; Str "bp"; Str "r19d"; Str "rax"; Str "zmm31"; Str "tmm7"]%string.
Proof. reflexivity. Qed.
(* and no two registers have the same name *)
Theorem C46_names_distinct : forall r q, arch_reg r -> arch_reg q -> toString (OReg r) = toString (OReg q) ->
  kind_ r = kind_ q /\ bit_ r = bit_ q /\ idx_ r = idx_ q.
Proof. exact names_distinct. Qed.
Print Assumptions C46_names_distinct.
(* operands without a name *)
Theorem C46_no_name : forall o, kind_ (ob o) = 0 \/ kind_ (ob o) = MEM -> toString o = StrErr ERR_INTERNAL.
Proof. exact no_name. Qed.
Print Assumptions C46_no_name.
Example C46_no_name_ex : toString (OMem (address0 32 false (regExpDisp 0))) = StrErr ERR_INTERNAL.
Proof. apply C46_no_name. right. reflexivity. Qed.

(* the members eax, xmm3 ... of CodeGenerator are the registers they are called after; xm3 is xmm3 *)
Theorem C46_members : Forall (fun x => toString (OReg (snd x)) = Str (fst x)) members.
Proof. exact members_ok. Qed.
Print Assumptions C46_members.
Theorem C46_shorthands : Forall (fun x => toString (OReg (snd x)) = Str (long_name (fst x))) shorthands.
Proof. exact shorthands_ok. Qed.
Print Assumptions C46_shorthands.
(* ptr, byte, word ... have the sizes of their names; the ones in _b broadcast *)
Theorem C46_frames : Forall (fun x => frame_size (fst x) = Some (snd x)) (frames ++ util_frames).
Proof. exact frames_ok. Qed.
Print Assumptions C46_frames.
Theorem C46_util_partial : Forall (fun x => is_tmm (fst x) = false -> toString (OReg (snd x)) = Str (fst x)) util_members.
Proof. exact util_ok. Qed.
Print Assumptions C46_util_partial.
(* xbyak.h:3381: util::tmm0 .. util::tmm7 are declared as Zmm *)
Theorem C46_util_tmm_refuted : In ("tmm1", Zmm 1)%string util_members /\ In ("tmm1", Tmm 1)%string members
  /\ toString (OReg (Zmm 1)) = Str "zmm1".
Proof. split; [|split; [|reflexivity]]; eapply nth_error_In with (n := 257%nat); vm_compute; reflexivity. Qed.
Print Assumptions C46_util_tmm_refuted.
(* the constants B00000000 .. B11111111 are the numbers 0 .. 255 they spell in binary *)
Theorem C46_binary_constants : Forall (fun x => bin_name (fst x) = Some (snd x)) binConstants /\ map snd binConstants = upto 256 0.
Proof. exact bin_ok. Qed.
Print Assumptions C46_binary_constants.

(* operator== is an equivalence *)
Theorem C46_equality : (forall x, operand_eqb x x = true) /\ (forall x y, operand_eqb x y = true -> operand_eqb y x = true)
  /\ forall x y z, object x -> object y -> object z -> operand_eqb x y = true -> operand_eqb y z = true -> operand_eqb x z = true.
Proof. exact (conj op_refl (conj op_sym op_trans)). Qed.
Print Assumptions C46_equality.
(* and identity for operands without NF, ZU and, in memory operands, without {k}, {z} and rounding *)
Theorem C46_same_partial : forall x y, unmodified x -> unmodified y -> (operand_eqb x y = true <-> x = y).
Proof. exact op_same. Qed.
Print Assumptions C46_same_partial.
Example C46_same_ex : unmodified (OReg (Reg64 3)) /\ unmodified (OMem (address0 32 false (mkRegExp (Reg64 0) (Reg64 1) 4 8))).
Proof. repeat split; cbn; discriminate. Qed.
(* operands that compare equal and give different code: ecx | T_nf and ecx *)
Definition env0 := mkEnv false 0x400000 false false VexEncoding PreAVX10v2Encoding.
Theorem C46_nf_refuted : operand_eqb (OReg (setNF (Reg32 1))) (OReg (Reg32 1)) = true
  /\ exists its its', emits (i_add_roo (setNF (Reg32 1)) (OReg (Reg32 2)) (OReg (Reg32 3))) env0 0 its tt
     /\ emits (i_add_roo (Reg32 1) (OReg (Reg32 2)) (OReg (Reg32 3))) env0 0 its' tt
     /\ render (fun _ _ _ => 0) its <> render (fun _ _ _ => 0) its'.
Proof. split; [reflexivity|]. eexists; eexists. split; [split; reflexivity|]. split; [split; reflexivity|]. vm_compute. discriminate. Qed.
Print Assumptions C46_nf_refuted.
(* ptr[rax] | k1 and ptr[rax] *)
Theorem C46_memory_mask_refuted : let a := address0 0 false (mkRegExp (Reg64 0) noReg 0 0) in
  exists m, returns (addrOrOpmask a (Opmask 1)) env0 0 m /\ operand_eqb (OMem m) (OMem a) = true
  /\ exists its its', emits (i_vmovaps_ax m (Zmm 0)) env0 0 its tt /\ emits (i_vmovaps_ax a (Zmm 0)) env0 0 its' tt
     /\ render (fun _ _ _ => 0) its <> render (fun _ _ _ => 0) its'.
Proof.
  eexists. split; [reflexivity|]. split; [reflexivity|]. eexists; eexists. split; [split; reflexivity|]. split; [split; reflexivity|].
  vm_compute. discriminate.
Qed.
Print Assumptions C46_memory_mask_refuted.
(* changeBit lets zmm31 become "tmm31" (xbyak.h:738-784), whose name is read outside the table *)
Theorem C46_tile_name_refuted : exists r, returns (changeBit (Zmm 31) 8192) env0 0 r /\ toString (OReg r) = StrUB.
Proof. eexists. split; reflexivity. Qed.
Print Assumptions C46_tile_name_refuted.
