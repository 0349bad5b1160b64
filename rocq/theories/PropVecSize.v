(* Property theorems C18: sizes of the register operands of conversions between element sizes. *)
From Coq Require Import ZArith List Bool String Lia.
From Verif Require Import Base Types Emit EmitFacts Encode Mnemonic MnemonicAvx SpecIsa Wf ExecFacts ArgCheck VecSize.
Import ListNotations.
Open Scope list_scope.
Open Scope Z_scope.

(* conversions and truncations to elements n times smaller: the registers taken are exactly those where the result takes
   1/n of a register, at least an xmm register; without modifiers they are always taken *)
Theorem C18_narrowing : Forall narrowing narrow_table.
Proof. exact narrow_all. Qed.
Print Assumptions C18_narrowing.
(* conversions to elements n times larger *)
Theorem C18_widening : Forall widening widen_table.
Proof. exact widen_all. Qed.
Print Assumptions C18_widening.
Definition env_x := mkEnv false 0x400000 false false VexEncoding PreAVX10v2Encoding.
Definition bytes (m : E unit) : list Z := render (fun _ _ _ => 0) (fst (m env_x 0)).
Example C18_narrowing_instances : List.length narrow_table = 38%nat /\ List.length widen_table = 20%nat
  /\ vec_reg (Ymm 3) /\ vec_reg (Zmm 20) /\ bit_ (Ymm 3) = part 2 (bit_ (Zmm 20)) /\ bit_ (Xmm 3) = part 8 (bit_ (Zmm 20))
  /\ snd (i_vpmovqd (OReg (Ymm 3)) (Zmm 20) env_x 0) = Ok tt /\ snd (i_vpmovqd (OReg (Xmm 3)) (Zmm 20) env_x 0) = Err ERR_BAD_COMBINATION
  /\ snd (i_vcvtdq2pd (Zmm 3) (OReg (Ymm 2)) env_x 0) = Ok tt /\ snd (i_vcvtdq2pd (Zmm 3) (OReg (Zmm 2)) env_x 0) = Err ERR_BAD_COMBINATION.
Proof. do 2 (split; [reflexivity|]). do 2 (split; [apply vec_regb_ok; reflexivity|]). repeat split. Qed.
(* Refuted elsewhere: the sign and zero extensions and the three-operand instructions take a last operand of any size;
   a zmm register makes the whole instruction a 512-bit one.  vpmovsxbd(xmm1, zmm2) is vpmovsxbd zmm1, xmm2;
   vaddps(xmm1, xmm2, zmm3) is vaddps zmm1, zmm2, zmm3 *)
Theorem C18_widened_destination_refuted :
  bytes (i_vpmovsxbd (Xmm 1) (OReg (Zmm 2))) = bytes (i_vpmovsxbd (Zmm 1) (OReg (Xmm 2)))
  /\ snd (i_vpmovsxbd (Xmm 1) (OReg (Zmm 2)) env_x 0) = Ok tt
  /\ bytes (i_vaddps (Xmm 1) (OReg (Xmm 2)) (OReg (Zmm 3))) = bytes (i_vaddps (Zmm 1) (OReg (Zmm 2)) (OReg (Zmm 3)))
  /\ snd (i_vaddps (Xmm 1) (OReg (Xmm 2)) (OReg (Zmm 3)) env_x 0) = Ok tt.
Proof. repeat split. Qed.
Print Assumptions C18_widened_destination_refuted.
