(* The two-operand form of the methods vop(x, op1, op2 = Operand()): vop(x, op) is vop(x, x, op). *)
From Coq Require Import ZArith List Bool.
From Verif Require Import Base Types Emit Encode Mnemonic MnemonicAvx.
Import ListNotations.
Open Scope Z_scope.

Definition shorthand (P : Operand -> Prop) (f : Reg -> Operand -> Operand -> E unit) : Prop :=
  forall x op env pos, P op -> f x op (OReg noReg) env pos = f x (OReg x) op env pos.
Definition given (op : Operand) : Prop := isNone (ob op) = false.
Definition given_mem (op : Operand) : Prop := isNone (ob op) = false /\ isMEM op = true.
Definition two_operand : list (Reg -> Operand -> Operand -> E unit) := [
  i_vaddps; i_vaddpd; i_vaddss; i_vaddsd; i_vaddph; i_vaddsh;
  i_vmulps; i_vmulpd; i_vmulss; i_vmulsd; i_vmulph; i_vmulsh;
  i_vsubps; i_vsubpd; i_vsubss; i_vsubsd; i_vsubph; i_vsubsh;
  i_vminps; i_vminpd; i_vminss; i_vminsd; i_vminph; i_vminsh;
  i_vdivps; i_vdivpd; i_vdivss; i_vdivsd; i_vdivph; i_vdivsh;
  i_vmaxps; i_vmaxpd; i_vmaxss; i_vmaxsd; i_vmaxph; i_vmaxsh;
  i_vaddsubpd; i_vaddsubps; i_vhaddpd; i_vhaddps; i_vhsubpd; i_vhsubps;
  i_vandps; i_vandpd; i_vandnps; i_vandnpd; i_vorps; i_vorpd;
  i_vxorps; i_vxorpd; i_vaesenc; i_vaesenclast; i_vaesdec; i_vaesdeclast].
Definition two_operand_mem : list (Reg -> Operand -> Operand -> E unit) := [i_vmovhps_xoo; i_vmovhpd_xoo; i_vmovlps_xoo; i_vmovlpd_xoo].
Lemma xxxm_short x op type code imm8 : isNone (ob op) = false ->
  opAVX_X_X_XM x op (OReg noReg) type code imm8 = opAVX_X_X_XM x (OReg x) op type code imm8.
Proof. intros H. unfold opAVX_X_X_XM. rewrite H. reflexivity. Qed.
Lemma two_operand_lemma : Forall (shorthand given) two_operand.
Proof. unfold two_operand. do 54 (apply Forall_cons; [intros x op env pos H; refine (f_equal (fun m => m env pos) (xxxm_short x op _ _ _ H))|]). apply Forall_nil. Qed.
Lemma two_operand_mem_lemma : Forall (shorthand given_mem) two_operand_mem.
Proof.
  unfold two_operand_mem.
  do 4 (apply Forall_cons; [intros x op env pos [H M]; match goal with |- ?f _ _ _ _ _ = _ => unfold f end; rewrite H, M; cbn [negb andb ob isNone noReg];
    unfold fn; rewrite (xxxm_short x op _ _ _ H); reflexivity|]). apply Forall_nil.
Qed.
