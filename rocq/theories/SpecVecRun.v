(* Specification: what it means for a vector method to execute as an instruction of SpecVec. *)
From Coq Require Import ZArith List Bool String.
From Verif Require Import Base Types Emit EmitFacts SpecX86 SpecAddr SpecIsa SpecInsn Wf SpecExec SpecVec.
Import ListNotations.
Open Scope Z_scope.

Definition zero_ok (ops : list Operand) : Prop := existsb ozero ops = true -> match ops with OReg r :: _ => opmask r = false | _ => False end.
Definition has_imm (row : vrow) : bool := existsb (slot_eqb SI) (r_enc row).
Definition rounds (ops : list Operand) : Prop := ~ Forall (fun o => ornd o = 0) ops.
(* Whatever the method emits executes as the meaning m with the operands as written, and execution continues behind it.
   Operands: no general registers; {z} only with a vector register as destination; rounding modifiers only if rc, and with
   512 bits or one lane. *)
Definition executes (rc : bool) (isa : list (vrow * meaning)) (e : entry) (m : meaning) : Prop :=
  forall s ops imm act env pos its rest u rip x,
    let vl := vl_of (en_vl e) (en_row e) ops in
    en_fun e ops imm = Some act -> Forall2 arg_ok (en_sig e) ops -> one_mask ops ->
    Forall (fun o => width o <= vl) ops -> (forall r, In (OReg r) ops -> ~ gpr r) -> zero_ok ops ->
    (rc = false -> Forall (fun o => ornd o = 0) ops) -> (rounds ops -> vl = 512 \/ one_lane m = true) -> 0 <= imm < 256 ->
    emits act env pos its u ->
    vexec isa rip (render s its ++ rest) x = Some (rest, means m vl (if has_imm (en_row e) then imm else 0) ops x).
