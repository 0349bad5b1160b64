(* Specification: the remaining legacy-encoded methods (operands of different register files, fixed memory operands,
   x87 and system instructions with an address).  Rows and their meaning are those of SpecLeg.v; the classes of
   arguments are finer.  Independent of xbyak. *)
From Coq Require Import ZArith List Bool String.
From Verif Require Import Base Types Emit EmitFacts SpecX86 SpecAddr SpecIsa SpecInsn SpecLeg Wf.
Import ListNotations.
Open Scope Z_scope.

(* aX: xmm0 .. xmm31; aMm: mm0 .. mm7; aR: a general register of one of the widths; aB: bnd0 .. bnd3;
   aM: memory declared with one of the sizes (0: no size); aAny: any register; aOr: one of two classes; aLow c: c
   without registers r16 .. r31 and modifiers of APX *)
Inductive mcls := aX | aMm | aR (widths : list Z) | aB | aM (sizes : list Z) | aAny | aOr (c1 c2 : mcls) | aLow (c : mcls).
Fixpoint marg_ok (c : mcls) (o : Operand) : Prop :=
  match c with
  | aX => match o with OReg r => vec_reg r /\ kind_ r = XMM | _ => False end
  | aMm => match o with OReg r => mmx_reg r | _ => False end
  | aR l => match o with OReg r => gpr r /\ In (bit_ r) l | _ => False end
  | aB => match o with OReg r => bnd_reg r | _ => False end
  | aM l => match o with OMem a => mem_ok a /\ In (bit_ (a_op a)) l | _ => False end
  | aAny => match o with OReg r => any_reg r | _ => False end
  | aOr c1 c2 => marg_ok c1 o \/ marg_ok c2 o
  | aLow c => marg_ok c o /\ low_regs o
  end.
Record mentry := mkME { me_name : string; me_sig : list mcls; me_fun : insn; me_rows : list lrow }.
(* whatever the method emits is the instruction of one of the rows *)
Definition mimplements (e : mentry) : Prop :=
  forall s ops imm act env pos its rest u,
    me_fun e ops imm = Some act -> Forall2 marg_ok (me_sig e) ops -> Forall lbare ops ->
    Forall (fun row => imm_in (l_imm row) imm) (me_rows e) ->
    emits act env pos its u ->
    Exists (fun row => lsays row ops imm (render s its) rest) (me_rows e).
(* argument lists *)
Definition f_a (f : Address -> E unit) : insn := fun ops imm => match ops with [OMem a] => Some (f a) | _ => None end.
Definition f_r (f : Reg -> E unit) : insn := fun ops imm => match ops with [OReg r] => Some (f r) | _ => None end.
Definition f_ri (f : Reg -> Z -> E unit) : insn := fun ops imm => match ops with [OReg r] => Some (f r imm) | _ => None end.
Definition f_rr (f : Reg -> Reg -> E unit) : insn := fun ops imm => match ops with [OReg r1; OReg r2] => Some (f r1 r2) | _ => None end.
Definition f_rri (f : Reg -> Reg -> Z -> E unit) : insn := fun ops imm => match ops with [OReg r1; OReg r2] => Some (f r1 r2 imm) | _ => None end.
Definition f_ra (f : Reg -> Address -> E unit) : insn := fun ops imm => match ops with [OReg r; OMem a] => Some (f r a) | _ => None end.
Definition f_ar (f : Address -> Reg -> E unit) : insn := fun ops imm => match ops with [OMem a; OReg r] => Some (f a r) | _ => None end.
Definition f_ro (f : Reg -> Operand -> E unit) : insn := fun ops imm => match ops with [OReg r; o] => Some (f r o) | _ => None end.
Definition f_or (f : Operand -> Reg -> E unit) : insn := fun ops imm => match ops with [o; OReg r] => Some (f o r) | _ => None end.
Definition f_roi (f : Reg -> Operand -> Z -> E unit) : insn := fun ops imm => match ops with [OReg r; o] => Some (f r o imm) | _ => None end.
Definition f_ori (f : Operand -> Reg -> Z -> E unit) : insn := fun ops imm => match ops with [o; OReg r] => Some (f o r imm) | _ => None end.
(* any register, or memory *)
Definition anyM (l : list Z) : mcls := aOr aAny (aM l).
(* the forms with WAIT: the byte 9B, then the instruction of one of the rows *)
Definition wimplements (e : mentry) : Prop :=
  forall s ops imm act env pos its rest u,
    me_fun e ops imm = Some act -> Forall2 marg_ok (me_sig e) ops -> Forall lbare ops ->
    Forall (fun row => imm_in (l_imm row) imm) (me_rows e) ->
    emits act env pos its u ->
    exists bs, render s its = 0x9B :: bs /\ Exists (fun row => lsays row ops imm bs rest) (me_rows e).
