(* Operand sizes.

   The size of a general register is part of its name; a memory operand has the size written in front of it (byte [..],
   dword [..]) or none (ptr [..]).  In the Intel manual the operands of mov, add .. cmp, test, xadd, cmpxchg, bt, cmovcc, bsf,
   imul, shld ... have one common size; there is no form for operands of different sizes.  Where no register fixes the size,
   only the memory operand can. *)
From Coq Require Import ZArith List Bool.
From Verif Require Import Base Types Emit EmitFacts.
Import ListNotations.
Open Scope Z_scope.

Definition gp_size (o : Operand) : option Z :=
  match o with
  | OReg r => if isREG r then Some (getBit r) else None
  | OMem a => if 0 <? getBit (a_op a) then Some (getBit (a_op a)) else None
  end.
Definition agree (x y : Operand) : Prop := forall a b, gp_size x = Some a -> gp_size y = Some b -> a = b.
(* a call that succeeds had operands of one size *)
Definition checks_sizes (ops : list Operand) (m : E unit) : Prop :=
  forall env pos its u, emits m env pos its u -> forall x y, In x ops -> In y ops -> agree x y.
Definition unsized (o : Operand) : Prop := isMEM o = true /\ getBit (ob o) = 0.
Definition rejects (m : E unit) : Prop := forall env pos its u, ~ emits m env pos its u.
