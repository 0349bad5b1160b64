(* Specification: the methods of the 32-bit build against those of the 64-bit build. *)
From Coq Require Import ZArith List Bool String.
From Verif Require Import Base Types Emit EmitFacts Encode Spec32.
Import ListNotations.
Open Scope Z_scope.

(* arguments for a method: operands, addresses, registers, numbers, an encoding and a segment register *)
Record b_args := mkArgs { ar_o : Z -> Operand; ar_a : Z -> Address; ar_r : Z -> Reg; ar_n : Z -> Z;
  ar_e : PreferredEncoding; ar_s : Segment }.
Definition an_arg (x : b_args) (r : Reg) : Prop := exists i, r = ob (ar_o x i) \/ r = a_op (ar_a x i) \/ r = ar_r x i.
(* operands of the 32-bit build, and not a 16-bit one together with a 64-bit (memory, MMX) one *)
Definition args32 (x : b_args) : Prop :=
  (forall i, op32 (ar_o x i)) /\ (forall i, addr32 (ar_a x i)) /\ (forall i, reg32 (ar_r x i))
  /\ ((forall r, an_arg x r -> isBit r 16 = false) \/ (forall r, an_arg x r -> isBit r 64 = false)).
Record b_entry := mkB { b_name : string; b_call32 : b_args -> E unit; b_call64 : b_args -> E unit }.
Definition args_fit (x : b_args) : Prop := forall r, (exists i, r = ar_r x i \/ ar_o x i = OReg r) ->
  (forall j, fits_op r (ar_o x j)) /\ (forall j, fits r (a_op (ar_a x j))).
(* whenever the 64-bit build accepts the call, the 32-bit build emits the same bytes; the 32-bit build accepts only these calls,
   for the methods named in [sized] if the memory operands fit the MMX registers *)
Definition entry_same (sized : list string) (x : b_entry) : Prop := forall v, args32 v ->
  bsame (existsb (String.eqb (b_name x)) sized = true -> args_fit v) (b_call32 x v) (b_call64 x v).
