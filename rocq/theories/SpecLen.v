(* The length of an instruction.

   Intel SDM vol. 2A, 2.3.11 (and AMD APM vol. 3, 1.1): an instruction of more than 15 bytes raises #UD (#GP).  A method call
   that succeeds stands for one instruction; [items_size] counts the bytes it occupies in the code buffer, the fields of
   labels that are filled in later included. *)
From Coq Require Import ZArith List.
From Verif Require Import Base Types Emit EmitFacts.
Open Scope Z_scope.

Definition max_length := 15.
Definition within {A} (n : Z) (m : E A) : Prop := forall env pos its u, emits m env pos its u -> items_size its <= n.
(* a general register is at most 64 bits wide (Reg8, Reg16, Reg32, Reg64); mov with an immediate writes bit/8 bytes *)
Definition narrow (o : Operand) : Prop := isREG (ob o) = true -> getBit (ob o) <= 64.
