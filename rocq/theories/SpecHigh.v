(* Specification: byte registers named by an instruction. *)
From Coq Require Import ZArith List Bool.
From Verif Require Import Base Types SpecX86.
Import ListNotations.
Open Scope Z_scope.

(* some register field of the instruction at the start of bs (ModRM.reg, ModRM.rm, or the low bits of the opcode), read as a
   byte register, is b *)
Definition names_byte (bs : list Z) (b : breg) : Prop :=
  (exists h reg rm t, decode false 1 bs = Some (h, reg, rm, t)
     /\ (byte_reg (h_rex h) reg = b \/ exists n v, rm = RReg n v /\ byte_reg (h_rex h) n = b))
  \/ (exists h t, dec_header bs = Some (h, t) /\ byte_reg (h_rex h) (h_B h + h_opc h mod 8) = b).
