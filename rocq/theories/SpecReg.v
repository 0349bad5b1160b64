(* Specification: which architectural register a register object names (C34). *)
From Coq Require Import ZArith List Bool.
From Verif Require Import Base Types Emit SpecX86 SpecAddr Wf.
Import ListNotations.
Open Scope Z_scope.

(* a part of general register n *)
Definition gpr_meaning (r : Reg) : breg := if bit_ r =? 8 then byte_meaning r else BLow (regno r).
Definition is_high (r : Reg) : Prop := exists n, gpr_meaning r = BHigh n.
(* q is general register r at width b *)
Definition same_gpr (r q : Reg) (b : Z) : Prop := gpr q /\ bit_ q = b /\ gpr_meaning q = gpr_meaning r.
Definition gpr_widths := [8; 16; 32; 64].
Definition vec_widths := [128; 256; 512].
Definition returns {A} (m : E A) (env : Env) (pos : Z) (a : A) : Prop := m env pos = ([], Ok a).
Definition fails {A} (m : E A) (env : Env) (pos : Z) (e : xerr) : Prop := m env pos = ([], Err e).
