(* Specification for C24: address expressions as the programmer writes them. *)
From Coq Require Import ZArith List Bool Permutation.
From Verif Require Import Base Types SpecX86 SpecAddr Wf.
Import ListNotations.
Open Scope Z_scope.

(* reg, reg * scale, displacement, sum, difference with a displacement *)
Inductive aexp := XReg (r : Reg) | XScale (r : Reg) (k : Z) | XDisp (d : Z) | XAdd (a b : aexp) | XSub (a : aexp) (d : Z).
(* its value in ordinary arithmetic *)
Fixpoint value (regs : Z -> Z) (e : aexp) : Z :=
  match e with
  | XReg r => regs (regno r)
  | XScale r k => regs (regno r) * k
  | XDisp d => d
  | XAdd a b => value regs a + value regs b
  | XSub a d => value regs a - d
  end.
(* the register terms *)
Definition term (r : Reg) (k : Z) : list (Reg * Z) := if k =? 0 then [] else [(r, k)].
Fixpoint terms (e : aexp) : list (Reg * Z) :=
  match e with
  | XReg r => term r 1
  | XScale r k => term r k
  | XDisp _ => []
  | XAdd a b => terms a ++ terms b
  | XSub a _ => terms a
  end.
(* every register written is a 32/64-bit general register or a vector register, every scale 0, 1, 2, 4 or 8 *)
Definition addr_reg (r : Reg) : Prop := addr_gpr r \/ vec_reg r.
Fixpoint typed (e : aexp) : Prop :=
  match e with
  | XReg r => addr_reg r
  | XScale r k => addr_reg r /\ In k [0; 1; 2; 4; 8]
  | XDisp _ => True
  | XAdd a b => typed a /\ typed b
  | XSub a _ => typed a
  end.
(* the terms fit the form base + index * scale of the ISA: the base is an unscaled general register, rsp/esp is not
   an index, and a general index has the width of the base *)
Definition is_base (b : list (Reg * Z)) : Prop := b = [] \/ exists r, b = [(r, 1)] /\ addr_gpr r.
Definition is_index (i : list (Reg * Z)) : Prop := i = [] \/ exists r k, i = [(r, k)] /\ scale_ok k /\ (addr_gpr r -> regno r <> 4).
Definition same_width (b i : list (Reg * Z)) : Prop :=
  forall r k r' k', In (r, k) b -> In (r', k') i -> addr_gpr r' -> bit_ r = bit_ r'.
Definition encodable (ts : list (Reg * Z)) : Prop :=
  exists b i, Permutation ts (b ++ i) /\ is_base b /\ is_index i /\ same_width b i.
Definition any32 (ts : list (Reg * Z)) : bool := existsb (fun t => bit_ (fst t) =? 32) ts.
