(* Specification: arithmetic expressions over numbers and variables, and their values.  Independent of xbyak; used for the
   calculator sample/calc.cpp (C59).  Values are the 64 bits of a double; what an operation computes is a parameter. *)
From Coq Require Import ZArith List Bool String.
Import ListNotations.
Open Scope list_scope.
Open Scope Z_scope.

Inductive op := Plus | Minus | Times | Over.
Inductive expr := Num (v : Z) | Var (x : string) | Bin (o : op) (a b : expr).
Fixpoint eval (f : op -> Z -> Z -> Z) (env : string -> Z) (e : expr) : Z :=
  match e with Num v => v mod 2 ^ 64 | Var x => env x mod 2 ^ 64 | Bin o a b => f o (eval f env a) (eval f env b) end.
(* the numbers and the variables, from the left *)
Fixpoint nums (e : expr) : list Z := match e with Num v => [v] | Var _ => [] | Bin _ a b => nums a ++ nums b end.
Fixpoint vars (e : expr) : list string := match e with Num _ => [] | Var x => [x] | Bin _ a b => vars a ++ vars b end.
(* places for intermediate values: the left operand is kept while the right one is computed *)
Fixpoint need (e : expr) : Z := match e with Bin _ a b => Z.max (need a) (1 + need b) | _ => 1 end.
