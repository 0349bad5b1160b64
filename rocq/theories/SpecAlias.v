(* Specification: pseudo-operations.  The comparison predicates of CMPPS/VCMPPS and the quadword selection of
   PCLMULQDQ as the Intel SDM defines them on the immediate byte (vol. 2A, CMPPD table 3-1; vol. 2B, PCLMULQDQ),
   and what the name of a pseudo-operation says.  Independent of xbyak. *)
From Coq Require Import ZArith List Bool String.
From Verif Require Import Base Types Emit.
Import ListNotations.
Open Scope Z_scope.

(* ---- comparison predicates ---- *)
(* the result for A > B, A < B, A = B, A and B unordered; whether a quiet NaN raises the invalid exception *)
Record pred := mkPred { p_gt : bool; p_lt : bool; p_eq : bool; p_un : bool; p_sig : bool }.
Local Notation T := true. Local Notation F := false.
(* SDM table 3-1, by the low five bits of the immediate *)
Definition predicates : list pred := [
  mkPred F F T F F; mkPred F T F F T; mkPred F T T F T; mkPred F F F T F;   (* 0 .. 3 *)
  mkPred T T F T F; mkPred T F T T T; mkPred T F F T T; mkPred T T T F F;
  mkPred F F T T F; mkPred F T F T T; mkPred F T T T T; mkPred F F F F F;   (* 8 .. B *)
  mkPred T T F F F; mkPred T F T F T; mkPred T F F F T; mkPred T T T T F;
  mkPred F F T F T; mkPred F T F F F; mkPred F T T F F; mkPred F F F T T;   (* 10 .. 13 *)
  mkPred T T F T T; mkPred T F T T F; mkPred T F F T F; mkPred T T T F T;
  mkPred F F T T T; mkPred F T F T F; mkPred F T T T F; mkPred F F F F T;   (* 18 .. 1B *)
  mkPred T T F F T; mkPred T F T F F; mkPred T F F F F; mkPred T T T T T].
Definition predicate (imm : Z) : option pred :=
  if (0 <=? imm) && (imm <? 32) then nth_error predicates (Z.to_nat imm) else None.

(* The name: a relation, and a suffix that says whether the comparison is ordered (o: false for unordered
   operands) or unordered (u: true), quiet (q) or signaling (s). *)
Inductive prel := Req | Rlt | Rle | Rgt | Rge | Rneq | Rnlt | Rnle | Rngt | Rnge | Rord | Runord | Rtrue | Rfalse.
Inductive psuffix := Dflt | Oq | Os | Uq | Us | Sq | Ss.
(* the relation on ordered operands *)
Definition rel_holds (r : prel) : bool * bool * bool :=
  match r with
  | Req => (F, F, T) | Rlt => (F, T, F) | Rle => (F, T, T) | Rgt => (T, F, F) | Rge => (T, F, T)
  | Rneq => (T, T, F) | Rnlt => (T, F, T) | Rnle => (T, F, F) | Rngt => (F, T, T) | Rnge => (F, T, F)
  | Rord | Rtrue => (T, T, T) | Runord | Rfalse => (F, F, F)
  end.
(* a negated relation and "true" also hold for unordered operands *)
Definition rel_un (r : prel) : bool :=
  match r with Rneq | Rnlt | Rnle | Rngt | Rnge | Runord | Rtrue => true | _ => false end.
(* relations by magnitude signal *)
Definition rel_sig (r : prel) : bool :=
  match r with Rlt | Rle | Rgt | Rge | Rnlt | Rnle | Rngt | Rnge => true | _ => false end.
Definition name_pred (r : prel) (s : psuffix) : pred :=
  let '(gt, lt, eq) := rel_holds r in
  mkPred gt lt eq
    (match s with Oq | Os => false | Uq | Us => true | _ => rel_un r end)
    (match s with Oq | Uq | Sq => false | Os | Us | Ss => true | Dflt => rel_sig r end).
Definition rel_name (r : prel) : string :=
  match r with
  | Req => "eq" | Rlt => "lt" | Rle => "le" | Rgt => "gt" | Rge => "ge" | Rneq => "neq" | Rnlt => "nlt" | Rnle => "nle"
  | Rngt => "ngt" | Rnge => "nge" | Rord => "ord" | Runord => "unord" | Rtrue => "true" | Rfalse => "false" end.
Definition suffix_name (s : psuffix) : string :=
  match s with Dflt => "" | Oq => "_oq" | Os => "_os" | Uq => "_uq" | Us => "_us" | Sq => "_q" | Ss => "_s" end.
Inductive ftype := Fps | Fpd | Fss | Fsd.
Definition ftype_name (t : ftype) : string := match t with Fps => "ps" | Fpd => "pd" | Fss => "ss" | Fsd => "sd" end.
(* op: "cmp" or "vcmp" *)
Definition pseudo_name (op : string) (r : prel) (s : psuffix) (t : ftype) : string :=
  (op ++ rel_name r ++ suffix_name s ++ ftype_name t)%string.

(* A pseudo-operation f of operand type A: the comparison of its type, with an immediate that has the meaning of
   the name *)
Definition compares {A : Type} (base : ftype -> A -> Z -> E unit) (op : string)
    (e : string * (prel * psuffix * ftype) * (A -> E unit)) : Prop :=
  let '(name, (r, s, t), f) := e in
  name = pseudo_name op r s t /\ exists imm, predicate imm = Some (name_pred r s) /\ forall a, f a = base t a imm.

(* ---- carry-less multiplication: which quadword of the first and of the second source ---- *)
Definition high_first (imm : Z) : bool := Z.testbit imm 0.
Definition high_second (imm : Z) : bool := Z.testbit imm 4.
Definition clmul_name (op : string) (h1 h2 : bool) : string :=
  (op ++ (if h1 then "hq" else "lq") ++ (if h2 then "hq" else "lq") ++ "dq")%string.
Definition multiplies {A : Type} (base : A -> Z -> E unit) (op : string) (e : string * (bool * bool) * (A -> E unit)) : Prop :=
  let '(name, (h1, h2), f) := e in
  name = clmul_name op h1 h2
  /\ exists imm, 0 <= imm < 32 /\ high_first imm = h1 /\ high_second imm = h2 /\ forall a, f a = base a imm.

(* ---- omitted operands: op(x, ...) means op(x, x, ...) ---- *)
Definition omits {A : Type} (e : string * (Reg -> A -> E unit) * (Reg -> Reg -> A -> E unit)) : Prop :=
  let '(_, f, g) := e in forall x a, f x a = g x x a.
