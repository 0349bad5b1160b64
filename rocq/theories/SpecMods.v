(* Specification of operand modifiers and of rip expressions (C47). *)
From Coq Require Import ZArith List Bool Lia.
From Verif Require Import Base Types Emit SpecReg.
Import ListNotations.
Open Scope Z_scope.

(* ---- modifiers: x | k1 | T_z | T_rn_sae | T_nf | T_zu (xbyak.h:812-813, 850-861, 879-881, 888-889) ---- *)
Inductive modifier := MMask (k : Z) | MZero | MRound (rc : Z) | MNF | MZU.
(* k1..k7; T_rn_sae, T_rd_sae, T_ru_sae, T_rz_sae, T_sae *)
Definition modifier_ok (m : modifier) : Prop :=
  match m with MMask k => 1 <= k <= 7 | MRound rc => 1 <= rc <= 5 | _ => True end.
(* one application *)
Definition decorate1 (r : Reg) (m : modifier) : E Reg :=
  match m with
  | MMask k => orOpmask r (Opmask k)
  | MZero => ret (setZero r)
  | MRound rc => orRounding r rc
  | MNF => ret (setNF r)
  | MZU => ret (setZU r)
  end.
(* r | m1 | m2 | ... *)
Fixpoint decorate (r : Reg) (l : list modifier) : E Reg :=
  match l with [] => ret r | m :: l => r' <- decorate1 r m ;; decorate r' l end.

Definition masks (l : list modifier) : list Z := flat_map (fun m => match m with MMask k => [k] | _ => [] end) l.
Definition rounds (l : list modifier) : list Z := flat_map (fun m => match m with MRound k => [k] | _ => [] end) l.
(* at most one mask and at most one rounding *)
Definition unambiguous (l : list modifier) : Prop := (length (masks l) <= 1)%nat /\ (length (rounds l) <= 1)%nat.
(* a register without mask and rounding *)
Definition plain (r : Reg) : Prop := mask_ r = 0 /\ rounding_ r = 0.
(* q is register r with exactly the attributes asked for by l *)
Definition decorated (r : Reg) (l : list modifier) (q : Reg) : Prop :=
  idx_ q = idx_ r /\ kind_ q = kind_ r /\ bit_ q = bit_ r
  /\ (mask_ q = hd 0 (masks l)) /\ (rounding_ q = hd 0 (rounds l))
  /\ (zero_ q = true <-> zero_ r = true \/ In MZero l)
  /\ (NF_ q = true <-> NF_ r = true \/ In MNF l)
  /\ (ZU_ q = true <-> ZU_ r = true \/ In MZU l).

(* ---- rip expressions: rip + 4 - n + label, rip + pointer ---- *)
Inductive ripTerm := RPlus (n : Z) | RMinus (n : Z) | RLabel (l : LabelH) | RPtr (p : Z).
Definition ripStep (r : RegRip) (t : ripTerm) : E RegRip :=
  match t with
  | RPlus n => ret (ripAdd r n)
  | RMinus n => ret (ripAdd r (- n))
  | RLabel l => ripAddLabel r l
  | RPtr p => ripAddPtr r p
  end.
Fixpoint ripSum (r : RegRip) (l : list ripTerm) : E RegRip :=
  match l with [] => ret r | t :: l => r' <- ripStep r t ;; ripSum r' l end.
Definition rip0 : RegRip := mkRip 0 None false.
(* the sum of the numbers and the anchor: what the sum is relative to *)
Fixpoint numbers (l : list ripTerm) : Z :=
  match l with
  | [] => 0
  | RPlus n :: l => n + numbers l
  | RMinus n :: l => numbers l - n
  | RPtr p :: l => p + numbers l
  | RLabel _ :: l => numbers l
  end.
Inductive anchor := ALabel (l : LabelH) | APtr.
Definition anchors (l : list ripTerm) : list anchor :=
  flat_map (fun t => match t with RLabel l => [ALabel l] | RPtr _ => [APtr] | _ => [] end) l.
Definition rip_anchor (r : RegRip) : list anchor :=
  match rip_label r with Some l => [ALabel l] | None => [] end ++ (if rip_isAddr r then [APtr] else []).
(* the same sum in the 64-bit address space *)
Definition same64 (a b : Z) : Prop := a mod 2 ^ 64 = b mod 2 ^ 64.
