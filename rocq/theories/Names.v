(* Model: Operand::toString (xbyak.h:669-729) and the comparison operators of Operand, RegExp and Address
   (xbyak.h:730-732, 1016-1019, 1350-1353, 1381-1385). *)
From Coq Require Import ZArith List Bool String.
From Verif Require Import Base Types NameTables.
Import ListNotations.
Open Scope Z_scope.

(* a string; an error; an access outside a table *)
Inductive strRes := Str (s : string) | StrErr (e : xerr) | StrUB.
Definition entryOf (tbl : list string) (i : Z) : strRes :=
  if i <? 0 then StrUB else match nth_error tbl (Z.to_nat i) with Some s => Str s | None => StrUB end.

(* xbyak.h:669-729 *)
Definition toString (o : Operand) : strRes :=
  let r := ob o in
  let idx := getIdx r in
  if kind_ r =? REG then
    if isExt8bit r then entryOf strExt8 (idx - 4)
    else entryOf (nth (if bit_ r =? 8 then 0%nat else if bit_ r =? 16 then 1%nat else if bit_ r =? 32 then 2%nat else 3%nat) strReg []) idx
  else if isOPMASK r then entryOf strOpmask idx
  else if isTMM r then entryOf strTmm idx
  else if isZMM r then entryOf strZmm idx
  else if isYMM r then entryOf strYmm idx
  else if isXMM r then entryOf strXmm idx
  else if isMMX r then entryOf strMmx idx
  else if isFPU r then entryOf strFpu idx
  else if isBNDREG r then entryOf strBnd idx
  else StrErr ERR_INTERNAL.

(* label_ is compared as a pointer: a handle is one Label object *)
Definition label_eqb (a b : option LabelH) : bool :=
  match a, b with Some x, Some y => Nat.eqb x y | None, None => true | _, _ => false end.
(* xbyak.h:1350-1353 *)
Definition address_eqb (a b : Address) : bool :=
  (getBit (a_op a) =? getBit (a_op b)) && regexp_eqb (a_e a) (a_e b) && label_eqb (a_label a) (a_label b)
  && AMode_beq (a_mode a) (a_mode b) && (immSize a =? immSize b) && (disp8N a =? disp8N b)
  && Bool.eqb (permitVsib a) (permitVsib b) && Bool.eqb (a_broadcast a) (a_broadcast b) && Bool.eqb (a_optimize a) (a_optimize b).
(* xbyak.h:1381-1385 *)
Definition operand_eqb (x y : Operand) : bool :=
  match x, y with OMem a, OMem b => address_eqb a b | _, _ => reg_eqb (ob x) (ob y) end.
