(* Specification: the architectural names of the registers, and when two operands are the same operand. *)
From Coq Require Import ZArith List Bool String Ascii.
From Verif Require Import Base Types SpecX86 SpecAddr SpecReg Wf.
Import ListNotations.
Open Scope string_scope. Open Scope Z_scope.

Definition digit (n : Z) : string := String (ascii_of_nat (48 + Z.to_nat n)) EmptyString.
Definition decimal (n : Z) : string := if n <? 10 then digit n else digit (n / 10) ++ digit (n mod 10).
(* the letters of the eight old registers *)
Definition stem (n : Z) : string := nth (Z.to_nat n) ["a"; "c"; "d"; "b"; "sp"; "bp"; "si"; "di"] "".
Definition gpr_name (w : Z) (n : Z) : string :=
  if n <? 8 then
    let s := stem n ++ (if n <? 4 then "x" else "") in
    if w =? 64 then "r" ++ s else if w =? 32 then "e" ++ s else if w =? 16 then s else stem n ++ "l"
  else "r" ++ decimal n ++ (if w =? 64 then "" else if w =? 32 then "d" else if w =? 16 then "w" else "b").
Definition byte_name (b : breg) : string := match b with BLow n => gpr_name 8 n | BHigh n => stem n ++ "h" end.
Definition arch_name (r : Reg) : string :=
  if kind_ r =? REG then (if bit_ r =? 8 then byte_name (byte_meaning r) else gpr_name (bit_ r) (regno r))
  else (if kind_ r =? XMM then "xmm" else if kind_ r =? YMM then "ymm" else if kind_ r =? ZMM then "zmm"
        else if kind_ r =? MMX then "mm" else if kind_ r =? OPMASK then "k" else if kind_ r =? TMM then "tmm"
        else if kind_ r =? FPU then "st" else "bnd") ++ decimal (regno r).
(* the registers of the architecture *)
Definition arch_reg (r : Reg) : Prop :=
  gpr r \/ vec_reg r \/ mmx_reg r \/ opmask_reg r \/ tmm_reg r \/ fpu_reg r \/ bnd_reg r.
(* xm3 is short for xmm3 *)
Definition long_name (s : string) : string := match s with String c t => String c (String "m" t) | _ => s end.

(* the sizes in bits of the names used for memory operands; ptr leaves the size open *)
Definition frame_size (s : string) : option (Z * bool) :=
  let sz t := if string_dec t "ptr" then Some 0 else if string_dec t "byte" then Some 8 else if string_dec t "word" then Some 16
    else if string_dec t "dword" then Some 32 else if string_dec t "qword" then Some 64 else if string_dec t "xword" then Some 128
    else if string_dec t "yword" then Some 256 else if string_dec t "zword" then Some 512 else None in
  match sz s with
  | Some n => Some (n, false)
  | None => match sz (substring 0 (String.length s - 2) s) with
            | Some n => if string_dec (substring (String.length s - 2) 2 s) "_b" then Some (n, true) else None
            | None => None end
  end.
(* the value of a word over the digits 0 and 1 *)
Fixpoint binary (v : Z) (s : string) : option Z :=
  match s with
  | EmptyString => Some v
  | String "0" t => binary (2 * v) t
  | String "1" t => binary (2 * v + 1) t
  | _ => None
  end.
Definition bin_name (s : string) : option Z := match s with String "B" t => binary 0 t | _ => None end.

(* no T_nf, no T_zu *)
Definition unflagged (r : Reg) : Prop := NF_ r = false /\ ZU_ r = false.
(* neither these flags nor, on a memory operand, {k}, {z} or a rounding *)
Definition unmodified (o : Operand) : Prop :=
  match o with
  | OReg r => unflagged r /\ kind_ r <> MEM
  | OMem a => a_op a = regOf 0 MEM (bit_ (a_op a)) false /\ unflagged (e_base (a_e a)) /\ unflagged (e_index (a_e a))
  end.
