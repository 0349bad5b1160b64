(* Error values: the enumeration of error codes, their texts, class Error (xbyak.h:182-345). *)
From Coq Require Import ZArith List Bool String Ascii.
From Verif Require Import Base Types ErrTables.
Import ListNotations.
Open Scope Z_scope.

(* the enumerators after ERR_NONE in the order of xbyak.h:184-237 *)
Definition all_errs : list xerr := [
  ERR_BAD_ADDRESSING; ERR_CODE_IS_TOO_BIG; ERR_BAD_SCALE; ERR_ESP_CANT_BE_INDEX; ERR_BAD_COMBINATION;
  ERR_BAD_SIZE_OF_REGISTER; ERR_IMM_IS_TOO_BIG; ERR_BAD_ALIGN; ERR_LABEL_IS_REDEFINED; ERR_LABEL_IS_TOO_FAR;
  ERR_LABEL_IS_NOT_FOUND; ERR_CODE_ISNOT_COPYABLE; ERR_BAD_PARAMETER; ERR_CANT_PROTECT; ERR_CANT_USE_64BIT_DISP;
  ERR_OFFSET_IS_TOO_BIG; ERR_MEM_SIZE_IS_NOT_SPECIFIED; ERR_BAD_MEM_SIZE; ERR_BAD_ST_COMBINATION; ERR_OVER_LOCAL_LABEL;
  ERR_UNDER_LOCAL_LABEL; ERR_CANT_ALLOC; ERR_ONLY_T_NEAR_IS_SUPPORTED_IN_AUTO_GROW; ERR_BAD_PROTECT_MODE;
  ERR_BAD_PNUM; ERR_BAD_TNUM; ERR_BAD_VSIB_ADDRESSING; ERR_CANT_CONVERT; ERR_LABEL_ISNOT_SET_BY_L; ERR_LABEL_IS_ALREADY_SET_BY_L;
  ERR_BAD_LABEL_STR; ERR_MUNMAP; ERR_OPMASK_IS_ALREADY_SET; ERR_ROUNDING_IS_ALREADY_SET; ERR_K0_IS_INVALID;
  ERR_EVEX_IS_INVALID; ERR_SAE_IS_INVALID; ERR_ER_IS_INVALID; ERR_INVALID_BROADCAST; ERR_INVALID_OPMASK_WITH_MEMORY;
  ERR_INVALID_ZERO; ERR_INVALID_RIP_IN_AUTO_GROW; ERR_INVALID_MIB_ADDRESS; ERR_X2APIC_IS_NOT_SUPPORTED;
  ERR_NOT_SUPPORTED; ERR_SAME_REGS_ARE_INVALID; ERR_INVALID_NF; ERR_INVALID_ZU; ERR_CANT_USE_REX2; ERR_INVALID_DFV;
  ERR_INVALID_REG_IDX; ERR_BAD_ENCODING_MODE; ERR_CANT_USE_ABCDH; ERR_INTERNAL].
(* the value of an enumerator; an absent one would give 0 *)
Fixpoint index_err (e : xerr) (l : list xerr) (n : Z) : Z :=
  match l with [] => 0 | x :: l => if xerr_beq e x then n else index_err e l (n + 1) end.
Definition err_code (e : xerr) : Z := index_err e all_errs 1.
(* ERR_INTERNAL is the last one, xbyak.h:237 *)
Definition ERR_INTERNAL_ := err_code ERR_INTERNAL.

(* xbyak.h:240-301 ConvertErrorToString(int): None for a negative code or one past the table, where errTbl[err] is read
   outside the array (the assert compares the sizes only) *)
Definition ConvertErrorToString (err : Z) : option string :=
  if err <=? ERR_INTERNAL_ then (if err <? 0 then None else nth_error errTbl (Z.to_nat err)) else Some "unknown err"%string.
(* xbyak.h:329-336 Error(int) *)
Definition Error_ctor (err : Z) : Z := if (err <? 0) || (ERR_INTERNAL_ <? err) then ERR_INTERNAL_ else err.
(* xbyak.h:338-341 what() *)
Definition what (err_ : Z) : option string := ConvertErrorToString err_.
(* xbyak.h:306-324 the error value of the no-exception build: SetError, ClearError, GetError *)
Definition SetError (ref err : Z) : Z := if ref =? 0 then err else ref.
Definition ClearError : Z := 0.
