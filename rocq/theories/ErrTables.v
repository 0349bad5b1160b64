(* GENERATED by tools/errtab.py from xbyak.h:182-298. *)
From Coq Require Import List String.
Import ListNotations.
(* xbyak.h:182-238 enum; the value is the position *)
Definition errNames : list string := ["ERR_NONE";
  "ERR_BAD_ADDRESSING";
  "ERR_CODE_IS_TOO_BIG";
  "ERR_BAD_SCALE";
  "ERR_ESP_CANT_BE_INDEX";
  "ERR_BAD_COMBINATION";
  "ERR_BAD_SIZE_OF_REGISTER";
  "ERR_IMM_IS_TOO_BIG";
  "ERR_BAD_ALIGN";
  "ERR_LABEL_IS_REDEFINED";
  "ERR_LABEL_IS_TOO_FAR";
  "ERR_LABEL_IS_NOT_FOUND";
  "ERR_CODE_ISNOT_COPYABLE";
  "ERR_BAD_PARAMETER";
  "ERR_CANT_PROTECT";
  "ERR_CANT_USE_64BIT_DISP";
  "ERR_OFFSET_IS_TOO_BIG";
  "ERR_MEM_SIZE_IS_NOT_SPECIFIED";
  "ERR_BAD_MEM_SIZE";
  "ERR_BAD_ST_COMBINATION";
  "ERR_OVER_LOCAL_LABEL";
  "ERR_UNDER_LOCAL_LABEL";
  "ERR_CANT_ALLOC";
  "ERR_ONLY_T_NEAR_IS_SUPPORTED_IN_AUTO_GROW";
  "ERR_BAD_PROTECT_MODE";
  "ERR_BAD_PNUM";
  "ERR_BAD_TNUM";
  "ERR_BAD_VSIB_ADDRESSING";
  "ERR_CANT_CONVERT";
  "ERR_LABEL_ISNOT_SET_BY_L";
  "ERR_LABEL_IS_ALREADY_SET_BY_L";
  "ERR_BAD_LABEL_STR";
  "ERR_MUNMAP";
  "ERR_OPMASK_IS_ALREADY_SET";
  "ERR_ROUNDING_IS_ALREADY_SET";
  "ERR_K0_IS_INVALID";
  "ERR_EVEX_IS_INVALID";
  "ERR_SAE_IS_INVALID";
  "ERR_ER_IS_INVALID";
  "ERR_INVALID_BROADCAST";
  "ERR_INVALID_OPMASK_WITH_MEMORY";
  "ERR_INVALID_ZERO";
  "ERR_INVALID_RIP_IN_AUTO_GROW";
  "ERR_INVALID_MIB_ADDRESS";
  "ERR_X2APIC_IS_NOT_SUPPORTED";
  "ERR_NOT_SUPPORTED";
  "ERR_SAME_REGS_ARE_INVALID";
  "ERR_INVALID_NF";
  "ERR_INVALID_ZU";
  "ERR_CANT_USE_REX2";
  "ERR_INVALID_DFV";
  "ERR_INVALID_REG_IDX";
  "ERR_BAD_ENCODING_MODE";
  "ERR_CANT_USE_ABCDH";
  "ERR_INTERNAL"]%string.
(* xbyak.h:242-298 *)
Definition errTbl : list string := ["none";
  "bad addressing";
  "code is too big";
  "bad scale";
  "esp can't be index";
  "bad combination";
  "bad size of register";
  "imm is too big";
  "bad align";
  "label is redefined";
  "label is too far";
  "label is not found";
  "code is not copyable";
  "bad parameter";
  "can't protect";
  "can't use 64bit disp(use (void*))";
  "offset is too big";
  "MEM size is not specified";
  "bad mem size";
  "bad st combination";
  "over local label";
  "under local label";
  "can't alloc";
  "T_SHORT is not supported in AutoGrow";
  "bad protect mode";
  "bad pNum";
  "bad tNum";
  "bad vsib addressing";
  "can't convert";
  "label is not set by L()";
  "label is already set by L()";
  "bad label string";
  "err munmap";
  "opmask is already set";
  "rounding is already set";
  "k0 is invalid";
  "evex is invalid";
  "sae(suppress all exceptions) is invalid";
  "er(embedded rounding) is invalid";
  "invalid broadcast";
  "invalid opmask with memory";
  "invalid zero";
  "invalid rip in AutoGrow";
  "invalid mib address";
  "x2APIC is not supported";
  "not supported";
  "same regs are invalid";
  "invalid NF";
  "invalid ZU";
  "can't use rex2";
  "invalid dfv";
  "invalid reg index";
  "bad encoding mode";
  "can't use [abcd]h with rex";
  "internal error"]%string.
