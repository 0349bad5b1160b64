(* Operands, registers, address expressions and addresses of xbyak.h.
   Configuration: XBYAK64, not ILP32. *)
From Coq Require Import ZArith List Bool.
From Verif Require Import Base.
Import ListNotations.
Open Scope Z_scope.

(* xbyak.h:182-238  error codes (ERR_NONE is "no error") *)
Inductive xerr :=
| ERR_BAD_ADDRESSING | ERR_CODE_IS_TOO_BIG | ERR_BAD_SCALE | ERR_ESP_CANT_BE_INDEX
| ERR_BAD_COMBINATION | ERR_BAD_SIZE_OF_REGISTER | ERR_IMM_IS_TOO_BIG | ERR_BAD_ALIGN
| ERR_LABEL_IS_REDEFINED | ERR_LABEL_IS_TOO_FAR | ERR_LABEL_IS_NOT_FOUND
| ERR_CODE_ISNOT_COPYABLE | ERR_BAD_PARAMETER | ERR_CANT_PROTECT | ERR_CANT_USE_64BIT_DISP
| ERR_OFFSET_IS_TOO_BIG | ERR_MEM_SIZE_IS_NOT_SPECIFIED | ERR_BAD_MEM_SIZE
| ERR_BAD_ST_COMBINATION | ERR_OVER_LOCAL_LABEL | ERR_UNDER_LOCAL_LABEL | ERR_CANT_ALLOC
| ERR_ONLY_T_NEAR_IS_SUPPORTED_IN_AUTO_GROW | ERR_BAD_PROTECT_MODE | ERR_BAD_PNUM | ERR_BAD_TNUM
| ERR_BAD_VSIB_ADDRESSING | ERR_CANT_CONVERT | ERR_LABEL_ISNOT_SET_BY_L
| ERR_LABEL_IS_ALREADY_SET_BY_L | ERR_BAD_LABEL_STR | ERR_MUNMAP | ERR_OPMASK_IS_ALREADY_SET
| ERR_ROUNDING_IS_ALREADY_SET | ERR_K0_IS_INVALID | ERR_EVEX_IS_INVALID | ERR_SAE_IS_INVALID
| ERR_ER_IS_INVALID | ERR_INVALID_BROADCAST | ERR_INVALID_OPMASK_WITH_MEMORY | ERR_INVALID_ZERO
| ERR_INVALID_RIP_IN_AUTO_GROW | ERR_INVALID_MIB_ADDRESS | ERR_X2APIC_IS_NOT_SUPPORTED
| ERR_NOT_SUPPORTED | ERR_SAME_REGS_ARE_INVALID | ERR_INVALID_NF | ERR_INVALID_ZU
| ERR_CANT_USE_REX2 | ERR_INVALID_DFV | ERR_INVALID_REG_IDX | ERR_BAD_ENCODING_MODE
| ERR_CANT_USE_ABCDH | ERR_INTERNAL.

Scheme Equality for xerr.

(* xbyak.h:564-576  Operand::Kind bit mask *)
Definition K_NONE := 0.   Definition MEM := 1.   Definition REG := 2.   Definition MMX := 4.
Definition FPU := 8.      Definition XMM := 16.  Definition YMM := 32.  Definition ZMM := 64.
Definition OPMASK := 128. Definition BNDREG := 256. Definition TMM := 512.
(* xbyak.h:552 *)
Definition EXT8BIT := 32.
(* xbyak.h:987, 1717 *)
Definition i32e := 96.   (* 32 | 64 *)
Definition BIT := 64.

(* xbyak.h:551-561  data members of Operand; Reg and its subclasses add none. *)
Record Reg := mkReg {
  idx_ : Z;       (* 6 bits: 0..31 + EXT8BIT *)
  kind_ : Z;
  bit_ : Z;
  zero_ : bool;
  mask_ : Z;      (* 3 bits *)
  rounding_ : Z;  (* 3 bits *)
  NF_ : bool;
  ZU_ : bool
}.

(* xbyak.h:593 Operand() / xbyak.h:799 Reg() *)
Definition noReg : Reg := mkReg 0 0 0 false 0 0 false false.
(* xbyak.h:594-601 Operand(idx,kind,bit,ext8bit); idx_ is a 6-bit field, bit_ a 14-bit field *)
Definition regOf (idx kind bit : Z) (ext8 : bool) : Reg :=
  mkReg ((idx ||| (if ext8 then EXT8BIT else 0)) mod 64) kind (bit mod 16384) false 0 0 false false.
(* xbyak.h:822-898 register classes *)
Definition Reg8 (i : Z) : Reg := regOf i REG 8 false.
Definition Reg8e (i : Z) : Reg := regOf i REG 8 true.  (* spl, bpl, sil, dil *)
Definition Reg16 (i : Z) : Reg := regOf i REG 16 false.
Definition Reg32 (i : Z) : Reg := regOf i REG 32 false.
Definition Reg64 (i : Z) : Reg := regOf i REG 64 false.
Definition Reg32e (i bit : Z) : Reg := regOf i REG bit false.
Definition Mmx (i : Z) : Reg := regOf i MMX 64 false.
Definition Xmm (i : Z) : Reg := regOf i XMM 128 false.
Definition Ymm (i : Z) : Reg := regOf i YMM 256 false.
Definition Zmm (i : Z) : Reg := regOf i ZMM 512 false.
Definition Tmm (i : Z) : Reg := regOf i TMM 8192 false.
Definition Opmask (i : Z) : Reg := regOf i OPMASK 64 false.
Definition BoundsReg (i : Z) : Reg := regOf i BNDREG 128 false.
Definition Fpu (i : Z) : Reg := regOf i FPU 32 false.
(* xbyak.h:849 Xmm(Kind kind, int idx) *)
Definition XmmK (kind i : Z) : Reg :=
  regOf i kind (if kind =? XMM then 128 else if kind =? YMM then 256 else 512) false.

(* ---- queries, xbyak.h:602-668 ---- *)
Definition getIdx (r : Reg) : Z := idx_ r &&& 31.
Definition hasIdxBit (r : Reg) (b : Z) : bool := has (idx_ r) (1 <<< b).
Definition is_ (r : Reg) (kind bit : Z) : bool :=
  ((kind =? 0) || has (kind_ r) kind) && ((bit =? 0) || has (bit_ r) bit).
Definition isNone r := kind_ r =? 0.
Definition isMMX r := is_ r MMX 0.
Definition isXMM r := is_ r XMM 0.
Definition isYMM r := is_ r YMM 0.
Definition isZMM r := is_ r ZMM 0.
Definition isSIMD r := is_ r (XMM ||| YMM ||| ZMM) 0.
Definition isTMM r := is_ r TMM 0.
Definition isXMEM r := is_ r (XMM ||| MEM) 0.
Definition isYMEM r := is_ r (YMM ||| MEM) 0.
Definition isZMEM r := is_ r (ZMM ||| MEM) 0.
Definition isOPMASK r := is_ r OPMASK 0.
Definition isBNDREG r := is_ r BNDREG 0.
Definition isREG r := is_ r REG 0.
Definition isREGb r (b : Z) := is_ r REG b.       (* isREG(bit) *)
Definition isMEMk r := is_ r MEM 0.
Definition isFPU r := is_ r FPU 0.
Definition isExt8bit r := has (idx_ r) EXT8BIT.
Definition isExtIdx r := has (getIdx r) 8.
Definition isExtIdx2 r := has (getIdx r) 16.
Definition isBit r (b : Z) := has (bit_ r) b.
Definition getBit r := bit_ r.
Definition hasEvex r := isZMM r || isExtIdx2 r || negb (mask_ r =? 0) || negb (rounding_ r =? 0).
(* xbyak.h:655-661 *)
Definition isHigh8bit (r : Reg) : bool :=
  isBit r 8 && negb (isExt8bit r) && (4 <=? getIdx r) && (getIdx r <=? 7).

(* ---- modifiers ---- *)
Definition set_kindbit r k b := mkReg (idx_ r) k b (zero_ r) (mask_ r) (rounding_ r) (NF_ r) (ZU_ r).
Definition set_idx r i := mkReg (i mod 64) (kind_ r) (bit_ r) (zero_ r) (mask_ r) (rounding_ r) (NF_ r) (ZU_ r).
Definition set_mask r m := mkReg (idx_ r) (kind_ r) (bit_ r) (zero_ r) (m mod 8) (rounding_ r) (NF_ r) (ZU_ r).
Definition set_rounding r m := mkReg (idx_ r) (kind_ r) (bit_ r) (zero_ r) (mask_ r) (m mod 8) (NF_ r) (ZU_ r).
(* xbyak.h:649 *)
Definition setZero r := mkReg (idx_ r) (kind_ r) (bit_ r) true (mask_ r) (rounding_ r) (NF_ r) (ZU_ r).
(* xbyak.h:650, 812 *)
Definition setNF r := mkReg (idx_ r) (kind_ r) (bit_ r) (zero_ r) (mask_ r) (rounding_ r) true (ZU_ r).
(* xbyak.h:652, 813 *)
Definition setZU r := mkReg (idx_ r) (kind_ r) (bit_ r) (zero_ r) (mask_ r) (rounding_ r) (NF_ r) true.
(* xbyak.h:631-636 *)
Definition setKind r kind :=
  if has kind (XMM ||| YMM ||| ZMM ||| TMM)
  then set_kindbit r kind (if kind =? XMM then 128 else if kind =? YMM then 256
                           else if kind =? ZMM then 512 else 8192)
  else r.
(* xbyak.h:730 isEqualIfNotInherited (NF_ and ZU_ are not compared) *)
Definition reg_eqb (a b : Reg) : bool :=
  (idx_ a =? idx_ b) && (kind_ a =? kind_ b) && (bit_ a =? bit_ b) && eqb (zero_ a) (zero_ b)
  && (mask_ a =? mask_ b) && (rounding_ a =? rounding_ b).

(* xbyak.h:1035-1042  RegExp: [base + index * scale + disp] *)
Record RegExp := mkRegExp { e_base : Reg; e_index : Reg; e_scale : Z; e_disp : Z }.

(* xbyak.h:991 RegExp(size_t disp) *)
Definition regExpDisp (disp : Z) : RegExp := mkRegExp noReg noReg 0 (w64 disp).
(* xbyak.h:1005 *)
Definition isVsibE (e : RegExp) (bit : Z) : bool := isBit (e_index e) bit.
Definition vsib_bits := 896. (* 128 | 256 | 512 *)
(* xbyak.h:1006-1015 *)
Definition optimize (e : RegExp) : RegExp :=
  if isBit (e_index e) i32e && (getBit (e_base e) =? 0) && (e_scale e =? 2)
  then mkRegExp (e_index e) (e_index e) 1 (e_disp e) else e.
(* xbyak.h:1016-1019 *)
Definition regexp_eqb (a b : RegExp) : bool :=
  reg_eqb (e_base a) (e_base b) && reg_eqb (e_index a) (e_index b)
  && (e_disp a =? e_disp b) && (e_scale a =? e_scale b).

(* A Label object is referred to by a handle (the C++ code passes const Label pointers). *)
Definition LabelH := nat.

(* xbyak.h:1320-1325 *)
Inductive AMode := M_ModRM | M_64bitDisp | M_rip | M_ripAddr.
Scheme Equality for AMode.

(* xbyak.h:1318-1367  class Address : Operand *)
Record Address := mkAddr {
  a_op : Reg;              (* the Operand base class sub-object, kind MEM *)
  a_e : RegExp;
  a_label : option LabelH;
  a_mode : AMode;
  immSize : Z;
  disp8N : Z;
  permitVsib : bool;
  a_broadcast : bool;
  a_optimize : bool
}.

(* xbyak.h:1326-1330 without the call to verify(), see Emit.v address_ctor *)
Definition address0 (sizeBit : Z) (bc : bool) (e : RegExp) : Address :=
  mkAddr (regOf 0 MEM sizeBit false) e None M_ModRM 0 0 false bc true.
(* xbyak.h:1332-1333 Address(size_t disp) *)
Definition address64 (disp : Z) : Address :=
  mkAddr (regOf 0 MEM 64 false) (regExpDisp disp) None M_64bitDisp 0 0 false false true.

(* xbyak.h:899-903 RegRip *)
Record RegRip := mkRip { rip_disp : Z; rip_label : option LabelH; rip_isAddr : bool }.
(* xbyak.h:1334-1335 *)
Definition addressRip (sizeBit : Z) (bc : bool) (r : RegRip) : Address :=
  mkAddr (regOf 0 MEM sizeBit false) (regExpDisp (rip_disp r)) (rip_label r)
         (if rip_isAddr r then M_ripAddr else M_rip) 0 0 false bc true.

(* xbyak.h:1337-1355 *)
Definition getRegExp (a : Address) : RegExp := if a_optimize a then optimize (a_e a) else a_e a.
Definition cloneNoOptimize (a : Address) : Address :=
  mkAddr (a_op a) (a_e a) (a_label a) (a_mode a) (immSize a) (disp8N a) (permitVsib a) (a_broadcast a) false.
Definition is32bit (a : Address) : bool :=
  (getBit (e_base (a_e a)) =? 32) || (getBit (e_index (a_e a)) =? 32).
Definition isOnlyDisp (a : Address) : bool :=
  (getBit (e_base (a_e a)) =? 0) && (getBit (e_index (a_e a)) =? 0).
Definition getDisp (a : Address) : Z := e_disp (a_e a).
Definition is64bitDisp (a : Address) : bool := AMode_beq (a_mode a) M_64bitDisp.
Definition regHasRex2 (r : Reg) : bool := isREG r && isExtIdx2 r.
Definition addrHasRex2 (a : Address) : bool :=
  regHasRex2 (e_base (a_e a)) || regHasRex2 (e_index (a_e a)).
Definition isVsib (a : Address) : bool := isVsibE (a_e a) vsib_bits.
Definition set_immSize (a : Address) (n : Z) : Address :=
  mkAddr (a_op a) (a_e a) (a_label a) (a_mode a) n (disp8N a) (permitVsib a) (a_broadcast a) (a_optimize a).
Definition set_disp8N (a : Address) (n : Z) : Address :=
  mkAddr (a_op a) (a_e a) (a_label a) (a_mode a) (immSize a) n (permitVsib a) (a_broadcast a) (a_optimize a).
Definition set_permitVsib (a : Address) : Address :=
  mkAddr (a_op a) (a_e a) (a_label a) (a_mode a) (immSize a) (disp8N a) true (a_broadcast a) (a_optimize a).
Definition set_aop (a : Address) (o : Reg) : Address :=
  mkAddr o (a_e a) (a_label a) (a_mode a) (immSize a) (disp8N a) (permitVsib a) (a_broadcast a) (a_optimize a).

(* An Operand reference: a register object or an Address object. *)
Inductive Operand := OReg (r : Reg) | OMem (a : Address).
(* the Operand sub-object *)
Definition ob (o : Operand) : Reg := match o with OReg r => r | OMem a => a_op a end.
(* isMEM() is kind-based in C++; the model's constructor carries the dynamic type,
   and Address objects always have kind MEM (address0/address64/addressRip). *)
Definition isMEM (o : Operand) : bool := match o with OMem _ => true | OReg _ => false end.
Definition isMEMb (o : Operand) (b : Z) : bool :=
  match o with OMem a => is_ (a_op a) MEM b | OReg _ => false end.
(* xbyak.h:1387-1390 *)
Definition hasRex2 (o : Operand) : bool :=
  match o with OReg r => regHasRex2 r | OMem a => addrHasRex2 a end.
(* xbyak.h:626-627 *)
Definition hasRex2NFZU (o : Operand) : bool := hasRex2 o || NF_ (ob o) || ZU_ (ob o).
