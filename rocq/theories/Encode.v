(* The encoder helpers of CodeGenerator (xbyak.h:1726-2858), function by function.
   Configuration: XBYAK64, not ILP32, XBYAK_OLD_DISP_CHECK undefined, AVX512 enabled.
   Default arguments are passed explicitly.  [fn d] marks a C++ function boundary with
   error return value d (see Emit.v).  isREG()/isXMM()/... of an [Operand] are taken on
   its Operand sub-object [ob]. *)
From Coq Require Import ZArith List Bool String.
From Verif Require Import Base Types Emit.
Import ListNotations.
Open Scope Z_scope.

(* ---- T_* attribute flags, xbyak.h:1827-1877 ---- *)
Definition T_NONE := 0.
Definition T_N1 := 1.   Definition T_N2 := 2.   Definition T_N4 := 3.
Definition T_N8 := 4.   Definition T_N16 := 5.  Definition T_N32 := 6.
Definition T_NX_MASK := 7.  Definition T_DUP := 7.
Definition T_N_VL := 8.
Definition T_APX := 16.
Definition T_66 := 32.      Definition T_F3 := 64.
Definition T_ER_R := 128.
Definition T_0F := 256.     Definition T_0F38 := 512.   Definition T_0F3A := 1024.
Definition T_L0 := 2048.    Definition T_L1 := 4096.
Definition T_W0 := 8192.    Definition T_W1 := 16384.
Definition T_EW0 := 32768.  Definition T_EW1 := 65536.
Definition T_YMM := 131072. Definition T_EVEX := 262144.
Definition T_ER_X := 524288.   Definition T_ER_Y := 1048576.  Definition T_ER_Z := 2097152.
Definition T_SAE_X := 4194304. Definition T_SAE_Y := 8388608. Definition T_SAE_Z := 16777216.
Definition T_MUST_EVEX := 33554432.
Definition T_B32 := 67108864.  Definition T_B64 := 134217728. Definition T_B16 := 201326592.
Definition T_M_K := 268435456. Definition T_VSIB := 536870912.
Definition T_MEM_EVEX := 1073741824.
Definition T_FP16 := 2147483648.
Definition T_MAP5 := T_FP16 ||| T_0F.  Definition T_MAP6 := T_FP16 ||| T_0F38.
Definition T_NF := 4294967296. Definition T_CODE1_IF1 := 8589934592.
Definition T_ND1 := 34359738368. Definition T_ZU := 68719476736. Definition T_F2 := 137438953472.
Definition T_SENTRY := 274877906943.
Definition T_ALLOW_DIFF_SIZE := 274877906944.
Definition T_ALLOW_ABCDH := 549755813888.

(* xbyak.h:3142 *)
Definition NONE := 256.

(* ---- operand predicates on Operand references ---- *)
Definition oXMM (o : Operand) := isXMM (ob o).
Definition oMMX (o : Operand) := isMMX (ob o).
Definition oREG (o : Operand) := isREG (ob o).
Definition oREGb (o : Operand) b := isREGb (ob o) b.
Definition oBit (o : Operand) b := isBit (ob o) b.
Definition ogetBit (o : Operand) := getBit (ob o).
Definition ogetIdx (o : Operand) := getIdx (ob o).
Definition oKind (o : Operand) := kind_ (ob o).

(* xbyak.h:1726-1764 *)
Definition isXMM_XMMorMEM (op1 op2 : Operand) := oXMM op1 && (oXMM op2 || isMEM op2).
Definition isXMMorMMX_MEM (op1 op2 : Operand) :=
  (oMMX op1 && (oMMX op2 || isMEM op2)) || isXMM_XMMorMEM op1 op2.
Definition isXMM_MMXorMEM (op1 op2 : Operand) := oXMM op1 && (oMMX op2 || isMEM op2).
Definition isMMX_XMMorMEM (op1 op2 : Operand) := oMMX op1 && (oXMM op2 || isMEM op2).
Definition isXMM_REG32orMEM (op1 op2 : Operand) := oXMM op1 && (oREGb op2 i32e || isMEM op2).
Definition isREG32_XMMorMEM (op1 op2 : Operand) := oREGb op1 i32e && (oXMM op2 || isMEM op2).
Definition isREG32_REG32orMEM (op1 op2 : Operand) :=
  oREGb op1 i32e && ((oREGb op2 i32e && (ogetBit op1 =? ogetBit op2)) || isMEM op2).
Definition isValidSSE (o : Operand) := negb (oXMM o && (16 <=? ogetIdx o)).

(* xbyak.h:1765-1772 *)
Definition rexRXB (bit : Z) (bit3 : bool) (r b x : Reg) : Z :=
  (if bit3 then 8 else 0) ||| (if hasIdxBit r bit then 4 else 0)
  ||| (if hasIdxBit x bit then 2 else 0) ||| (if hasIdxBit b bit then 1 else 0).
(* xbyak.h:1773-1777 *)
Definition rex2 (bit3 : bool) (rex4bit : Z) (r b x : Reg) : E unit :=
  db 0xD5 ;;; db ((rexRXB 4 bit3 r b x <<< 4) ||| rex4bit).
Definition noOp := OReg noReg.   (* Operand() *)

(* xbyak.h:1779-1825; true iff REX2 was emitted.  static_cast<const Reg&>(op) of an
   operand that is not an Address is its Operand sub-object. *)
Definition rex (op1 op2 : Operand) (type : Z) : E bool := fn false
  (if NF_ (ob op1) || NF_ (ob op2) then throw ERR_INVALID_NF else
   if ZU_ (ob op1) || ZU_ (ob op2) then throw ERR_INVALID_ZU else
   let (p1, p2) := if isMEM op1 then (op2, op1) else (op1, op2) in
   if isMEM p1 then throw ERR_BAD_COMBINATION else
   let p66 := (oBit op1 16 && negb (oBit op2 i32e)) || (oBit op2 16 && negb (oBit op1 i32e)) in
   when has type T_66 || p66 do db 0x66 ;;;
   when has type T_F2 do db 0xF2 ;;;
   when has type T_F3 do db 0xF3 ;;;
   let is0F := has type T_0F in
   match p2 with
   | OMem addr =>
       let r := ob p1 in
       let e := getRegExp addr in
       let base := e_base e in let idx := e_index e in
       when is32bit addr do db 0x67 ;;;
       let rx := rexRXB 3 (isREGb r 64) r base idx in
       if regHasRex2 r || addrHasRex2 addr then
         (if has type (T_0F38 ||| T_0F3A) then throw ERR_CANT_USE_REX2 else
          rex2 is0F rx r base idx ;;; ret true)
       else
         let rx := if negb (rx =? 0) || isExt8bit r then rx ||| 0x40 else rx in
         when negb (rx =? 0) do db rx ;;; ret false
   | OReg _ =>
       let r1 := ob op1 in let r2 := ob op2 in
       let rx := rexRXB 3 (isREGb r1 64 || isREGb r2 64) r2 r1 noReg in
       if regHasRex2 r1 || regHasRex2 r2 then
         (if has type (T_0F38 ||| T_0F3A) then throw ERR_CANT_USE_REX2 else
          rex2 is0F rx r2 r1 noReg ;;; ret true)
       else
         let rx := if negb (rx =? 0) || isExt8bit r1 || isExt8bit r2 then rx ||| 0x40 else rx in
         when negb (rx =? 0) do db rx ;;; ret false
   end).

(* xbyak.h:1879-1881 *)
Definition getPP (type : Z) : Z :=
  if has type T_66 then 1 else if has type T_F3 then 2 else if has type T_F2 then 3 else 0.
Definition getMap (type : Z) : Z :=
  if has type T_0F then 1 else if has type T_0F38 then 2 else if has type T_0F3A then 3 else 0.

(* xbyak.h:1882-1899 *)
Definition vex (reg base : Reg) (v : option Reg) (type code : Z) (x : bool) : E unit := fn tt
  (let w := b2z (has type T_W1) in
   let is256 := if has type T_L1 then true else if has type T_L0 then false else isYMM reg in
   let r := isExtIdx reg in
   let b := isExtIdx base in
   let idx := match v with Some v => getIdx v | None => 0 end in
   if 16 <=? (idx ||| getIdx reg ||| getIdx base) then throw ERR_BAD_COMBINATION else
   let pp := getPP type in
   let vvvv := ((Z.lnot idx &&& 15) <<< 3) ||| (if is256 then 4 else 0) ||| pp in
   (if negb b && negb x && (w =? 0) && has type T_0F then
      db 0xC5 ;;; db ((if r then 0 else 0x80) ||| vvvv)
    else
      let mmmm := getMap type in
      db 0xC4 ;;;
      db ((if r then 0 else 0x80) ||| (if x then 0 else 0x40) ||| (if b then 0 else 0x20) ||| mmmm) ;;;
      db ((w <<< 7) ||| vvvv)) ;;;
   db code).

(* xbyak.h:1901-1906 *)
Definition verifySAE (r b : Reg) (type : Z) : E bool := fn false
  (if (has type T_SAE_X && (isYMM r && isXMM b)) || (has type T_SAE_Y && isXMM b)
      || (has type T_SAE_Z && isYMM b) then ret true else
   if (has type T_SAE_X && isXMM b) || (has type T_SAE_Y && isYMM b) || (has type T_SAE_Z && isZMM b)
   then ret false else throw ERR_SAE_IS_INVALID).
(* xbyak.h:1907-1913 *)
Definition verifyER (r b : Reg) (type : Z) : E bool := fn false
  (if has type T_ER_R && isREGb b 96 then ret false else
   if (has type T_ER_X && (isYMM r && isXMM b)) || (has type T_ER_Y && isXMM b)
      || (has type T_ER_Z && isYMM b) then ret true else
   if (has type T_ER_X && isXMM b) || (has type T_ER_Y && isYMM b) || (has type T_ER_Z && isZMM b)
   then ret false else throw ERR_SAE_IS_INVALID).
(* xbyak.h:1915-1920 *)
Definition verifyDuplicate (a b c : Z) (err : xerr) : E Z := fn 0
  (let v := a ||| b ||| c in
   if ((0 <? a) && negb (a =? v)) || ((0 <? b) && negb (b =? v)) || ((0 <? c) && negb (c =? v))
   then throw err else ret v).

(* the disp8N computation of xbyak.h:1939, 1953-1966 *)
Definition evexDisp8N (type VL : Z) (b : bool) : Z :=
  if b then (if (type &&& T_B16) =? T_B16 then 2 else if has type T_B32 then 4 else 8)
  else if (type &&& T_NX_MASK) =? T_DUP then (if VL =? 128 then 8 else if VL =? 256 then 32 else 64)
  else
    let type' := if (type &&& (T_NX_MASK ||| T_N_VL)) =? 0 then type ||| T_N16 ||| T_N_VL else type in
    let low := type' &&& T_NX_MASK in
    if 0 <? low then
      (1 <<< (low - 1)) * (if has type' T_N_VL then (if VL =? 512 then 4 else if VL =? 256 then 2 else 1) else 1)
    else 1.

(* xbyak.h:1921-1978; v, x: pointers, None = null *)
Definition evex (reg base : Reg) (v : option Reg) (type code : Z) (x : option Reg) (b0 : bool)
    (aaa0 VL0 : Z) (Hi16Vidx : bool) : E Z := fn 0
  (if negb (has type (T_EVEX ||| T_MUST_EVEX)) then throw ERR_EVEX_IS_INVALID else
   let w := has type T_EW1 in
   let mmm := getMap type ||| (if has type T_FP16 then 4 else 0) in
   let pp := getPP type in
   let idx := match v with Some v => getIdx v | None => 0 end in
   let vvvv := Z.lnot idx in
   let R := isExtIdx reg in
   let X3 := (match x with Some x => isExtIdx x | None => false end) || (isSIMD base && isExtIdx2 base) in
   let B4 := if isREG base && isExtIdx2 base then 8 else 0 in
   let U0 := if (match x with Some x => isREG x && isExtIdx2 x | None => false end) then 0 else 4 in
   let B := isExtIdx base in
   let Rp := isExtIdx2 reg in
   rounding <- verifyDuplicate (rounding_ reg) (rounding_ base)
                 (match v with Some v => rounding_ v | None => 0 end) ERR_ROUNDING_IS_ALREADY_SET ;;
   '(U, b, LL, disp8N) <-
     (if negb (rounding =? 0) then
        isUzero <- (if rounding =? 5 then verifySAE reg base type else verifyER reg base type) ;;
        ret (if isUzero then 0 else U0, true, if rounding =? 5 then 0 else rounding - 1, 1)
      else
        let VL := match v with Some v => Z.max VL0 (getBit v) | None => VL0 end in
        let VL := Z.max (Z.max (getBit reg) (getBit base)) VL in
        ret (U0, b0, if VL =? 512 then 2 else if VL =? 256 then 1 else 0, evexDisp8N type VL b0)) ;;
   let V4 := (match v with Some v => isExtIdx2 v | None => false end) || Hi16Vidx in
   let z := zero_ reg || zero_ base || (match v with Some v => zero_ v | None => false end) in
   aaa <- (if aaa0 =? 0 then verifyDuplicate (mask_ base) (mask_ reg)
                 (match v with Some v => mask_ v | None => 0 end) ERR_OPMASK_IS_ALREADY_SET
           else ret aaa0) ;;
   let z := if aaa =? 0 then false else z in
   db 0x62 ;;;
   db ((if R then 0 else 0x80) ||| (if X3 then 0 else 0x40) ||| (if B then 0 else 0x20)
       ||| (if Rp then 0 else 0x10) ||| B4 ||| mmm) ;;;
   db ((if w then 0x80 else 0) ||| ((vvvv &&& 15) <<< 3) ||| U ||| (pp &&& 3)) ;;;
   db ((if z then 0x80 else 0) ||| ((LL &&& 3) <<< 5) ||| (if b then 0x10 else 0)
       ||| (if V4 then 0 else 8) ||| (aaa &&& 7)) ;;;
   db code ;;;
   ret disp8N).

(* xbyak.h:1980-2006 *)
Definition evexLeg (r b x v : Reg) (type sc : Z) : E unit := fn tt
  (let M := if getMap type =? 0 then 4 else getMap type in
   let R3 := b2z (negb (isExtIdx r)) in
   let X3 := b2z (negb (isExtIdx x)) in
   let B3 := if isExtIdx b then 0 else 0x20 in
   let R4 := if isExtIdx2 r then 0 else 0x10 in
   let B4 := if isExtIdx2 b then 0x08 else 0 in
   let w := if has type T_W0 then 0 else b2z (isBit r 64 || isBit v 64 || has type T_W1) in
   let V := (Z.lnot (getIdx v) &&& 15) <<< 3 in
   let X4 := if isExtIdx2 x then 0 else 0x04 in
   let pp := if has type (T_F2 ||| T_F3 ||| T_66) then getPP type else b2z (isBit r 16 || isBit v 16) in
   let V4 := b2z (negb (isExtIdx2 v)) in
   let ND := b2z (if has type T_ZU then ZU_ r || ZU_ b else if has type T_ND1 then true
                  else if has type T_APX then false else isREG v) in
   let NF := NF_ r || NF_ b || NF_ x || NF_ v in
   if negb (has type T_NF) && NF then throw ERR_INVALID_NF else
   if negb (has type T_ZU) && ZU_ r then throw ERR_INVALID_ZU else
   db 0x62 ;;;
   db ((R3 <<< 7) ||| (X3 <<< 6) ||| B3 ||| R4 ||| B4 ||| M) ;;;
   db ((w <<< 7) ||| V ||| X4 ||| pp) ;;;
   (if negb (sc =? NONE) then db ((ND <<< 4) ||| sc)
    else db ((ND <<< 4) ||| (V4 <<< 3) ||| (b2z NF <<< 2)))).

(* xbyak.h:2007-2010 *)
Definition setModRM (mod_ r1 r2 : Z) : E unit :=
  db (w8 ((mod_ <<< 6) ||| ((r1 &&& 7) <<< 3) ||| (r2 &&& 7))).

(* xbyak.h:2011-2072 *)
Definition setSIB (e : RegExp) (reg disp8N : Z) : E unit := fn tt
  (let disp64 := e_disp e in
   let high := disp64 >>> 31 in
   if negb (high =? 0) && negb (high =? 0x1FFFFFFFF) then throw ERR_OFFSET_IS_TOO_BIG else
   let disp := w32 disp64 in
   let base := e_base e in let index := e_index e in
   let baseIdx := getIdx base in
   let baseBit := getBit base in
   let indexBit := getBit index in
   let '(md, disp) :=
     if (baseBit =? 0) || (negb ((baseIdx &&& 7) =? 5) && (disp =? 0)) then (0, disp)
     else if disp8N =? 0 then (if IsInDisp8 disp then (1, disp) else (2, disp))
     else
       let t := w32 (Z.quot (s32 disp) disp8N) in
       if (disp mod disp8N =? 0) && IsInDisp8 t then (1, t) else (2, disp) in
   let newBaseIdx := if baseBit =? 0 then 5 else baseIdx &&& 7 in
   let hasSIB := negb (indexBit =? 0) || ((baseIdx &&& 7) =? 4) || ((baseBit =? 0) && (indexBit =? 0)) in
   (if hasSIB then
      let idx := if indexBit =? 0 then 4 else getIdx index &&& 7 in
      let scale := e_scale e in
      let SS := if scale =? 8 then 3 else if scale =? 4 then 2 else if scale =? 2 then 1 else 0 in
      setModRM md reg 4 ;;; setModRM SS idx newBaseIdx
    else setModRM md reg newBaseIdx) ;;;
   (if md =? 1 then db disp
    else if (md =? 2) || ((md =? 0) && (baseBit =? 0)) then dd disp else ret tt)).

(* xbyak.h:2074-2086 *)
Definition writeCode (type : Z) (r : Reg) (code : Z) (isrex2 : bool) : E unit :=
  (if negb (has type T_APX || isrex2) then
     if has type T_0F then db 0x0F
     else if has type T_0F38 then db 0x0F ;;; db 0x38
     else if has type T_0F3A then db 0x0F ;;; db 0x3A
     else ret tt
   else ret tt) ;;;
  db (code ||| b2z ((((type &&& T_SENTRY) =? 0) || has type T_CODE1_IF1) && negb (isBit r 8))).

(* xbyak.h:2246-2251 *)
Definition isBadCombination (r1 r2 : Reg) : bool :=
  isHigh8bit r1 && (isExt8bit r2 || (8 <=? getIdx r2)).

(* xbyak.h:2087-2094 *)
Definition opRR (r1 r2 : Reg) (type code : Z) : E unit := fn tt
  (if negb (has type T_ALLOW_DIFF_SIZE) && isREG r1 && isREG r2 && negb (getBit r1 =? getBit r2)
   then throw ERR_BAD_SIZE_OF_REGISTER else
   if negb (has type T_ALLOW_ABCDH) && (isBadCombination r1 r2 || isBadCombination r2 r1)
   then throw ERR_CANT_USE_ABCDH else
   x2 <- rex (OReg r2) (OReg r1) type ;;
   writeCode type r1 code x2 ;;;
   setModRM 3 (getIdx r1) (getIdx r2)).

(* xbyak.h:2184-2202; putL_inner is the item IPutL *)
Definition opAddr (addr : Address) (reg : Z) : E unit := fn tt
  (if negb (permitVsib addr) && isVsib addr then throw ERR_BAD_VSIB_ADDRESSING else
   match a_mode addr with
   | M_ModRM => setSIB (getRegExp addr) reg (disp8N addr)
   | M_rip | M_ripAddr =>
       setModRM 0 reg 5 ;;;
       match a_label addr with
       | Some l => emit (IPutL (LObj l) true (w64 (getDisp addr - immSize addr)))
       | None =>
           disp <- (match a_mode addr with
                    | M_ripAddr =>
                        env <- ask ;;
                        if env_autoGrow env then throw ERR_INVALID_RIP_IN_AUTO_GROW else
                        c <- getCurr ;;
                        ret (w64 (getDisp addr - (c + 4 + immSize addr)))
                    | _ => ret (getDisp addr)
                    end) ;;
           d <- VerifyInInt32 disp ;;
           dd d
       end
   | M_64bitDisp => ret tt
   end).

(* xbyak.h:2253-2273 *)
Definition opROO (d : Reg) (op1 op2 : Operand) (type code immSize sc : Z) : E bool := fn false
  (if negb (has type T_MUST_EVEX) && negb (isREG d)
      && negb (hasRex2NFZU (OReg d) || hasRex2NFZU op1 || hasRex2NFZU op2) then ret false else
   let '(p1, p2, code) := if isMEM op1 then (op2, op1, code)
                          else (op1, op2, if isMEM op2 then code ||| 2 else code) in
   if isMEM p1 then throw ERR_BAD_COMBINATION else
   match p2 with
   | OMem addr =>
       let r := ob p1 in
       let e := getRegExp addr in
       evexLeg r (e_base e) (e_index e) d type sc ;;;
       writeCode type d code false ;;;
       opAddr (set_immSize addr immSize) (getIdx r) ;;; ret true
   | OReg _ =>
       evexLeg (ob op2) (ob op1) noReg d type sc ;;;
       writeCode type d code false ;;;
       setModRM 3 (ogetIdx op2) (ogetIdx op1) ;;; ret true
   end).

(* xbyak.h:2095-2104 *)
Definition opMR (addr : Address) (r : Reg) (type code type2 code2 : Z) : E unit := fn tt
  (let code2 := if code2 =? NONE then code else code2 in
   done <- (if negb (type2 =? 0) then opROO noReg (OMem addr) (OReg r) type2 code2 0 NONE else ret false) ;;
   if (done : bool) then ret tt else
   if is64bitDisp addr then throw ERR_CANT_USE_64BIT_DISP else
   if negb (has type T_ALLOW_DIFF_SIZE) && (getBit r <=? BIT) && (0 <? getBit (a_op addr))
      && negb (getBit (a_op addr) =? getBit r) then throw ERR_BAD_MEM_SIZE else
   x2 <- rex (OMem addr) (OReg r) type ;;
   writeCode type r code x2 ;;;
   opAddr addr (getIdx r)).

(* xbyak.h:2105-2114 *)
Definition opLoadSeg (addr : Address) (reg : Reg) (type code : Z) : E unit := fn tt
  (if isBit reg 8 then throw ERR_BAD_SIZE_OF_REGISTER else
   if is64bitDisp addr then throw ERR_CANT_USE_64BIT_DISP else
   rex (OMem addr) (OReg reg) type ;;;
   when has type T_0F do db 0x0F ;;;
   db code ;;;
   opAddr addr (getIdx reg)).

(* xbyak.h:2116-2120 *)
Definition opMIB (addr : Address) (reg : Reg) (type code : Z) : E unit := fn tt
  (if negb (AMode_beq (a_mode addr) M_ModRM) then throw ERR_INVALID_MIB_ADDRESS else
   opMR (cloneNoOptimize addr) reg type code 0 NONE).

(* xbyak.h:1708-1713 *)
Inductive LabelType := T_SHORT | T_NEAR | T_FAR | T_AUTO.
Scheme Equality for LabelType.

(* xbyak.h:2121-2133; disp is uint32_t *)
Definition makeJmp (disp : Z) (type : LabelType) (shortCode longCode longPref : Z) : E unit := fn tt
  (let longJmpSize := (if longPref =? 0 then 1 else 2) + 4 in
   if negb (LabelType_beq type T_NEAR) && IsInDisp8 (w32 (disp - 2)) then
     db shortCode ;;; db (w32 (disp - 2))
   else if LabelType_beq type T_SHORT then throw ERR_LABEL_IS_TOO_FAR else
     when negb (longPref =? 0) do db longPref ;;;
     db longCode ;;; dd (w32 (disp - longJmpSize))).

(* getAddress(immSize), xbyak.h:1374-1379; used on memory operands only *)
Definition addrOf (o : Operand) (n : Z) : Address :=
  match o with OMem a => set_immSize a n | OReg _ => address0 0 false (regExpDisp 0) end.

(* xbyak.h:2274-2287 ; d : const Reg * *)
Definition opRext (op : Operand) (bit ext type code : Z) (disableRex : bool) (immSize : Z)
    (d : option Reg) : E unit := fn tt
  (let opBit := if disableRex && (ogetBit op =? 64) then 32 else ogetBit op in
   let r := regOf ext REG opBit false in
   done <- (if has type T_APX && ((match d with Some _ => true | None => false end) || hasRex2NFZU op)
            then opROO (match d with Some d => d | None => regOf 0 REG opBit false end) op (OReg r) type code 0 NONE
            else ret false) ;;
   if (done : bool) then ret tt else
   match op with
   | OMem a => opMR (set_immSize a immSize) r type code 0 NONE
   | OReg q =>
       if isREGb q bit then
         q' <- changeBit q opBit ;; opRR r q' (type ||| T_ALLOW_ABCDH) code
       else throw ERR_BAD_COMBINATION
   end).

(* xbyak.h:2172-2181 *)
Definition opJmpOp (op : Operand) (type : LabelType) (ext : Z) : E unit := fn tt
  (let bit := 16 ||| i32e in
   if LabelType_beq type T_FAR then
     (if negb (isMEMb op bit) then throw ERR_NOT_SUPPORTED else
      opRext op bit (ext + 1) 0 0xFF false 0 None)
   else opRext op bit ext 0 0xFF true 0 None).

(* xbyak.h:2309-2318 *)
Definition opRO (r : Reg) (op : Operand) (type code : Z) (condR : bool) (immSize : Z) : E unit := fn tt
  (match op with
   | OMem a => opMR (set_immSize a immSize) r type code 0 NONE
   | OReg q => if condR then opRR r q type code else throw ERR_BAD_COMBINATION
   end).

(* xbyak.h:2203-2209 ; isValid : optional function pointer *)
Definition opSSE (r : Reg) (op : Operand) (type code : Z)
    (isValid : option (Operand -> Operand -> bool)) (imm8 : Z) : E unit := fn tt
  (if (match isValid with Some f => negb (f (OReg r) op) | None => false end)
   then throw ERR_BAD_COMBINATION else
   if negb (isValidSSE (OReg r)) || negb (isValidSSE op) then throw ERR_NOT_SUPPORTED else
   opRO r op type code true (if imm8 =? NONE then 0 else 1) ;;;
   when negb (imm8 =? NONE) do db imm8).

(* xbyak.h:2210-2217 *)
Definition opMMX_IMM (mmx : Reg) (imm8 code ext : Z) : E unit := fn tt
  (if negb (isValidSSE (OReg mmx)) then throw ERR_NOT_SUPPORTED else
   let type := if isXMM mmx then T_0F ||| T_66 else T_0F in
   opRR (Reg32 ext) mmx type code ;;;
   db imm8).
(* xbyak.h:2218-2222 *)
Definition opMMX (mmx : Reg) (op : Operand) (code type pref imm8 : Z) : E unit :=
  opSSE mmx op (if isXMM mmx then type ||| pref else type) code (Some isXMMorMMX_MEM) imm8.
(* xbyak.h:2223-2233 *)
Definition opMovXMM (op1 op2 : Operand) (type code : Z) : E unit := fn tt
  (if negb (isValidSSE op1) || negb (isValidSSE op2) then throw ERR_NOT_SUPPORTED else
   match op1, op2 with
   | OReg r, OMem a => if isXMM r then opMR a r type code 0 NONE else throw ERR_BAD_COMBINATION
   | OMem a, OReg r => if isXMM r then opMR a r type (code ||| 1) 0 NONE else throw ERR_BAD_COMBINATION
   | _, _ => throw ERR_BAD_COMBINATION
   end).
(* xbyak.h:2235-2244 *)
Definition opExt (op : Operand) (mmx : Reg) (code imm : Z) (hasMMX2 : bool) : E unit := fn tt
  (if negb (isValidSSE op) || negb (isValidSSE (OReg mmx)) then throw ERR_NOT_SUPPORTED else
   if hasMMX2 && oREGb op i32e then
     when isXMM mmx do db 0x66 ;;;
     opRR (ob op) mmx T_0F 0xC5 ;;; db imm
   else opSSE mmx op (T_66 ||| T_0F3A) code (Some isXMM_REG32orMEM) imm).

(* xbyak.h:2288-2292 *)
Definition opSetCC (op : Operand) (ext : Z) : E unit :=
  done <- opROO noReg op (OReg noReg) (T_APX ||| T_ZU ||| T_F2) (0x40 ||| ext) 0 NONE ;;
  if (done : bool) then ret tt else
  opRext op 8 0 T_0F (0x90 ||| ext) false 0 None.

(* xbyak.h:2420-2423 *)
Definition verifyMemHasSize (op : Operand) : E unit := fn tt
  (if isMEM op && (ogetBit op =? 0) then throw ERR_MEM_SIZE_IS_NOT_SPECIFIED else ret tt).

(* xbyak.h:2293-2300 *)
Definition shiftType (ext : Z) (d : option Reg) : Z :=
  T_APX ||| T_CODE1_IF1 ||| (if has ext 8 then T_NF else 0) ||| (match d with Some _ => T_ND1 | None => 0 end).
Definition opShift (op : Operand) (imm ext : Z) (d : option Reg) : E unit := fn tt
  ((match d with None => verifyMemHasSize op | Some _ => ret tt end) ;;;
   if (match d with Some d => negb (ogetBit op =? 0) && negb (getBit d =? ogetBit op) | None => false end)
   then throw ERR_BAD_SIZE_OF_REGISTER else
   opRext op 0 (ext &&& 7) (shiftType ext d) (0xC0 ||| ((if imm =? 1 then 1 else 0) <<< 4)) false
          (if imm =? 1 then 0 else 1) d ;;;
   when negb (imm =? 1) do db imm).
(* xbyak.h:2301-2307 *)
Definition opShiftCL (op : Operand) (cl_ : Reg) (ext : Z) (d : option Reg) : E unit := fn tt
  (if negb (getIdx cl_ =? 1) then throw ERR_BAD_COMBINATION else
   if (match d with Some d => negb (ogetBit op =? 0) && negb (getBit d =? ogetBit op) | None => false end)
   then throw ERR_BAD_SIZE_OF_REGISTER else
   opRext op 0 (ext &&& 7) (shiftType ext d) 0xD2 false 0 d).

(* xbyak.h:2319-2331 ; imm is uint8_t *)
Definition opShxd (d : Reg) (op : Operand) (reg : Reg) (imm code code2 : Z) (cl_ : option Reg) : E unit := fn tt
  (if (match cl_ with Some c => negb (getIdx c =? 1) | None => false end) then throw ERR_BAD_COMBINATION else
   if negb (isREGb reg (16 ||| i32e)) then throw ERR_BAD_SIZE_OF_REGISTER else
   let immSize := match cl_ with Some _ => 0 | None => 1 end in
   let code := match cl_ with Some _ => code ||| 1 | None => code end in
   let type := T_APX ||| T_NF ||| (if isREG d then T_ND1 else 0) in
   done <- opROO d op (OReg reg) type (match cl_ with Some _ => code | None => code2 end) immSize NONE ;;
   when negb (done : bool) do opRO reg op T_0F code true immSize ;;;
   match cl_ with Some _ => ret tt | None => db imm end).

(* xbyak.h:2333-2341 *)
Definition opRO_MR (op1 op2 : Operand) (code : Z) : E unit := fn tt
  (match op2 with
   | OMem a2 =>
       if negb (oREG op1) then throw ERR_BAD_COMBINATION else
       opMR a2 (ob op1) 0 (code ||| 2) 0 NONE
   | OReg r2 => opRO r2 op1 0 code (oKind op1 =? kind_ r2) 0
   end).

(* xbyak.h:2344 *)
Definition isInDisp16relaxed (x : Z) : bool :=
  let v := w32 x &&& 0xffff0000 in (v =? 0) || (v =? 0xffff0000).
(* xbyak.h:2345-2353 *)
Definition getImmBit (op : Operand) (imm : Z) : E Z := fn 0
  (verifyMemHasSize op ;;;
   let immBit := if IsInDisp8 imm then 8 else if isInDisp16relaxed imm then 16 else 32 in
   let immBit := if oBit op 8 then 8 else immBit in
   if ogetBit op <? immBit then throw ERR_IMM_IS_TOO_BIG else
   ret (if oBit op 96 && (immBit =? 16) then 32 else immBit)).
(* xbyak.h:2355-2366 ; imm is uint32_t *)
Definition opOI (op : Operand) (imm0 code ext : Z) : E unit :=
  let imm := w32 imm0 in
  immBit <- getImmBit op imm ;;
  (if oREG op && (ogetIdx op =? 0) && ((ogetBit op =? immBit) || (oBit op 64 && (immBit =? 32))) then
     rex op noOp 0 ;;; db (code ||| 4 ||| (if immBit =? 8 then 0 else 1))
   else
     let tmp := if immBit <? Z.min (ogetBit op) 32 then 2 else 0 in
     opRext op 0 ext 0 (0x80 ||| tmp) false (immBit / 8) None) ;;;
  dbn imm (immBit / 8).
(* xbyak.h:2368-2374 *)
Definition opROI (d : Reg) (op : Operand) (imm0 type ext : Z) : E unit :=
  let imm := w32 imm0 in
  immBit <- getImmBit (OReg d) imm ;;
  let code := if immBit <? Z.min (getBit d) 32 then 2 else 0 in
  opROO d op (OReg (regOf ext REG (getBit d) false)) type (0x80 ||| code) (immBit / 8) NONE ;;;
  dbn imm (immBit / 8).
(* xbyak.h:2375-2396 *)
Definition opIncDec (d : Reg) (op : Operand) (ext : Z) : E unit :=
  if isREG d then
    let code := if isBit d 8 then 0xFE else 0xFF in
    let type := T_APX ||| T_NF ||| T_ND1 ||| (if isBit d 16 then T_66 else 0) in
    opROO d op (OReg (regOf ext REG (getBit d) false)) type code 0 NONE ;;; ret tt
  else
    verifyMemHasSize op ;;;
    opRext op (ogetBit op) ext 0 0xFE false 0 None.
(* xbyak.h:2397-2419 *)
Definition opPushPop (op : Operand) (code ext alt : Z) : E unit := fn tt
  (if oREG op && hasRex2 op then
     let r := ob op in
     rex2 false (rexRXB 3 false noReg r noReg) noReg r noReg ;;;
     db (alt ||| (getIdx r &&& 7))
   else
   let bit := ogetBit op in
   if (bit =? 16) || (bit =? BIT) then
     when bit =? 16 do db 0x66 ;;;
     if oREG op then
       when 8 <=? ogetIdx op do db 0x41 ;;;
       db (alt ||| (ogetIdx op &&& 7))
     else match op with
          | OMem a => opMR a (regOf ext REG 32 false) T_ALLOW_DIFF_SIZE code 0 NONE
          | OReg _ => throw ERR_BAD_COMBINATION
          end
   else throw ERR_BAD_COMBINATION).

(* xbyak.h:2427-2445 ; imm is uint64_t *)
Definition mov_imm (reg : Reg) (imm0 : Z) : E Z :=
  let imm := w64 imm0 in
  let bit := getBit reg in
  let idx := getIdx reg in
  let code := 0xB0 ||| ((if bit =? 8 then 0 else 1) <<< 3) in
  '(code, bit) <-
    (if (bit =? 64) && ((imm >>> 32) =? 0) then rex (OReg (Reg32 idx)) noOp 0 ;;; ret (code, 32)
     else
       rex (OReg reg) noOp 0 ;;;
       if (bit =? 64) && IsInInt32 imm then db 0xC7 ;;; ret (0xC0, 32) else ret (code, bit)) ;;
  db (code ||| (idx &&& 7)) ;;;
  ret (bit / 8).

(* xbyak.h:2467-2473 *)
Definition opMovxx (reg : Reg) (op : Operand) (code : Z) : E unit := fn tt
  (if oBit op 32 then throw ERR_BAD_COMBINATION else
   let w := b2z (oBit op 16) in
   if negb (isREG reg && (ogetBit op <? getBit reg)) then throw ERR_BAD_COMBINATION else
   opRO reg op (T_0F ||| T_ALLOW_DIFF_SIZE) (code ||| w) true 0).
(* xbyak.h:2474-2483 *)
Definition opFpuMem (addr : Address) (m16 m32 m64 ext m64ext : Z) : E unit := fn tt
  (if is64bitDisp addr then throw ERR_CANT_USE_64BIT_DISP else
   let o := a_op addr in
   let code := if isBit o 16 then m16 else if isBit o 32 then m32 else if isBit o 64 then m64 else 0 in
   if code =? 0 then throw ERR_BAD_MEM_SIZE else
   let ext := if negb (m64ext =? 0) && isBit o 64 then m64ext else ext in
   rex (OMem addr) (OReg (Fpu 0)) 0 ;;;
   db code ;;;
   opAddr addr ext).
(* xbyak.h:2486-2492 *)
Definition opFpuFpu (reg1 reg2 : Reg) (code1 code2 : Z) : E unit := fn tt
  (let code := if getIdx reg1 =? 0 then code1 else if getIdx reg2 =? 0 then code2 else 0 in
   if code =? 0 then throw ERR_BAD_ST_COMBINATION else
   db (code >>> 8) ;;; db (code ||| (getIdx reg1 ||| getIdx reg2))).
(* xbyak.h:2493-2496 *)
Definition opFpu (reg : Reg) (code1 code2 : Z) : E unit :=
  db code1 ;;; db (code2 ||| getIdx reg).

(* xbyak.h:2497-2533 ; p1 : const Operand * (always a register object when used) *)
Definition opVex (r : Reg) (p1 : option Reg) (op2 : Operand) (type code imm8 : Z) : E unit := fn tt
  ((match op2 with
    | OMem addr =>
        let regExp := getRegExp addr in
        let base := e_base regExp in let index := e_index regExp in
        when is32bit addr do db 0x67 ;;;
        d8 <- (if has type (T_MUST_EVEX ||| T_MEM_EVEX) || hasEvex r
                  || (match p1 with Some p => hasEvex p | None => false end)
                  || a_broadcast addr || negb (mask_ (a_op addr) =? 0) || addrHasRex2 addr then
                 let aaa := mask_ (a_op addr) in
                 if negb (aaa =? 0) && negb (has type T_M_K) then throw ERR_INVALID_OPMASK_WITH_MEMORY else
                 if a_broadcast addr && negb (has type (T_B32 ||| T_B64)) then throw ERR_INVALID_BROADCAST else
                 let VL := if isVsibE regExp vsib_bits then getBit index else 0 in
                 evex r base p1 type code (Some index) (a_broadcast addr) aaa VL (isSIMD index && isExtIdx2 index)
               else
                 vex r base p1 type code (isExtIdx index) ;;; ret 0) ;;
        let addr := if has type T_VSIB then set_permitVsib addr else addr in
        let addr := if d8 =? 0 then addr else set_disp8N addr d8 in
        let addr := if imm8 =? NONE then addr else set_immSize addr 1 in
        opAddr addr (getIdx r)
    | OReg base =>
        (if has type T_MUST_EVEX || hasEvex r
            || (match p1 with Some p => hasEvex p | None => false end) || hasEvex base then
           evex r base p1 type code None false 0 0 false ;;; ret tt
         else vex r base p1 type code false) ;;;
        setModRM 3 (getIdx r) (getIdx base)
    end) ;;;
   when negb (imm8 =? NONE) do db imm8).

(* xbyak.h:2536-2547 *)
Definition opRRO (d r1 : Reg) (op2 : Operand) (type code imm8 : Z) : E unit := fn tt
  (let bit := getBit d in
   if negb (getBit r1 =? bit) || (oREG op2 && negb (ogetBit op2 =? bit)) then throw ERR_BAD_COMBINATION else
   let type := type ||| (if bit =? 64 then T_W1 else T_W0) in
   if hasRex2 (OReg d) || hasRex2 (OReg r1) || hasRex2 op2 || NF_ d then
     opROO r1 op2 (OReg d) type code 0 NONE ;;;
     when negb (imm8 =? NONE) do db imm8
   else opVex d (Some r1) op2 type code imm8).
(* xbyak.h:2548-2559 *)
Definition opAVX_X_X_XM (x1 : Reg) (op1 op2 : Operand) (type code imm8 : Z) : E unit := fn tt
  (let '(x2, op) := if isNone (ob op2) then (x1, op1) else (ob op1, op2) in
   if negb ((isXMM x1 && isXMM x2)
            || (has type T_YMM && ((isYMM x1 && isYMM x2) || (isZMM x1 && isZMM x2))))
   then throw ERR_BAD_COMBINATION else
   opVex x1 (Some x2) op type code imm8).
(* xbyak.h:2560-2564 *)
Definition opAVX_K_X_XM (k x2 : Reg) (op3 : Operand) (type code imm8 : Z) : E unit := fn tt
  (if negb (isMEM op3) && negb (kind_ x2 =? oKind op3) then throw ERR_BAD_COMBINATION else
   opVex k (Some x2) op3 type code imm8).
(* xbyak.h:2566-2574 *)
Definition checkCvt1 (x op : Operand) : E unit := fn tt
  (if negb (isMEM op) && negb (is_ (ob x) (XMM ||| YMM) 0 && oXMM op)
      && negb (isZMM (ob x) && isYMM (ob op)) then throw ERR_BAD_COMBINATION else ret tt).
Definition checkCvt2 (x : Reg) (op : Operand) : E unit := fn tt
  (if negb (isXMM x && is_ (ob op) (XMM ||| YMM ||| MEM) 0)
      && negb (isYMM x && is_ (ob op) (ZMM ||| MEM) 0) then throw ERR_BAD_COMBINATION else ret tt).
(* xbyak.h:2575-2579 ; xm0 is xmm0 *)
Definition opCvt (x : Reg) (op : Operand) (type code : Z) : E unit :=
  let kind := if isXMM x then (if oBit op 256 then YMM else XMM) else ZMM in
  opVex (setKind x kind) (Some (Xmm 0)) op type code NONE.
(* xbyak.h:2580-2584 *)
Definition opCvt2 (x : Reg) (op : Operand) (type code : Z) : E unit :=
  checkCvt2 x op ;;; opCvt x op type code.
(* xbyak.h:2585-2591 *)
Definition opCvt3 (x1 x2 : Reg) (op : Operand) (type type64 type32 code : Z) : E unit := fn tt
  (if negb (isXMM x1 && isXMM x2 && (oREGb op i32e || isMEM op)) then throw ERR_BAD_SIZE_OF_REGISTER else
   let x := Xmm (ogetIdx op) in
   let p := if oREG op then OReg x else op in
   opVex x1 (Some x2) p (type ||| (if oBit op 64 then type64 else type32)) code NONE).
(* xbyak.h:2593-2596 *)
Definition checkCvt4 (x : Reg) (op : Operand) : E unit := fn tt
  (if negb (isXMM x && is_ (ob op) (XMM ||| YMM ||| MEM) 0 && oBit op 384)
      && negb (isYMM x && is_ (ob op) (ZMM ||| MEM) 0) then throw ERR_BAD_COMBINATION else ret tt).
(* xbyak.h:2598-2603 *)
Definition opCvt5 (x : Reg) (op : Operand) (type code : Z) : E unit := fn tt
  (if negb (isXMM x && oBit op 896) then throw ERR_BAD_COMBINATION else
   let kind := if oBit op 128 then XMM else if oBit op 256 then YMM else ZMM in
   opVex (setKind x kind) (Some (Xmm 0)) op type code NONE).
(* xbyak.h:2605-2615 *)
Definition opCvt6 (x1 x2 : Reg) (op : Operand) (type code : Z) : E unit := fn tt
  (let b1 := getBit x1 in let b2 := getBit x2 in let b3 := ogetBit op in
   if ((b1 =? 128) && ((b2 =? 128) || (b2 =? 256)) && ((b2 =? b3) || isMEM op))
      || ((b1 =? 256) && (b2 =? 512) && ((b3 =? b2) || isMEM op))
   then opVex x1 (Some x2) op type code NONE else throw ERR_BAD_COMBINATION).
(* xbyak.h:2616-2619 *)
Definition cvtIdx0 (x : Operand) : Reg :=
  if isZMM (ob x) then Zmm 0 else if isYMM (ob x) then Ymm 0 else Xmm 0.
(* xbyak.h:2621-2624 *)
Definition opAVX_X_XM_IMM (x : Reg) (op : Operand) (type code imm8 : Z) : E unit :=
  opAVX_X_X_XM x (OReg (cvtIdx0 (OReg x))) op type code imm8.
(* xbyak.h:2625-2631 *)
Definition opCnt (reg : Reg) (op : Operand) (code : Z) : E unit := fn tt
  (if isBit reg 8 then throw ERR_BAD_SIZE_OF_REGISTER else
   let is16bit := isREGb reg 16 && (oREGb op 16 || isMEM op) in
   if negb is16bit && negb (isREGb reg i32e && (oREGb op (getBit reg) || isMEM op))
   then throw ERR_BAD_COMBINATION else
   opRO reg op (T_F3 ||| T_0F) code true 0).
(* xbyak.h:2632-2656 *)
Definition opGather (x1 : Reg) (addr : Address) (x2 : Reg) (type code mode : Z) : E unit := fn tt
  (let regExp := getRegExp addr in
   if negb (isVsibE regExp 384) then throw ERR_BAD_VSIB_ADDRESSING else
   let isAddrYMM := getBit (e_index regExp) =? 256 in
   if (negb (isXMM x1) || isAddrYMM || negb (isXMM x2)) &&
      negb (if mode =? 0 then isYMM x1 && negb isAddrYMM && isYMM x2
            else if mode =? 1 then isYMM x1 && isAddrYMM && isYMM x2
            else negb (isYMM x1) && isAddrYMM && negb (isYMM x2))
   then throw ERR_BAD_VSIB_ADDRESSING else
   let i1 := getIdx x1 in let i2 := getIdx (e_index regExp) in let i3 := getIdx x2 in
   if (i1 =? i2) || (i1 =? i3) || (i2 =? i3) then throw ERR_SAME_REGS_ARE_INVALID else
   opAVX_X_X_XM (if isAddrYMM then Ymm i1 else x1) (OReg (if isAddrYMM then Ymm i3 else x2))
                (OMem addr) type code NONE).
(* xbyak.h:2657-2674 *)
Definition xx_yy_zz := 0. Definition xx_yx_zy := 1. Definition xx_xy_yz := 2.
Definition checkGather2 (x1 x2 : Reg) (mode : Z) : E unit := fn tt
  (if isXMM x1 && isXMM x2 then ret tt else
   if (mode =? xx_yy_zz) && ((isYMM x1 && isYMM x2) || (isZMM x1 && isZMM x2)) then ret tt else
   if (mode =? xx_yx_zy) && ((isYMM x1 && isXMM x2) || (isZMM x1 && isYMM x2)) then ret tt else
   if (mode =? xx_xy_yz) && ((isXMM x1 && isYMM x2) || (isYMM x1 && isZMM x2)) then ret tt else
   throw ERR_BAD_VSIB_ADDRESSING).
(* xbyak.h:2675-2685 *)
Definition opGather2 (x : Reg) (addr : Address) (type code mode : Z) : E unit := fn tt
  (if zero_ x then throw ERR_INVALID_ZERO else
   let regExp := getRegExp addr in
   checkGather2 x (e_index regExp) mode ;;;
   let maskIdx := if has type T_M_K && negb (mask_ (a_op addr) =? 0) then mask_ (a_op addr) else mask_ x in
   if maskIdx =? 0 then throw ERR_K0_IS_INVALID else
   if negb (has type T_M_K) && (getIdx x =? getIdx (e_index regExp)) then throw ERR_SAME_REGS_ARE_INVALID else
   opVex x None (OMem addr) type code NONE).
(* xbyak.h:2690-2698 *)
Definition opVmov (op : Operand) (x : Reg) (type code : Z) (mode : bool) : E unit := fn tt
  (if (if mode then negb (isMEM op) && negb ((oXMM op && isXMM x) || (oXMM op && isYMM x) || (isYMM (ob op) && isZMM x))
       else negb (isMEM op) && negb (oXMM op)) then throw ERR_BAD_COMBINATION else
   opVex x None op type code NONE).
(* xbyak.h:2699-2704 *)
Definition opGatherFetch (addr : Address) (x : Reg) (type code kind : Z) : E unit := fn tt
  (if zero_ (a_op addr) then throw ERR_INVALID_ZERO else
   if negb (kind_ (e_index (getRegExp addr)) =? kind) then throw ERR_BAD_VSIB_ADDRESSING else
   opVex x None (OMem addr) type code NONE).
(* xbyak.h:2709-2719 *)
Definition getEncoding (enc : PreferredEncoding) (sel : Z) : E PreferredEncoding := fn VexEncoding
  (env <- ask ;;
   let enc := match enc with
              | DefaultEncoding => if sel =? 0 then env_enc0 env else env_enc1 env
              | _ => enc end in
   if ((sel =? 0) && negb (PreferredEncoding_beq enc VexEncoding) && negb (PreferredEncoding_beq enc EvexEncoding))
      || ((sel =? 1) && negb (PreferredEncoding_beq enc PreAVX10v2Encoding) && negb (PreferredEncoding_beq enc AVX10v2Encoding))
   then throw ERR_BAD_ENCODING_MODE else ret enc).
(* xbyak.h:2720-2723 *)
Definition orEvexIf (enc : PreferredEncoding) (typeVex typeEvex sel : Z) : E Z :=
  enc <- getEncoding enc sel ;;
  ret (if ((sel =? 0) && PreferredEncoding_beq enc VexEncoding)
          || ((sel =? 1) && negb (PreferredEncoding_beq enc AVX10v2Encoding))
       then typeVex else T_MUST_EVEX ||| typeEvex).
(* xbyak.h:2705-2708 *)
Definition opEncoding (x1 x2 : Reg) (op : Operand) (type code : Z) (enc : PreferredEncoding)
    (imm typeVex typeEvex sel : Z) : E unit :=
  t <- orEvexIf enc typeVex typeEvex sel ;;
  opAVX_X_X_XM x1 (OReg x2) op (type ||| t) code imm.
(* xbyak.h:2724-2745 ; code is uint8_t *)
Definition opInOut (a d : Reg) (code : Z) : E unit := fn tt
  (if (getIdx a =? 0) && (getIdx d =? 2) && (getBit d =? 16) then
     if getBit a =? 8 then db code
     else if getBit a =? 16 then db 0x66 ;;; db (code + 1)
     else if getBit a =? 32 then db (code + 1)
     else throw ERR_BAD_COMBINATION
   else throw ERR_BAD_COMBINATION).
Definition opInOutImm (a : Reg) (code v : Z) : E unit := fn tt
  (if getIdx a =? 0 then
     if getBit a =? 8 then db code ;;; db v
     else if getBit a =? 16 then db 0x66 ;;; db (code + 1) ;;; db v
     else if getBit a =? 32 then db (code + 1) ;;; db v
     else throw ERR_BAD_COMBINATION
   else throw ERR_BAD_COMBINATION).
(* xbyak.h:2746-2750 *)
Definition opCcmp (op1 op2 : Operand) (dfv code sc : Z) : E unit := fn tt
  (if (dfv <? 0) || (15 <? dfv) then throw ERR_INVALID_DFV else
   opROO (regOf (15 - dfv) REG (ogetBit op1 ||| ogetBit op2) false) op1 op2 (T_APX ||| T_CODE1_IF1) code 0 sc ;;;
   ret tt).
(* xbyak.h:2751-2759 *)
Definition opCcmpi (op : Operand) (imm dfv sc : Z) : E unit := fn tt
  (if (dfv <? 0) || (15 <? dfv) then throw ERR_INVALID_DFV else
   immBit <- getImmBit op imm ;;
   let opBit := ogetBit op in
   let tmp := if immBit <? Z.min opBit 32 then 2 else 0 in
   opROO (regOf (15 - dfv) REG opBit false) op (OReg (regOf 15 REG opBit false)) (T_APX ||| T_CODE1_IF1)
         (0x80 ||| tmp) (immBit / 8) sc ;;;
   dbn imm (immBit / 8)).
(* xbyak.h:2760-2768 *)
Definition opTesti (op : Operand) (imm dfv sc : Z) : E unit := fn tt
  (if (dfv <? 0) || (15 <? dfv) then throw ERR_INVALID_DFV else
   let opBit := ogetBit op in
   if opBit =? 0 then throw ERR_MEM_SIZE_IS_NOT_SPECIFIED else
   let immBit := Z.min opBit 32 in
   opROO (regOf (15 - dfv) REG opBit false) op (OReg (regOf 0 REG opBit false)) (T_APX ||| T_CODE1_IF1)
         0xF6 (immBit / 8) sc ;;;
   dbn imm (immBit / 8)).
(* xbyak.h:2769-2782 *)
Definition opCfcmov (d : Reg) (op1 op2 : Operand) (code : Z) : E unit := fn tt
  (let dBit := getBit d in let op2Bit := ogetBit op2 in
   if (0 <? dBit) && (0 <? op2Bit) && negb (dBit =? op2Bit) then throw ERR_BAD_SIZE_OF_REGISTER else
   if oBit op1 8 || (op2Bit =? 8) then throw ERR_BAD_SIZE_OF_REGISTER else
   match op2 with
   | OMem _ =>
       if isMEM op1 then throw ERR_BAD_COMBINATION else
       opROO d op2 op1 (if 0 <? dBit then T_MUST_EVEX ||| T_NF else T_MUST_EVEX) code 0 NONE ;;; ret tt
   | OReg r2 => opROO d op1 (OReg (setNF r2)) (T_MUST_EVEX ||| T_NF) code 0 NONE ;;; ret tt
   end).
(* xbyak.h:2784-2792 *)
Definition opAMX (t1 : Reg) (addr : Address) (type code : Z) : E unit := fn tt
  (let addr2 := cloneNoOptimize addr in
   let exp := getRegExp addr2 in
   if (getBit (e_base exp) =? 0) || (getBit (e_index exp) =? 0) then throw ERR_NOT_SUPPORTED else
   done <- opROO noReg (OMem addr2) (OReg t1) (T_APX ||| type) code 0 NONE ;;
   if (done : bool) then ret tt else
   opVex t1 (Some (Tmm 0)) (OMem addr2) type code NONE).
(* xbyak.h:2796-2817 *)
Definition opKmov (k : Reg) (op : Operand) (rev : bool) (size : Z) : E unit := fn tt
  (let isReg := oREGb op (if size <? 64 then 32 else 64) in
   let code := if rev then (if isReg then 0x93 else if isMEM op then 0x91 else 0)
               else (if isOPMASK (ob op) || isMEM op then 0x90 else if isReg then 0x92 else 0) in
   if code =? 0 then throw ERR_BAD_COMBINATION else
   let type := T_0F |||
     (if size =? 8 then T_W0 ||| T_66 else if size =? 16 then T_W0
      else if size =? 32 then (if isReg then T_W0 ||| T_F2 else T_W1 ||| T_66)
      else if size =? 64 then (if isReg then T_W1 ||| T_F2 else T_W1) else 0) in
   let '(p1, p2) := if code =? 0x93 then (op, OReg k) else (OReg k, op) in
   done <- opROO noReg p2 p1 (T_APX ||| type) code 0 NONE ;;
   if (done : bool) then ret tt else
   opVex (ob p1) None p2 (T_L0 ||| type) code NONE).
(* xbyak.h:2818-2825 *)
Definition opEncodeKey (r1 r2 : Reg) (code1 code2 : Z) : E unit :=
  if (getIdx r1 <? 8) && (getIdx r2 <? 8) then
    db 0xF3 ;;; db 0x0F ;;; db 0x38 ;;; db code1 ;;; setModRM 3 (getIdx r1) (getIdx r2)
  else opROO noReg (OReg r2) (OReg r1) (T_MUST_EVEX ||| T_F3) code2 0 NONE ;;; ret tt.
(* xbyak.h:2826-2833 *)
Definition opSSE_APX (x : Reg) (op : Operand) (type1 code1 type2 code2 imm : Z) : E unit :=
  done <- (if (getIdx x <=? 15) && hasRex2 op
           then opROO noReg op (OReg x) type2 code2 (if imm =? NONE then 0 else 1) NONE else ret false) ;;
  if (done : bool) then when negb (imm =? NONE) do db imm
  else opSSE x op type1 code1 (Some isXMM_XMMorMEM) imm.
(* xbyak.h:2835-2858 *)
Definition opAVX10ZeroExt (op1 op2 : Operand) (typeTbl codeTbl : list Z) (enc : PreferredEncoding) (bit : Z) : E unit := fn tt
  (let '(p1, p2, rev) := if isMEM op1 then (op2, op1, true) else (op1, op2, false) in
   if isMEM p1 then throw ERR_BAD_COMBINATION else
   let '(p1, p2, rev) := if oXMM p1 then (p2, p1, negb rev) else (p1, p2, rev) in
   enc <- getEncoding enc 1 ;;
   let sel := if oXMM p1 || (isMEM p1 && PreferredEncoding_beq enc AVX10v2Encoding) then 2 + b2z rev
              else if oREGb p1 bit || isMEM p1 then b2z rev else -1 in
   if sel =? -1 then throw ERR_BAD_COMBINATION else
   opAVX_X_X_XM (ob p2) (OReg (Xmm 0)) p1 (nth (Z.to_nat sel) typeTbl 0) (nth (Z.to_nat sel) codeTbl 0) NONE).

(* ---- public instructions defined in xbyak.h itself ---- *)
(* xbyak.h:2940, 2946 *)
Definition jmp_op (op : Operand) (type : LabelType) : E unit := opJmpOp op type 4.
Definition call_op (op : Operand) (type : LabelType) : E unit := opJmpOp op type 2.
(* xbyak.h:2958-2973 *)
Definition test_ (op : Operand) (reg : Reg) : E unit := opRO reg op 0 0x84 (oKind op =? kind_ reg) 0.
Definition test_imm (op : Operand) (imm0 : Z) : E unit :=
  let imm := w32 imm0 in
  verifyMemHasSize op ;;;
  let immSize := Z.min (ogetBit op / 8) 4 in
  (if oREG op && (ogetIdx op =? 0) then
     rex op noOp 0 ;;; db (0xA8 ||| (if oBit op 8 then 0 else 1))
   else opRext op 0 0 0 0xF6 false immSize None) ;;;
  dbn imm immSize.
(* xbyak.h:2974-2983 ; imm is int *)
Definition imul_imm (reg : Reg) (op : Operand) (imm : Z) : E unit :=
  let s := if IsInDisp8 imm then 1 else 0 in
  let immSize := if s =? 1 then 1 else if isREGb reg 16 then 2 else 4 in
  let code := 0x69 ||| (s <<< 1) in
  done <- opROO noReg op (OReg reg) (T_APX ||| T_NF ||| T_ZU) code immSize NONE ;;
  when negb (done : bool) do opRO reg op 0 code (kind_ reg =? oKind op) immSize ;;;
  dbn imm immSize.
(* xbyak.h:2984-3004 *)
Definition push_op (op : Operand) : E unit := opPushPop op 0xFF 6 0x50.
Definition pop_op (op : Operand) : E unit := opPushPop op 0x8F 0 0x58.
Definition push_af (afbit imm : Z) : E unit :=
  if afbit =? 8 then db 0x6A ;;; db imm
  else if afbit =? 16 then db 0x66 ;;; db 0x68 ;;; dw imm
  else db 0x68 ;;; dd imm.
Definition push_imm (imm0 : Z) : E unit :=
  let imm := w32 imm0 in if IsInDisp8 imm then push_af 8 imm else push_af 32 imm.
(* xbyak.h:3005-3040 *)
Definition mov_oo (op1 op2 : Operand) : E unit := fn tt
  (let sel :=
     match op1, op2 with
     | OReg r, OMem a => if isREG r && (getIdx r =? 0) then Some (r, a) else None
     | OMem a, OReg r => if isREG r && (getIdx r =? 0) then Some (r, a) else None
     | _, _ => None
     end in
   match sel with
   | Some (reg, addr) =>
       if is64bitDisp addr then
         rex (OReg reg) noOp 0 ;;;
         db (if oREGb op1 8 then 0xA0 else if oREG op1 then 0xA1 else if oREGb op2 8 then 0xA2 else 0xA3) ;;;
         dbn (getDisp addr) 8
       else opRO_MR op1 op2 0x88
   | None => opRO_MR op1 op2 0x88
   end).
(* xbyak.h:3041-3061 ; imm is uint64_t *)
Definition mov_oi (op : Operand) (imm0 : Z) : E unit := fn tt
  (let imm := w64 imm0 in
   match op with
   | OReg r => if isREG r then size <- mov_imm r imm ;; dbn imm size else throw ERR_BAD_COMBINATION
   | OMem a =>
       verifyMemHasSize op ;;;
       let immSize := ogetBit op / 8 in
       if (if immSize <=? 4 then
             let s := s64 imm >>> (immSize * 8) in negb (s =? 0) && negb (s =? -1)
           else negb (IsInInt32 imm)) then throw ERR_IMM_IS_TOO_BIG else
       let immSize := if immSize <=? 4 then immSize else 4 in
       opMR (set_immSize a immSize) (regOf 0 REG (ogetBit op) false) 0 0xC6 0 NONE ;;;
       dbn (w32 imm) immSize
   end).
(* xbyak.h:3068-3072, 3341-3346 *)
Definition dummyAddr := 0x1122334455667788.
Definition mov_label (reg : Reg) (l : LabelRef) : E unit :=
  mov_imm reg dummyAddr ;;; emit (IPutL l false 0).
(* xbyak.h:3073-3090 *)
Definition xchg (op1 op2 : Operand) : E unit := fn tt
  (let '(p1, p2) := if isMEM op1 || (oREGb op2 (16 ||| i32e) && (ogetIdx op2 =? 0)) then (op2, op1) else (op1, op2) in
   if isMEM p1 then throw ERR_BAD_COMBINATION else
   if oREG p2 && (oREGb p1 (16 ||| i32e) && (ogetIdx p1 =? 0)) && (negb (ogetIdx p2 =? 0) || negb (oREGb p1 32))
   then rex p2 p1 0 ;;; db (0x90 ||| (ogetIdx p2 &&& 7))
   else
   let '(p1, p2) := if oREG p1 && oREG p2 then (p2, p1) else (p1, p2) in
   opRO (ob p1) p2 0 (0x86 ||| (if oBit p1 8 then 0 else 1)) (oREG p1 && (ogetBit p1 =? ogetBit p2)) 0).

(* xbyak.h:966-981 Segment; only the six values are constructible without a failed assert *)
Inductive Segment := ES | CS | SS | DS | FS | GS.
Definition segIdx (s : Segment) : Z :=
  match s with ES => 0 | CS => 1 | SS => 2 | DS => 3 | FS => 4 | GS => 5 end.
(* xbyak.h:3093-3139 *)
Definition push_seg (s : Segment) : E unit :=
  match s with ES => db 0x06 | CS => db 0x0E | SS => db 0x16 | DS => db 0x1E
  | FS => db 0x0F ;;; db 0xA0 | GS => db 0x0F ;;; db 0xA8 end.
Definition pop_seg (s : Segment) : E unit := fn tt
  (match s with ES => db 0x07 | CS => throw ERR_BAD_COMBINATION | SS => db 0x17 | DS => db 0x1F
   | FS => db 0x0F ;;; db 0xA1 | GS => db 0x0F ;;; db 0xA9 end).
Definition putSeg (s : Segment) : E unit :=
  match s with ES => db 0x2E | CS => db 0x36 | SS => db 0x3E | DS => db 0x26 | FS => db 0x64 | GS => db 0x65 end.
Definition mov_o_seg (op : Operand) (s : Segment) : E unit :=
  opRO (Reg8 (segIdx s)) op (T_ALLOW_DIFF_SIZE ||| T_ALLOW_ABCDH) 0x8C (oREGb op (16 ||| i32e)) 0.
Definition mov_seg_o (s : Segment) (op : Operand) : E unit :=
  op' <- (if oREGb op (16 ||| i32e) then r <- cvt32 (ob op) ;; ret (OReg r) else ret op) ;;
  opRO (Reg8 (segIdx s)) op' (T_ALLOW_DIFF_SIZE ||| T_ALLOW_ABCDH) 0x8E (oREGb op (16 ||| i32e)) 0.

(* xbyak.h:3256-3267 *)
Definition bswap (r : Reg) : E unit :=
  let idx := getIdx r in
  let rex := (if isREGb r 64 then 8 else 0) ||| (if has idx 8 then 1 else 0) in
  (if 16 <=? idx then db 0xD5 ;;; db (128 ||| (idx &&& 16) ||| rex)
   else when negb (rex =? 0) do db (0x40 ||| rex) ;;; db 0x0F) ;;;
  db (0xC8 + (idx &&& 7)).
(* xbyak.h:3268-3285 *)
Definition vmovd (op1 op2 : Operand) (enc : PreferredEncoding) : E unit :=
  opAVX10ZeroExt op1 op2
    [T_EVEX ||| T_66 ||| T_0F ||| T_W0 ||| T_N4; T_EVEX ||| T_66 ||| T_0F ||| T_W0 ||| T_N4;
     T_MUST_EVEX ||| T_66 ||| T_0F ||| T_EW0 ||| T_N4; T_MUST_EVEX ||| T_F3 ||| T_0F ||| T_EW0 ||| T_N4]
    [0x7E; 0x6E; 0xD6; 0x7E] enc 32.
Definition vmovw (op1 op2 : Operand) (enc : PreferredEncoding) : E unit :=
  opAVX10ZeroExt op1 op2
    [T_MUST_EVEX ||| T_66 ||| T_MAP5 ||| T_N2; T_MUST_EVEX ||| T_66 ||| T_MAP5 ||| T_N2;
     T_MUST_EVEX ||| T_F3 ||| T_MAP5 ||| T_EW0 ||| T_N2; T_MUST_EVEX ||| T_F3 ||| T_MAP5 ||| T_EW0 ||| T_N2]
    [0x7E; 0x6E; 0x7E; 0x6E] enc 112.
(* xbyak.h:3289-3321 *)
Definition nopTbl (len : Z) : list Z :=
  nth (Z.to_nat (len - 1))
    [[0x90]; [0x66; 0x90]; [0x0F; 0x1F; 0x00]; [0x0F; 0x1F; 0x40; 0x00]; [0x0F; 0x1F; 0x44; 0x00; 0x00];
     [0x66; 0x0F; 0x1F; 0x44; 0x00; 0x00]; [0x0F; 0x1F; 0x80; 0x00; 0x00; 0x00; 0x00];
     [0x0F; 0x1F; 0x84; 0x00; 0x00; 0x00; 0x00; 0x00];
     [0x66; 0x0F; 0x1F; 0x84; 0x00; 0x00; 0x00; 0x00; 0x00]] [].
(* the while loop; the number of iterations is at most [size] *)
Fixpoint nop_loop (fuel : nat) (size : Z) : E unit :=
  match fuel with
  | O => ret tt
  | S f => if 0 <? size then let len := Z.min 9 size in dbs (nopTbl len) ;;; nop_loop f (size - len) else ret tt
  end.
Definition nop (size : Z) (useMultiByteNop : bool) : E unit :=
  if useMultiByteNop then nop_loop (Z.to_nat size) size
  else dbs (repeat 0x90 (Z.to_nat size)).
(* xbyak.h:3327-3336 ; getPageSize() is the run-time page size *)
Definition align (pageSize x : Z) (useMultiByteNop : bool) : E unit := fn tt
  (if x =? 1 then ret tt else
   if (x <? 1) || negb ((x &&& (x - 1)) =? 0) then throw ERR_BAD_ALIGN else
   env <- ask ;;
   if env_autoGrow env && negb (pageSize mod x =? 0) then throw ERR_BAD_ALIGN else
   c <- getCurr ;;
   let remain := c mod x in
   when negb (remain =? 0) do nop (x - remain) useMultiByteNop).
