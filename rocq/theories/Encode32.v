(* The encoder helpers of CodeGenerator in the 32-bit build (XBYAK32).  Written by tools/gen32.py from
   Encode.v: the definitions with a place under #ifdef XBYAK64 / XBYAK32 have the 32-bit branch, those
   that use them are repeated unchanged, all others are the ones of Encode.v.  The names are the same;
   a file that needs both builds writes Encode.x and Encode32.x.  size_t has 32 bits: addresses are
   built with displacements modulo 2^32 (regExpDisp below). *)
From Coq Require Import ZArith List Bool String.
From Verif Require Import Base Types Emit Encode.
Import ListNotations.
Open Scope Z_scope.

(* xbyak.h:989, 1721 *)
Definition i32e := 32.
Definition BIT := 32.

(* ---- operand construction ---- *)
(* xbyak.h:738-784 Operand::setBit with the XBYAK32 branches (753, 763) *)
Definition setBit (r : Reg) (bit : Z) : E Reg := fn r
  (if negb ((bit =? 8) || (bit =? 16) || (bit =? 32) || (bit =? 64) || (bit =? 128)
            || (bit =? 256) || (bit =? 512) || (bit =? 8192)) then throw ERR_CANT_CONVERT else
   if isBit r bit then ret r else
   if is_ r (MEM ||| OPMASK) 0 then ret (set_kindbit r (kind_ r) bit) else
   if is_ r (REG ||| XMM ||| YMM ||| ZMM ||| TMM) 0 then
     let idx := getIdx r in
     if isREGb r 8 && ((4 <=? idx) && (idx <? 8)) && negb (isExt8bit r) then throw ERR_CANT_CONVERT else
     let fin idx' kind :=
       ret (if 128 <=? bit
            then mkReg idx' kind bit (zero_ r) (mask_ r) (rounding_ r) (NF_ r) (ZU_ r)
            else mkReg idx' kind bit (zero_ r) 0 0 (NF_ r) (ZU_ r)) in
     if bit =? 8 then (if 4 <=? idx then throw ERR_CANT_CONVERT else fin idx REG)
     else if (bit =? 16) || (bit =? 32) || (bit =? 64) then
       (if 16 <=? idx then throw ERR_CANT_CONVERT else fin idx REG)
     else if bit =? 128 then fin idx XMM
     else if bit =? 256 then fin idx YMM
     else if bit =? 512 then fin idx ZMM
     else fin idx TMM
   else throw ERR_CANT_CONVERT).
(* xbyak.h:802 *)
Definition changeBit (r : Reg) (bit : Z) : E Reg := setBit r bit.
(* xbyak.h:927-962 *)
Definition cvt8 (r : Reg) : E Reg :=
  r' <- changeBit r 8 ;; ret (regOf (getIdx r') REG 8 (isExt8bit r')).
Definition cvt16 (r : Reg) : E Reg := r' <- changeBit r 16 ;; ret (Reg16 (getIdx r')).
Definition cvt32 (r : Reg) : E Reg := r' <- changeBit r 32 ;; ret (Reg32 (getIdx r')).
Definition cvt128 (r : Reg) : E Reg := r' <- changeBit r 128 ;; ret (Xmm (getIdx r')).
Definition cvt256 (r : Reg) : E Reg := r' <- changeBit r 256 ;; ret (Ymm (getIdx r')).
Definition cvt512 (r : Reg) : E Reg := r' <- changeBit r 512 ;; ret (Zmm (getIdx r')).

(* ---- address expressions ---- *)
(* xbyak.h:991 RegExp(size_t disp) *)
Definition regExpDisp (disp : Z) : RegExp := mkRegExp noReg noReg 0 (w32 disp).
(* xbyak.h:992-1004 *)
Definition regExpReg (r : Reg) (scale : Z) : E RegExp :=
  fn (mkRegExp noReg noReg scale 0)
  (if negb (isREGb r i32e) && negb (is_ r (XMM ||| YMM ||| ZMM ||| TMM) 0)
   then throw ERR_BAD_SIZE_OF_REGISTER else
   if scale =? 0 then ret (mkRegExp noReg noReg scale 0) else
   if negb (scale =? 1) && negb (scale =? 2) && negb (scale =? 4) && negb (scale =? 8)
   then throw ERR_BAD_SCALE else
   if (128 <=? getBit r) || negb (scale =? 1)
   then ret (mkRegExp noReg r scale 0) else ret (mkRegExp r noReg scale 0)).
(* xbyak.h:1006-1015 *)
Definition optimize (e : RegExp) : RegExp :=
  if isBit (e_index e) i32e && (getBit (e_base e) =? 0) && (e_scale e =? 2)
  then mkRegExp (e_index e) (e_index e) 1 (e_disp e) else e.
(* xbyak.h:1045-1064 operator+ *)
Definition regExpAdd (a b : RegExp) : E RegExp :=
  e <- Emit.regExpAdd a b ;; ret (mkRegExp (e_base e) (e_index e) (e_scale e) (w32 (e_disp e))).
(* xbyak.h:1073-1078 operator- *)
Definition regExpSub (e : RegExp) (disp : Z) : RegExp :=
  mkRegExp (e_base e) (e_index e) (e_scale e) (w32 (e_disp e - disp)).
(* xbyak.h:1337-1340 *)
Definition getRegExp (a : Address) : RegExp := if a_optimize a then optimize (a_e a) else a_e a.

(* ---- encoder ---- *)

(* xbyak.h:1726-1764 *)
Definition isXMM_REG32orMEM (op1 op2 : Operand) := oXMM op1 && (oREGb op2 i32e || isMEM op2).
Definition isREG32_XMMorMEM (op1 op2 : Operand) := oREGb op1 i32e && (oXMM op2 || isMEM op2).
Definition isREG32_REG32orMEM (op1 op2 : Operand) :=
  oREGb op1 i32e && ((oREGb op2 i32e && (ogetBit op1 =? ogetBit op2)) || isMEM op2).
(* xbyak.h:1779-1825; the address-size prefix of line 1803 is emitted for BIT == 64 only *)
Definition rex (op1 op2 : Operand) (type : Z) : E bool := fn false
  (if NF_ (ob op1) || NF_ (ob op2) then throw ERR_INVALID_NF else
   if ZU_ (ob op1) || ZU_ (ob op2) then throw ERR_INVALID_ZU else
   let (p1, p2) := if isMEM op1 then (op2, op1) else (op1, op2) in
   if isMEM p1 then throw ERR_BAD_COMBINATION else
   let p66 := (oBit op1 16 && negb (oBit op2 i32e)) || (oBit op2 16 && negb (oBit op1 i32e)) in
   when has type T_66 || p66 do db 0x66 ;;;
   when has type T_F2 do db 0xF2 ;;;
   when has type T_F3 do db 0xF3 ;;;
   let is0F := has type T_0F in
   match p2 with
   | OMem addr =>
       let r := ob p1 in
       let e := getRegExp addr in
       let base := e_base e in let idx := e_index e in
       let rx := rexRXB 3 (isREGb r 64) r base idx in
       if regHasRex2 r || addrHasRex2 addr then
         (if has type (T_0F38 ||| T_0F3A) then throw ERR_CANT_USE_REX2 else
          rex2 is0F rx r base idx ;;; ret true)
       else
         let rx := if negb (rx =? 0) || isExt8bit r then rx ||| 0x40 else rx in
         when negb (rx =? 0) do db rx ;;; ret false
   | OReg _ =>
       let r1 := ob op1 in let r2 := ob op2 in
       let rx := rexRXB 3 (isREGb r1 64 || isREGb r2 64) r2 r1 noReg in
       if regHasRex2 r1 || regHasRex2 r2 then
         (if has type (T_0F38 ||| T_0F3A) then throw ERR_CANT_USE_REX2 else
          rex2 is0F rx r2 r1 noReg ;;; ret true)
       else
         let rx := if negb (rx =? 0) || isExt8bit r1 || isExt8bit r2 then rx ||| 0x40 else rx in
         when negb (rx =? 0) do db rx ;;; ret false
   end).
(* xbyak.h:2011-2072; no range check (2014) and no SIB byte for [disp32] (2054) *)
Definition setSIB (e : RegExp) (reg disp8N : Z) : E unit := fn tt
  (let disp64 := e_disp e in
   let disp := w32 disp64 in
   let base := e_base e in let index := e_index e in
   let baseIdx := getIdx base in
   let baseBit := getBit base in
   let indexBit := getBit index in
   let '(md, disp) :=
     if (baseBit =? 0) || (negb ((baseIdx &&& 7) =? 5) && (disp =? 0)) then (0, disp)
     else if disp8N =? 0 then (if IsInDisp8 disp then (1, disp) else (2, disp))
     else
       let t := w32 (Z.quot (s32 disp) disp8N) in
       if (disp mod disp8N =? 0) && IsInDisp8 t then (1, t) else (2, disp) in
   let newBaseIdx := if baseBit =? 0 then 5 else baseIdx &&& 7 in
   let hasSIB := negb (indexBit =? 0) || ((baseIdx &&& 7) =? 4) in
   (if hasSIB then
      let idx := if indexBit =? 0 then 4 else getIdx index &&& 7 in
      let scale := e_scale e in
      let SS := if scale =? 8 then 3 else if scale =? 4 then 2 else if scale =? 2 then 1 else 0 in
      setModRM md reg 4 ;;; setModRM SS idx newBaseIdx
    else setModRM md reg newBaseIdx) ;;;
   (if md =? 1 then db disp
    else if (md =? 2) || ((md =? 0) && (baseBit =? 0)) then dd disp else ret tt)).
(* xbyak.h:2087-2094 *)
Definition opRR (r1 r2 : Reg) (type code : Z) : E unit := fn tt
  (if negb (has type T_ALLOW_DIFF_SIZE) && isREG r1 && isREG r2 && negb (getBit r1 =? getBit r2)
   then throw ERR_BAD_SIZE_OF_REGISTER else
   if negb (has type T_ALLOW_ABCDH) && (isBadCombination r1 r2 || isBadCombination r2 r1)
   then throw ERR_CANT_USE_ABCDH else
   x2 <- rex (OReg r2) (OReg r1) type ;;
   writeCode type r1 code x2 ;;;
   setModRM 3 (getIdx r1) (getIdx r2)).
(* xbyak.h:2184-2202; the constructors of M_64bitDisp, M_rip and M_ripAddr addresses (1332-1335) do not
   exist in this build *)
Definition opAddr (addr : Address) (reg : Z) : E unit := fn tt
  (if negb (permitVsib addr) && isVsib addr then throw ERR_BAD_VSIB_ADDRESSING else
   setSIB (getRegExp addr) reg (disp8N addr)).
(* xbyak.h:2253-2273 *)
Definition opROO (d : Reg) (op1 op2 : Operand) (type code immSize sc : Z) : E bool := fn false
  (if negb (has type T_MUST_EVEX) && negb (isREG d)
      && negb (hasRex2NFZU (OReg d) || hasRex2NFZU op1 || hasRex2NFZU op2) then ret false else
   let '(p1, p2, code) := if isMEM op1 then (op2, op1, code)
                          else (op1, op2, if isMEM op2 then code ||| 2 else code) in
   if isMEM p1 then throw ERR_BAD_COMBINATION else
   match p2 with
   | OMem addr =>
       let r := ob p1 in
       let e := getRegExp addr in
       evexLeg r (e_base e) (e_index e) d type sc ;;;
       writeCode type d code false ;;;
       opAddr (set_immSize addr immSize) (getIdx r) ;;; ret true
   | OReg _ =>
       evexLeg (ob op2) (ob op1) noReg d type sc ;;;
       writeCode type d code false ;;;
       setModRM 3 (ogetIdx op2) (ogetIdx op1) ;;; ret true
   end).
(* xbyak.h:2095-2104 *)
Definition opMR (addr : Address) (r : Reg) (type code type2 code2 : Z) : E unit := fn tt
  (let code2 := if code2 =? NONE then code else code2 in
   done <- (if negb (type2 =? 0) then opROO noReg (OMem addr) (OReg r) type2 code2 0 NONE else ret false) ;;
   if (done : bool) then ret tt else
   if is64bitDisp addr then throw ERR_CANT_USE_64BIT_DISP else
   if negb (has type T_ALLOW_DIFF_SIZE) && (getBit r <=? BIT) && (0 <? getBit (a_op addr))
      && negb (getBit (a_op addr) =? getBit r) then throw ERR_BAD_MEM_SIZE else
   x2 <- rex (OMem addr) (OReg r) type ;;
   writeCode type r code x2 ;;;
   opAddr addr (getIdx r)).
(* xbyak.h:2105-2114 *)
Definition opLoadSeg (addr : Address) (reg : Reg) (type code : Z) : E unit := fn tt
  (if isBit reg 8 then throw ERR_BAD_SIZE_OF_REGISTER else
   if is64bitDisp addr then throw ERR_CANT_USE_64BIT_DISP else
   rex (OMem addr) (OReg reg) type ;;;
   when has type T_0F do db 0x0F ;;;
   db code ;;;
   opAddr addr (getIdx reg)).
(* xbyak.h:2116-2120 *)
Definition opMIB (addr : Address) (reg : Reg) (type code : Z) : E unit := fn tt
  (if negb (AMode_beq (a_mode addr) M_ModRM) then throw ERR_INVALID_MIB_ADDRESS else
   opMR (cloneNoOptimize addr) reg type code 0 NONE).
(* xbyak.h:2274-2287 ; d : const Reg * *)
Definition opRext (op : Operand) (bit ext type code : Z) (disableRex : bool) (immSize : Z)
    (d : option Reg) : E unit := fn tt
  (let opBit := if disableRex && (ogetBit op =? 64) then 32 else ogetBit op in
   let r := regOf ext REG opBit false in
   done <- (if has type T_APX && ((match d with Some _ => true | None => false end) || hasRex2NFZU op)
            then opROO (match d with Some d => d | None => regOf 0 REG opBit false end) op (OReg r) type code 0 NONE
            else ret false) ;;
   if (done : bool) then ret tt else
   match op with
   | OMem a => opMR (set_immSize a immSize) r type code 0 NONE
   | OReg q =>
       if isREGb q bit then
         q' <- changeBit q opBit ;; opRR r q' (type ||| T_ALLOW_ABCDH) code
       else throw ERR_BAD_COMBINATION
   end).
(* xbyak.h:2172-2181 *)
Definition opJmpOp (op : Operand) (type : LabelType) (ext : Z) : E unit := fn tt
  (let bit := 16 ||| i32e in
   if LabelType_beq type T_FAR then
     (if negb (isMEMb op bit) then throw ERR_NOT_SUPPORTED else
      opRext op bit (ext + 1) 0 0xFF false 0 None)
   else opRext op bit ext 0 0xFF true 0 None).
(* xbyak.h:2309-2318 *)
Definition opRO (r : Reg) (op : Operand) (type code : Z) (condR : bool) (immSize : Z) : E unit := fn tt
  (match op with
   | OMem a => opMR (set_immSize a immSize) r type code 0 NONE
   | OReg q => if condR then opRR r q type code else throw ERR_BAD_COMBINATION
   end).
(* xbyak.h:2203-2209 ; isValid : optional function pointer *)
Definition opSSE (r : Reg) (op : Operand) (type code : Z)
    (isValid : option (Operand -> Operand -> bool)) (imm8 : Z) : E unit := fn tt
  (if (match isValid with Some f => negb (f (OReg r) op) | None => false end)
   then throw ERR_BAD_COMBINATION else
   if negb (isValidSSE (OReg r)) || negb (isValidSSE op) then throw ERR_NOT_SUPPORTED else
   opRO r op type code true (if imm8 =? NONE then 0 else 1) ;;;
   when negb (imm8 =? NONE) do db imm8).
(* xbyak.h:2210-2217 *)
Definition opMMX_IMM (mmx : Reg) (imm8 code ext : Z) : E unit := fn tt
  (if negb (isValidSSE (OReg mmx)) then throw ERR_NOT_SUPPORTED else
   let type := if isXMM mmx then T_0F ||| T_66 else T_0F in
   opRR (Reg32 ext) mmx type code ;;;
   db imm8).
(* xbyak.h:2218-2222 *)
Definition opMMX (mmx : Reg) (op : Operand) (code type pref imm8 : Z) : E unit :=
  opSSE mmx op (if isXMM mmx then type ||| pref else type) code (Some isXMMorMMX_MEM) imm8.
(* xbyak.h:2223-2233 *)
Definition opMovXMM (op1 op2 : Operand) (type code : Z) : E unit := fn tt
  (if negb (isValidSSE op1) || negb (isValidSSE op2) then throw ERR_NOT_SUPPORTED else
   match op1, op2 with
   | OReg r, OMem a => if isXMM r then opMR a r type code 0 NONE else throw ERR_BAD_COMBINATION
   | OMem a, OReg r => if isXMM r then opMR a r type (code ||| 1) 0 NONE else throw ERR_BAD_COMBINATION
   | _, _ => throw ERR_BAD_COMBINATION
   end).
(* xbyak.h:2235-2244 *)
Definition opExt (op : Operand) (mmx : Reg) (code imm : Z) (hasMMX2 : bool) : E unit := fn tt
  (if negb (isValidSSE op) || negb (isValidSSE (OReg mmx)) then throw ERR_NOT_SUPPORTED else
   if hasMMX2 && oREGb op i32e then
     when isXMM mmx do db 0x66 ;;;
     opRR (ob op) mmx T_0F 0xC5 ;;; db imm
   else opSSE mmx op (T_66 ||| T_0F3A) code (Some isXMM_REG32orMEM) imm).
(* xbyak.h:2288-2292 *)
Definition opSetCC (op : Operand) (ext : Z) : E unit :=
  done <- opROO noReg op (OReg noReg) (T_APX ||| T_ZU ||| T_F2) (0x40 ||| ext) 0 NONE ;;
  if (done : bool) then ret tt else
  opRext op 8 0 T_0F (0x90 ||| ext) false 0 None.
(* xbyak.h:2293-2300 *)
Definition opShift (op : Operand) (imm ext : Z) (d : option Reg) : E unit := fn tt
  ((match d with None => verifyMemHasSize op | Some _ => ret tt end) ;;;
   if (match d with Some d => negb (ogetBit op =? 0) && negb (getBit d =? ogetBit op) | None => false end)
   then throw ERR_BAD_SIZE_OF_REGISTER else
   opRext op 0 (ext &&& 7) (shiftType ext d) (0xC0 ||| ((if imm =? 1 then 1 else 0) <<< 4)) false
          (if imm =? 1 then 0 else 1) d ;;;
   when negb (imm =? 1) do db imm).
(* xbyak.h:2301-2307 *)
Definition opShiftCL (op : Operand) (cl_ : Reg) (ext : Z) (d : option Reg) : E unit := fn tt
  (if negb (getIdx cl_ =? 1) then throw ERR_BAD_COMBINATION else
   if (match d with Some d => negb (ogetBit op =? 0) && negb (getBit d =? ogetBit op) | None => false end)
   then throw ERR_BAD_SIZE_OF_REGISTER else
   opRext op 0 (ext &&& 7) (shiftType ext d) 0xD2 false 0 d).
(* xbyak.h:2319-2331 ; imm is uint8_t *)
Definition opShxd (d : Reg) (op : Operand) (reg : Reg) (imm code code2 : Z) (cl_ : option Reg) : E unit := fn tt
  (if (match cl_ with Some c => negb (getIdx c =? 1) | None => false end) then throw ERR_BAD_COMBINATION else
   if negb (isREGb reg (16 ||| i32e)) then throw ERR_BAD_SIZE_OF_REGISTER else
   let immSize := match cl_ with Some _ => 0 | None => 1 end in
   let code := match cl_ with Some _ => code ||| 1 | None => code end in
   let type := T_APX ||| T_NF ||| (if isREG d then T_ND1 else 0) in
   done <- opROO d op (OReg reg) type (match cl_ with Some _ => code | None => code2 end) immSize NONE ;;
   when negb (done : bool) do opRO reg op T_0F code true immSize ;;;
   match cl_ with Some _ => ret tt | None => db imm end).
(* xbyak.h:2333-2341 *)
Definition opRO_MR (op1 op2 : Operand) (code : Z) : E unit := fn tt
  (match op2 with
   | OMem a2 =>
       if negb (oREG op1) then throw ERR_BAD_COMBINATION else
       opMR a2 (ob op1) 0 (code ||| 2) 0 NONE
   | OReg r2 => opRO r2 op1 0 code (oKind op1 =? kind_ r2) 0
   end).
(* xbyak.h:2355-2366 ; imm is uint32_t *)
Definition opOI (op : Operand) (imm0 code ext : Z) : E unit :=
  let imm := w32 imm0 in
  immBit <- getImmBit op imm ;;
  (if oREG op && (ogetIdx op =? 0) && ((ogetBit op =? immBit) || (oBit op 64 && (immBit =? 32))) then
     rex op noOp 0 ;;; db (code ||| 4 ||| (if immBit =? 8 then 0 else 1))
   else
     let tmp := if immBit <? Z.min (ogetBit op) 32 then 2 else 0 in
     opRext op 0 ext 0 (0x80 ||| tmp) false (immBit / 8) None) ;;;
  dbn imm (immBit / 8).
(* xbyak.h:2368-2374 *)
Definition opROI (d : Reg) (op : Operand) (imm0 type ext : Z) : E unit :=
  let imm := w32 imm0 in
  immBit <- getImmBit (OReg d) imm ;;
  let code := if immBit <? Z.min (getBit d) 32 then 2 else 0 in
  opROO d op (OReg (regOf ext REG (getBit d) false)) type (0x80 ||| code) (immBit / 8) NONE ;;;
  dbn imm (immBit / 8).
(* xbyak.h:2375-2396, the #else branch ignores d *)
Definition opIncDec (d : Reg) (op : Operand) (ext : Z) : E unit :=
  verifyMemHasSize op ;;;
  if oREG op && negb (oBit op 8) then
    rex op noOp 0 ;;; db ((if ext =? 0 then 0x40 else 0x48) ||| ogetIdx op)
  else opRext op (ogetBit op) ext 0 0xFE false 0 None.
(* xbyak.h:2397-2419 *)
Definition opPushPop (op : Operand) (code ext alt : Z) : E unit := fn tt
  (if oREG op && hasRex2 op then
     let r := ob op in
     rex2 false (rexRXB 3 false noReg r noReg) noReg r noReg ;;;
     db (alt ||| (getIdx r &&& 7))
   else
   let bit := ogetBit op in
   if (bit =? 16) || (bit =? BIT) then
     when bit =? 16 do db 0x66 ;;;
     if oREG op then
       when 8 <=? ogetIdx op do db 0x41 ;;;
       db (alt ||| (ogetIdx op &&& 7))
     else match op with
          | OMem a => opMR a (regOf ext REG 32 false) T_ALLOW_DIFF_SIZE code 0 NONE
          | OReg _ => throw ERR_BAD_COMBINATION
          end
   else throw ERR_BAD_COMBINATION).
(* xbyak.h:2427-2445 ; imm is uint64_t *)
Definition mov_imm (reg : Reg) (imm0 : Z) : E Z :=
  let imm := w64 imm0 in
  let bit := getBit reg in
  let idx := getIdx reg in
  let code := 0xB0 ||| ((if bit =? 8 then 0 else 1) <<< 3) in
  '(code, bit) <-
    (if (bit =? 64) && ((imm >>> 32) =? 0) then rex (OReg (Reg32 idx)) noOp 0 ;;; ret (code, 32)
     else
       rex (OReg reg) noOp 0 ;;;
       if (bit =? 64) && IsInInt32 imm then db 0xC7 ;;; ret (0xC0, 32) else ret (code, bit)) ;;
  db (code ||| (idx &&& 7)) ;;;
  ret (bit / 8).
(* xbyak.h:2467-2473 *)
Definition opMovxx (reg : Reg) (op : Operand) (code : Z) : E unit := fn tt
  (if oBit op 32 then throw ERR_BAD_COMBINATION else
   let w := b2z (oBit op 16) in
   if negb (isREG reg && (ogetBit op <? getBit reg)) then throw ERR_BAD_COMBINATION else
   opRO reg op (T_0F ||| T_ALLOW_DIFF_SIZE) (code ||| w) true 0).
(* xbyak.h:2474-2483 *)
Definition opFpuMem (addr : Address) (m16 m32 m64 ext m64ext : Z) : E unit := fn tt
  (if is64bitDisp addr then throw ERR_CANT_USE_64BIT_DISP else
   let o := a_op addr in
   let code := if isBit o 16 then m16 else if isBit o 32 then m32 else if isBit o 64 then m64 else 0 in
   if code =? 0 then throw ERR_BAD_MEM_SIZE else
   let ext := if negb (m64ext =? 0) && isBit o 64 then m64ext else ext in
   rex (OMem addr) (OReg (Fpu 0)) 0 ;;;
   db code ;;;
   opAddr addr ext).
(* xbyak.h:2497-2533; the prefix of line 2504 is emitted for BIT == 64 only *)
Definition opVex (r : Reg) (p1 : option Reg) (op2 : Operand) (type code imm8 : Z) : E unit := fn tt
  ((match op2 with
    | OMem addr =>
        let regExp := getRegExp addr in
        let base := e_base regExp in let index := e_index regExp in
        d8 <- (if has type (T_MUST_EVEX ||| T_MEM_EVEX) || hasEvex r
                  || (match p1 with Some p => hasEvex p | None => false end)
                  || a_broadcast addr || negb (mask_ (a_op addr) =? 0) || addrHasRex2 addr then
                 let aaa := mask_ (a_op addr) in
                 if negb (aaa =? 0) && negb (has type T_M_K) then throw ERR_INVALID_OPMASK_WITH_MEMORY else
                 if a_broadcast addr && negb (has type (T_B32 ||| T_B64)) then throw ERR_INVALID_BROADCAST else
                 let VL := if isVsibE regExp vsib_bits then getBit index else 0 in
                 evex r base p1 type code (Some index) (a_broadcast addr) aaa VL (isSIMD index && isExtIdx2 index)
               else
                 vex r base p1 type code (isExtIdx index) ;;; ret 0) ;;
        let addr := if has type T_VSIB then set_permitVsib addr else addr in
        let addr := if d8 =? 0 then addr else set_disp8N addr d8 in
        let addr := if imm8 =? NONE then addr else set_immSize addr 1 in
        opAddr addr (getIdx r)
    | OReg base =>
        (if has type T_MUST_EVEX || hasEvex r
            || (match p1 with Some p => hasEvex p | None => false end) || hasEvex base then
           evex r base p1 type code None false 0 0 false ;;; ret tt
         else vex r base p1 type code false) ;;;
        setModRM 3 (getIdx r) (getIdx base)
    end) ;;;
   when negb (imm8 =? NONE) do db imm8).
(* xbyak.h:2536-2547 *)
Definition opRRO (d r1 : Reg) (op2 : Operand) (type code imm8 : Z) : E unit := fn tt
  (let bit := getBit d in
   if negb (getBit r1 =? bit) || (oREG op2 && negb (ogetBit op2 =? bit)) then throw ERR_BAD_COMBINATION else
   let type := type ||| (if bit =? 64 then T_W1 else T_W0) in
   if hasRex2 (OReg d) || hasRex2 (OReg r1) || hasRex2 op2 || NF_ d then
     opROO r1 op2 (OReg d) type code 0 NONE ;;;
     when negb (imm8 =? NONE) do db imm8
   else opVex d (Some r1) op2 type code imm8).
(* xbyak.h:2548-2559 *)
Definition opAVX_X_X_XM (x1 : Reg) (op1 op2 : Operand) (type code imm8 : Z) : E unit := fn tt
  (let '(x2, op) := if isNone (ob op2) then (x1, op1) else (ob op1, op2) in
   if negb ((isXMM x1 && isXMM x2)
            || (has type T_YMM && ((isYMM x1 && isYMM x2) || (isZMM x1 && isZMM x2))))
   then throw ERR_BAD_COMBINATION else
   opVex x1 (Some x2) op type code imm8).
(* xbyak.h:2560-2564 *)
Definition opAVX_K_X_XM (k x2 : Reg) (op3 : Operand) (type code imm8 : Z) : E unit := fn tt
  (if negb (isMEM op3) && negb (kind_ x2 =? oKind op3) then throw ERR_BAD_COMBINATION else
   opVex k (Some x2) op3 type code imm8).
(* xbyak.h:2575-2579 ; xm0 is xmm0 *)
Definition opCvt (x : Reg) (op : Operand) (type code : Z) : E unit :=
  let kind := if isXMM x then (if oBit op 256 then YMM else XMM) else ZMM in
  opVex (setKind x kind) (Some (Xmm 0)) op type code NONE.
(* xbyak.h:2580-2584 *)
Definition opCvt2 (x : Reg) (op : Operand) (type code : Z) : E unit :=
  checkCvt2 x op ;;; opCvt x op type code.
(* xbyak.h:2585-2591 *)
Definition opCvt3 (x1 x2 : Reg) (op : Operand) (type type64 type32 code : Z) : E unit := fn tt
  (if negb (isXMM x1 && isXMM x2 && (oREGb op i32e || isMEM op)) then throw ERR_BAD_SIZE_OF_REGISTER else
   let x := Xmm (ogetIdx op) in
   let p := if oREG op then OReg x else op in
   opVex x1 (Some x2) p (type ||| (if oBit op 64 then type64 else type32)) code NONE).
(* xbyak.h:2598-2603 *)
Definition opCvt5 (x : Reg) (op : Operand) (type code : Z) : E unit := fn tt
  (if negb (isXMM x && oBit op 896) then throw ERR_BAD_COMBINATION else
   let kind := if oBit op 128 then XMM else if oBit op 256 then YMM else ZMM in
   opVex (setKind x kind) (Some (Xmm 0)) op type code NONE).
(* xbyak.h:2605-2615 *)
Definition opCvt6 (x1 x2 : Reg) (op : Operand) (type code : Z) : E unit := fn tt
  (let b1 := getBit x1 in let b2 := getBit x2 in let b3 := ogetBit op in
   if ((b1 =? 128) && ((b2 =? 128) || (b2 =? 256)) && ((b2 =? b3) || isMEM op))
      || ((b1 =? 256) && (b2 =? 512) && ((b3 =? b2) || isMEM op))
   then opVex x1 (Some x2) op type code NONE else throw ERR_BAD_COMBINATION).
(* xbyak.h:2621-2624 *)
Definition opAVX_X_XM_IMM (x : Reg) (op : Operand) (type code imm8 : Z) : E unit :=
  opAVX_X_X_XM x (OReg (cvtIdx0 (OReg x))) op type code imm8.
(* xbyak.h:2625-2631 *)
Definition opCnt (reg : Reg) (op : Operand) (code : Z) : E unit := fn tt
  (if isBit reg 8 then throw ERR_BAD_SIZE_OF_REGISTER else
   let is16bit := isREGb reg 16 && (oREGb op 16 || isMEM op) in
   if negb is16bit && negb (isREGb reg i32e && (oREGb op (getBit reg) || isMEM op))
   then throw ERR_BAD_COMBINATION else
   opRO reg op (T_F3 ||| T_0F) code true 0).
(* xbyak.h:2632-2656 *)
Definition opGather (x1 : Reg) (addr : Address) (x2 : Reg) (type code mode : Z) : E unit := fn tt
  (let regExp := getRegExp addr in
   if negb (isVsibE regExp 384) then throw ERR_BAD_VSIB_ADDRESSING else
   let isAddrYMM := getBit (e_index regExp) =? 256 in
   if (negb (isXMM x1) || isAddrYMM || negb (isXMM x2)) &&
      negb (if mode =? 0 then isYMM x1 && negb isAddrYMM && isYMM x2
            else if mode =? 1 then isYMM x1 && isAddrYMM && isYMM x2
            else negb (isYMM x1) && isAddrYMM && negb (isYMM x2))
   then throw ERR_BAD_VSIB_ADDRESSING else
   let i1 := getIdx x1 in let i2 := getIdx (e_index regExp) in let i3 := getIdx x2 in
   if (i1 =? i2) || (i1 =? i3) || (i2 =? i3) then throw ERR_SAME_REGS_ARE_INVALID else
   opAVX_X_X_XM (if isAddrYMM then Ymm i1 else x1) (OReg (if isAddrYMM then Ymm i3 else x2))
                (OMem addr) type code NONE).
(* xbyak.h:2675-2685 *)
Definition opGather2 (x : Reg) (addr : Address) (type code mode : Z) : E unit := fn tt
  (if zero_ x then throw ERR_INVALID_ZERO else
   let regExp := getRegExp addr in
   checkGather2 x (e_index regExp) mode ;;;
   let maskIdx := if has type T_M_K && negb (mask_ (a_op addr) =? 0) then mask_ (a_op addr) else mask_ x in
   if maskIdx =? 0 then throw ERR_K0_IS_INVALID else
   if negb (has type T_M_K) && (getIdx x =? getIdx (e_index regExp)) then throw ERR_SAME_REGS_ARE_INVALID else
   opVex x None (OMem addr) type code NONE).
(* xbyak.h:2690-2698 *)
Definition opVmov (op : Operand) (x : Reg) (type code : Z) (mode : bool) : E unit := fn tt
  (if (if mode then negb (isMEM op) && negb ((oXMM op && isXMM x) || (oXMM op && isYMM x) || (isYMM (ob op) && isZMM x))
       else negb (isMEM op) && negb (oXMM op)) then throw ERR_BAD_COMBINATION else
   opVex x None op type code NONE).
(* xbyak.h:2699-2704 *)
Definition opGatherFetch (addr : Address) (x : Reg) (type code kind : Z) : E unit := fn tt
  (if zero_ (a_op addr) then throw ERR_INVALID_ZERO else
   if negb (kind_ (e_index (getRegExp addr)) =? kind) then throw ERR_BAD_VSIB_ADDRESSING else
   opVex x None (OMem addr) type code NONE).
(* xbyak.h:2705-2708 *)
Definition opEncoding (x1 x2 : Reg) (op : Operand) (type code : Z) (enc : PreferredEncoding)
    (imm typeVex typeEvex sel : Z) : E unit :=
  t <- orEvexIf enc typeVex typeEvex sel ;;
  opAVX_X_X_XM x1 (OReg x2) op (type ||| t) code imm.
(* xbyak.h:2746-2750 *)
Definition opCcmp (op1 op2 : Operand) (dfv code sc : Z) : E unit := fn tt
  (if (dfv <? 0) || (15 <? dfv) then throw ERR_INVALID_DFV else
   opROO (regOf (15 - dfv) REG (ogetBit op1 ||| ogetBit op2) false) op1 op2 (T_APX ||| T_CODE1_IF1) code 0 sc ;;;
   ret tt).
(* xbyak.h:2751-2759 *)
Definition opCcmpi (op : Operand) (imm dfv sc : Z) : E unit := fn tt
  (if (dfv <? 0) || (15 <? dfv) then throw ERR_INVALID_DFV else
   immBit <- getImmBit op imm ;;
   let opBit := ogetBit op in
   let tmp := if immBit <? Z.min opBit 32 then 2 else 0 in
   opROO (regOf (15 - dfv) REG opBit false) op (OReg (regOf 15 REG opBit false)) (T_APX ||| T_CODE1_IF1)
         (0x80 ||| tmp) (immBit / 8) sc ;;;
   dbn imm (immBit / 8)).
(* xbyak.h:2760-2768 *)
Definition opTesti (op : Operand) (imm dfv sc : Z) : E unit := fn tt
  (if (dfv <? 0) || (15 <? dfv) then throw ERR_INVALID_DFV else
   let opBit := ogetBit op in
   if opBit =? 0 then throw ERR_MEM_SIZE_IS_NOT_SPECIFIED else
   let immBit := Z.min opBit 32 in
   opROO (regOf (15 - dfv) REG opBit false) op (OReg (regOf 0 REG opBit false)) (T_APX ||| T_CODE1_IF1)
         0xF6 (immBit / 8) sc ;;;
   dbn imm (immBit / 8)).
(* xbyak.h:2769-2782 *)
Definition opCfcmov (d : Reg) (op1 op2 : Operand) (code : Z) : E unit := fn tt
  (let dBit := getBit d in let op2Bit := ogetBit op2 in
   if (0 <? dBit) && (0 <? op2Bit) && negb (dBit =? op2Bit) then throw ERR_BAD_SIZE_OF_REGISTER else
   if oBit op1 8 || (op2Bit =? 8) then throw ERR_BAD_SIZE_OF_REGISTER else
   match op2 with
   | OMem _ =>
       if isMEM op1 then throw ERR_BAD_COMBINATION else
       opROO d op2 op1 (if 0 <? dBit then T_MUST_EVEX ||| T_NF else T_MUST_EVEX) code 0 NONE ;;; ret tt
   | OReg r2 => opROO d op1 (OReg (setNF r2)) (T_MUST_EVEX ||| T_NF) code 0 NONE ;;; ret tt
   end).
(* xbyak.h:2796-2817 *)
Definition opKmov (k : Reg) (op : Operand) (rev : bool) (size : Z) : E unit := fn tt
  (let isReg := oREGb op (if size <? 64 then 32 else 64) in
   let code := if rev then (if isReg then 0x93 else if isMEM op then 0x91 else 0)
               else (if isOPMASK (ob op) || isMEM op then 0x90 else if isReg then 0x92 else 0) in
   if code =? 0 then throw ERR_BAD_COMBINATION else
   let type := T_0F |||
     (if size =? 8 then T_W0 ||| T_66 else if size =? 16 then T_W0
      else if size =? 32 then (if isReg then T_W0 ||| T_F2 else T_W1 ||| T_66)
      else if size =? 64 then (if isReg then T_W1 ||| T_F2 else T_W1) else 0) in
   let '(p1, p2) := if code =? 0x93 then (op, OReg k) else (OReg k, op) in
   done <- opROO noReg p2 p1 (T_APX ||| type) code 0 NONE ;;
   if (done : bool) then ret tt else
   opVex (ob p1) None p2 (T_L0 ||| type) code NONE).
(* xbyak.h:2818-2825 *)
Definition opEncodeKey (r1 r2 : Reg) (code1 code2 : Z) : E unit :=
  if (getIdx r1 <? 8) && (getIdx r2 <? 8) then
    db 0xF3 ;;; db 0x0F ;;; db 0x38 ;;; db code1 ;;; setModRM 3 (getIdx r1) (getIdx r2)
  else opROO noReg (OReg r2) (OReg r1) (T_MUST_EVEX ||| T_F3) code2 0 NONE ;;; ret tt.
(* xbyak.h:2826-2833 *)
Definition opSSE_APX (x : Reg) (op : Operand) (type1 code1 type2 code2 imm : Z) : E unit :=
  done <- (if (getIdx x <=? 15) && hasRex2 op
           then opROO noReg op (OReg x) type2 code2 (if imm =? NONE then 0 else 1) NONE else ret false) ;;
  if (done : bool) then when negb (imm =? NONE) do db imm
  else opSSE x op type1 code1 (Some isXMM_XMMorMEM) imm.
(* xbyak.h:2835-2858 *)
Definition opAVX10ZeroExt (op1 op2 : Operand) (typeTbl codeTbl : list Z) (enc : PreferredEncoding) (bit : Z) : E unit := fn tt
  (let '(p1, p2, rev) := if isMEM op1 then (op2, op1, true) else (op1, op2, false) in
   if isMEM p1 then throw ERR_BAD_COMBINATION else
   let '(p1, p2, rev) := if oXMM p1 then (p2, p1, negb rev) else (p1, p2, rev) in
   enc <- getEncoding enc 1 ;;
   let sel := if oXMM p1 || (isMEM p1 && PreferredEncoding_beq enc AVX10v2Encoding) then 2 + b2z rev
              else if oREGb p1 bit || isMEM p1 then b2z rev else -1 in
   if sel =? -1 then throw ERR_BAD_COMBINATION else
   opAVX_X_X_XM (ob p2) (OReg (Xmm 0)) p1 (nth (Z.to_nat sel) typeTbl 0) (nth (Z.to_nat sel) codeTbl 0) NONE).
(* xbyak.h:2940, 2946 *)
Definition jmp_op (op : Operand) (type : LabelType) : E unit := opJmpOp op type 4.
Definition call_op (op : Operand) (type : LabelType) : E unit := opJmpOp op type 2.
(* xbyak.h:2958-2973 *)
Definition test_ (op : Operand) (reg : Reg) : E unit := opRO reg op 0 0x84 (oKind op =? kind_ reg) 0.
Definition test_imm (op : Operand) (imm0 : Z) : E unit :=
  let imm := w32 imm0 in
  verifyMemHasSize op ;;;
  let immSize := Z.min (ogetBit op / 8) 4 in
  (if oREG op && (ogetIdx op =? 0) then
     rex op noOp 0 ;;; db (0xA8 ||| (if oBit op 8 then 0 else 1))
   else opRext op 0 0 0 0xF6 false immSize None) ;;;
  dbn imm immSize.
(* xbyak.h:2974-2983 ; imm is int *)
Definition imul_imm (reg : Reg) (op : Operand) (imm : Z) : E unit :=
  let s := if IsInDisp8 imm then 1 else 0 in
  let immSize := if s =? 1 then 1 else if isREGb reg 16 then 2 else 4 in
  let code := 0x69 ||| (s <<< 1) in
  done <- opROO noReg op (OReg reg) (T_APX ||| T_NF ||| T_ZU) code immSize NONE ;;
  when negb (done : bool) do opRO reg op 0 code (kind_ reg =? oKind op) immSize ;;;
  dbn imm immSize.
(* xbyak.h:2984-3004 *)
Definition push_op (op : Operand) : E unit := opPushPop op 0xFF 6 0x50.
Definition pop_op (op : Operand) : E unit := opPushPop op 0x8F 0 0x58.
(* xbyak.h:3005-3040 *)
Definition mov_oo (op1 op2 : Operand) : E unit := fn tt
  (let sel :=
     match op1, op2 with
     | OReg r, OMem a => if isREG r && (getIdx r =? 0) then Some (r, a, 0xA0) else None
     | OMem a, OReg r => if isREG r && (getIdx r =? 0) then Some (r, a, 0xA2) else None
     | _, _ => None
     end in
   match sel with
   | Some (reg, addr, code) =>
       if isOnlyDisp addr then
         rex (OReg reg) (OMem addr) 0 ;;;
         db (code ||| (if isBit reg 8 then 0 else 1)) ;;;
         dd (w32 (getDisp addr))
       else opRO_MR op1 op2 0x88
   | None => opRO_MR op1 op2 0x88
   end).
(* xbyak.h:3041-3061 ; imm is uint64_t *)
Definition mov_oi (op : Operand) (imm0 : Z) : E unit := fn tt
  (let imm := w64 imm0 in
   match op with
   | OReg r => if isREG r then size <- mov_imm r imm ;; dbn imm size else throw ERR_BAD_COMBINATION
   | OMem a =>
       verifyMemHasSize op ;;;
       let immSize := ogetBit op / 8 in
       if (if immSize <=? 4 then
             let s := s64 imm >>> (immSize * 8) in negb (s =? 0) && negb (s =? -1)
           else negb (IsInInt32 imm)) then throw ERR_IMM_IS_TOO_BIG else
       let immSize := if immSize <=? 4 then immSize else 4 in
       opMR (set_immSize a immSize) (regOf 0 REG (ogetBit op) false) 0 0xC6 0 NONE ;;;
       dbn (w32 imm) immSize
   end).
(* xbyak.h:1722 *)
Definition dummyAddr := 0x12345678.
(* xbyak.h:3068-3072; the item IPutL stands for 4 bytes in this build (sizeof(size_t), 2449) *)
Definition mov_label (reg : Reg) (l : LabelRef) : E unit :=
  mov_imm reg dummyAddr ;;; emit (IPutL l false 0).
(* xbyak.h:3073-3090 *)
Definition xchg (op1 op2 : Operand) : E unit := fn tt
  (let '(p1, p2) := if isMEM op1 || (oREGb op2 (16 ||| i32e) && (ogetIdx op2 =? 0)) then (op2, op1) else (op1, op2) in
   if isMEM p1 then throw ERR_BAD_COMBINATION else
   if oREG p2 && (oREGb p1 (16 ||| i32e) && (ogetIdx p1 =? 0))
   then rex p2 p1 0 ;;; db (0x90 ||| (ogetIdx p2 &&& 7))
   else
   let '(p1, p2) := if oREG p1 && oREG p2 then (p2, p1) else (p1, p2) in
   opRO (ob p1) p2 0 (0x86 ||| (if oBit p1 8 then 0 else 1)) (oREG p1 && (ogetBit p1 =? ogetBit p2)) 0).
(* xbyak.h:3093-3139 *)
Definition mov_o_seg (op : Operand) (s : Segment) : E unit :=
  opRO (Reg8 (segIdx s)) op (T_ALLOW_DIFF_SIZE ||| T_ALLOW_ABCDH) 0x8C (oREGb op (16 ||| i32e)) 0.
Definition mov_seg_o (s : Segment) (op : Operand) : E unit :=
  op' <- (if oREGb op (16 ||| i32e) then r <- cvt32 (ob op) ;; ret (OReg r) else ret op) ;;
  opRO (Reg8 (segIdx s)) op' (T_ALLOW_DIFF_SIZE ||| T_ALLOW_ABCDH) 0x8E (oREGb op (16 ||| i32e)) 0.
(* xbyak.h:3268-3285 *)
Definition vmovd (op1 op2 : Operand) (enc : PreferredEncoding) : E unit :=
  opAVX10ZeroExt op1 op2
    [T_EVEX ||| T_66 ||| T_0F ||| T_W0 ||| T_N4; T_EVEX ||| T_66 ||| T_0F ||| T_W0 ||| T_N4;
     T_MUST_EVEX ||| T_66 ||| T_0F ||| T_EW0 ||| T_N4; T_MUST_EVEX ||| T_F3 ||| T_0F ||| T_EW0 ||| T_N4]
    [0x7E; 0x6E; 0xD6; 0x7E] enc 32.
Definition vmovw (op1 op2 : Operand) (enc : PreferredEncoding) : E unit :=
  opAVX10ZeroExt op1 op2
    [T_MUST_EVEX ||| T_66 ||| T_MAP5 ||| T_N2; T_MUST_EVEX ||| T_66 ||| T_MAP5 ||| T_N2;
     T_MUST_EVEX ||| T_F3 ||| T_MAP5 ||| T_EW0 ||| T_N2; T_MUST_EVEX ||| T_F3 ||| T_MAP5 ||| T_EW0 ||| T_N2]
    [0x7E; 0x6E; 0x7E; 0x6E] enc 112.
