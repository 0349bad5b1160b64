#!/usr/bin/env python3
"""Write Encode32.v: the encoder helpers as compiled with XBYAK32.

The source text of xbyak.h is shared by both builds except for the places under #ifdef XBYAK64 /
XBYAK32.  Encode.v is the transcription for XBYAK64.  This script replaces the definitions that
contain such a place by the 32-bit branch (table NEW, transcribed by hand with citations), and
repeats unchanged every definition that uses one of them.  Definitions of Encode.v that do not
depend on the build are imported, not repeated.  The output is checked in.
"""
import re
TH = '/verif/rocq/theories/'
src = open(TH + 'Encode.v').read().split('\n')

NEW = {}
NEW['isXMM_REG32orMEM'] = NEW['isREG32_XMMorMEM'] = NEW['isREG32_REG32orMEM'] = None   # text unchanged, other i32e
NEW['rex'] = '''(* xbyak.h:1779-1825; the address-size prefix of line 1803 is emitted for BIT == 64 only *)
''' 
NEW['setSIB'] = '''(* xbyak.h:2011-2072; no range check (2014) and no SIB byte for [disp32] (2054) *)
Definition setSIB (e : RegExp) (reg disp8N : Z) : E unit := fn tt
  (let disp64 := e_disp e in
   let disp := w32 disp64 in
   let base := e_base e in let index := e_index e in
   let baseIdx := getIdx base in
   let baseBit := getBit base in
   let indexBit := getBit index in
   let '(md, disp) :=
     if (baseBit =? 0) || (negb ((baseIdx &&& 7) =? 5) && (disp =? 0)) then (0, disp)
     else if disp8N =? 0 then (if IsInDisp8 disp then (1, disp) else (2, disp))
     else
       let t := w32 (Z.quot (s32 disp) disp8N) in
       if (disp mod disp8N =? 0) && IsInDisp8 t then (1, t) else (2, disp) in
   let newBaseIdx := if baseBit =? 0 then 5 else baseIdx &&& 7 in
   let hasSIB := negb (indexBit =? 0) || ((baseIdx &&& 7) =? 4) in
   (if hasSIB then
      let idx := if indexBit =? 0 then 4 else getIdx index &&& 7 in
      let scale := e_scale e in
      let SS := if scale =? 8 then 3 else if scale =? 4 then 2 else if scale =? 2 then 1 else 0 in
      setModRM md reg 4 ;;; setModRM SS idx newBaseIdx
    else setModRM md reg newBaseIdx) ;;;
   (if md =? 1 then db disp
    else if (md =? 2) || ((md =? 0) && (baseBit =? 0)) then dd disp else ret tt)).'''
NEW['opAddr'] = '''(* xbyak.h:2184-2202; the constructors of M_64bitDisp, M_rip and M_ripAddr addresses (1332-1335) do not
   exist in this build *)
Definition opAddr (addr : Address) (reg : Z) : E unit := fn tt
  (if negb (permitVsib addr) && isVsib addr then throw ERR_BAD_VSIB_ADDRESSING else
   setSIB (getRegExp addr) reg (disp8N addr)).'''
NEW['opIncDec'] = '''(* xbyak.h:2375-2396, the #else branch ignores d *)
Definition opIncDec (d : Reg) (op : Operand) (ext : Z) : E unit :=
  verifyMemHasSize op ;;;
  if oREG op && negb (oBit op 8) then
    rex op noOp 0 ;;; db ((if ext =? 0 then 0x40 else 0x48) ||| ogetIdx op)
  else opRext op (ogetBit op) ext 0 0xFE false 0 None.'''
NEW['mov_oo'] = '''(* xbyak.h:3005-3040 *)
Definition mov_oo (op1 op2 : Operand) : E unit := fn tt
  (let sel :=
     match op1, op2 with
     | OReg r, OMem a => if isREG r && (getIdx r =? 0) then Some (r, a, 0xA0) else None
     | OMem a, OReg r => if isREG r && (getIdx r =? 0) then Some (r, a, 0xA2) else None
     | _, _ => None
     end in
   match sel with
   | Some (reg, addr, code) =>
       if isOnlyDisp addr then
         rex (OReg reg) (OMem addr) 0 ;;;
         db (code ||| (if isBit reg 8 then 0 else 1)) ;;;
         dd (w32 (getDisp addr))
       else opRO_MR op1 op2 0x88
   | None => opRO_MR op1 op2 0x88
   end).'''
NEW['dummyAddr'] = '''(* xbyak.h:1722 *)
Definition dummyAddr := 0x12345678.'''
NEW['xchg'] = None

PRE = '''(* The encoder helpers of CodeGenerator in the 32-bit build (XBYAK32).  Written by tools/gen32.py from
   Encode.v: the definitions with a place under #ifdef XBYAK64 / XBYAK32 have the 32-bit branch, those
   that use them are repeated unchanged, all others are the ones of Encode.v.  The names are the same;
   a file that needs both builds writes Encode.x and Encode32.x.  size_t has 32 bits: addresses are
   built with displacements modulo 2^32 (regExpDisp below). *)
From Coq Require Import ZArith List Bool String.
From Verif Require Import Base Types Emit Encode.
Import ListNotations.
Open Scope Z_scope.

(* xbyak.h:989, 1721 *)
Definition i32e := 32.
Definition BIT := 32.

(* ---- operand construction ---- *)
(* xbyak.h:738-784 Operand::setBit with the XBYAK32 branches (753, 763) *)
Definition setBit (r : Reg) (bit : Z) : E Reg := fn r
  (if negb ((bit =? 8) || (bit =? 16) || (bit =? 32) || (bit =? 64) || (bit =? 128)
            || (bit =? 256) || (bit =? 512) || (bit =? 8192)) then throw ERR_CANT_CONVERT else
   if isBit r bit then ret r else
   if is_ r (MEM ||| OPMASK) 0 then ret (set_kindbit r (kind_ r) bit) else
   if is_ r (REG ||| XMM ||| YMM ||| ZMM ||| TMM) 0 then
     let idx := getIdx r in
     if isREGb r 8 && ((4 <=? idx) && (idx <? 8)) && negb (isExt8bit r) then throw ERR_CANT_CONVERT else
     let fin idx' kind :=
       ret (if 128 <=? bit
            then mkReg idx' kind bit (zero_ r) (mask_ r) (rounding_ r) (NF_ r) (ZU_ r)
            else mkReg idx' kind bit (zero_ r) 0 0 (NF_ r) (ZU_ r)) in
     if bit =? 8 then (if 4 <=? idx then throw ERR_CANT_CONVERT else fin idx REG)
     else if (bit =? 16) || (bit =? 32) || (bit =? 64) then
       (if 16 <=? idx then throw ERR_CANT_CONVERT else fin idx REG)
     else if bit =? 128 then fin idx XMM
     else if bit =? 256 then fin idx YMM
     else if bit =? 512 then fin idx ZMM
     else fin idx TMM
   else throw ERR_CANT_CONVERT).
(* xbyak.h:802 *)
Definition changeBit (r : Reg) (bit : Z) : E Reg := setBit r bit.
(* xbyak.h:927-962 *)
Definition cvt8 (r : Reg) : E Reg :=
  r' <- changeBit r 8 ;; ret (regOf (getIdx r') REG 8 (isExt8bit r')).
Definition cvt16 (r : Reg) : E Reg := r' <- changeBit r 16 ;; ret (Reg16 (getIdx r')).
Definition cvt32 (r : Reg) : E Reg := r' <- changeBit r 32 ;; ret (Reg32 (getIdx r')).
Definition cvt128 (r : Reg) : E Reg := r' <- changeBit r 128 ;; ret (Xmm (getIdx r')).
Definition cvt256 (r : Reg) : E Reg := r' <- changeBit r 256 ;; ret (Ymm (getIdx r')).
Definition cvt512 (r : Reg) : E Reg := r' <- changeBit r 512 ;; ret (Zmm (getIdx r')).

(* ---- address expressions ---- *)
(* xbyak.h:991 RegExp(size_t disp) *)
Definition regExpDisp (disp : Z) : RegExp := mkRegExp noReg noReg 0 (w32 disp).
(* xbyak.h:992-1004 *)
Definition regExpReg (r : Reg) (scale : Z) : E RegExp :=
  fn (mkRegExp noReg noReg scale 0)
  (if negb (isREGb r i32e) && negb (is_ r (XMM ||| YMM ||| ZMM ||| TMM) 0)
   then throw ERR_BAD_SIZE_OF_REGISTER else
   if scale =? 0 then ret (mkRegExp noReg noReg scale 0) else
   if negb (scale =? 1) && negb (scale =? 2) && negb (scale =? 4) && negb (scale =? 8)
   then throw ERR_BAD_SCALE else
   if (128 <=? getBit r) || negb (scale =? 1)
   then ret (mkRegExp noReg r scale 0) else ret (mkRegExp r noReg scale 0)).
(* xbyak.h:1006-1015 *)
Definition optimize (e : RegExp) : RegExp :=
  if isBit (e_index e) i32e && (getBit (e_base e) =? 0) && (e_scale e =? 2)
  then mkRegExp (e_index e) (e_index e) 1 (e_disp e) else e.
(* xbyak.h:1045-1064 operator+ *)
Definition regExpAdd (a b : RegExp) : E RegExp :=
  e <- Emit.regExpAdd a b ;; ret (mkRegExp (e_base e) (e_index e) (e_scale e) (w32 (e_disp e))).
(* xbyak.h:1073-1078 operator- *)
Definition regExpSub (e : RegExp) (disp : Z) : RegExp :=
  mkRegExp (e_base e) (e_index e) (e_scale e) (w32 (e_disp e - disp)).
(* xbyak.h:1337-1340 *)
Definition getRegExp (a : Address) : RegExp := if a_optimize a then optimize (a_e a) else a_e a.

(* ---- encoder ---- *)
'''

# split into (comment, name, text)
blocks = []; com = None; cur = None
for l in src:
    m = re.match(r'(Definition|Fixpoint|Inductive|Scheme|Record) (\w+)', l)
    if m:
        cur = [com, m.group(2), [l]]; blocks.append(cur)
    elif l.startswith('(*'):
        cur = None; com = [l]
        incom = '*)' not in l
    elif cur is not None:
        if l.strip() == '': cur = None
        else: cur[2].append(l)
    elif com is not None and l.strip() and '*)' not in com[-1]:
        com.append(l)
base = {'i32e', 'BIT', 'setBit', 'changeBit', 'cvt8', 'cvt16', 'cvt32', 'cvt64', 'cvt128', 'cvt256', 'cvt512',
        'regExpDisp', 'optimize', 'getRegExp', 'regExpReg', 'regExpAdd', 'regExpSub', 'VerifyInInt32'}
dep = set(base)
out = [PRE]; lastcom = None; names = []
for com, name, text in blocks:
    t = '\n'.join(text)
    if name in ('addrOf', 'opAMX', 'bswap'): continue   # opAMX: XBYAK64 only (2783)
    words = set(re.findall(r"[\w']+", t)) - {name}
    if not (name in NEW or words & dep): continue
    dep.add(name); names.append(name)
    if NEW.get(name) and 'Definition' in NEW[name]:
        out.append(NEW[name]); lastcom = None; continue
    if name == 'rex':
        t2 = t.replace('       when is32bit addr do db 0x67 ;;;\n', '')
        assert t2 != t; t = t2
        out.append(NEW['rex'].rstrip()); 
    elif name == 'opVex':
        t2 = t.replace('        when is32bit addr do db 0x67 ;;;\n', '')
        assert t2 != t; t = t2
        out.append('(* xbyak.h:2497-2533; the prefix of line 2504 is emitted for BIT == 64 only *)')
    elif name == 'xchg':
        t2 = t.replace(' && (negb (ogetIdx p2 =? 0) || negb (oREGb p1 32))', '')
        assert t2 != t; t = t2
        out.append('(* xbyak.h:3073-3090 *)')
    elif name == 'mov_label':
        t2 = t.replace('emit (IPutL l false 0)', 'emit (IPutL l false 0)')
        out.append('(* xbyak.h:3068-3072; the item IPutL stands for 4 bytes in this build (sizeof(size_t), 2449) *)')
    elif com is not None and com is not lastcom:
        out.append('\n'.join(com))
    lastcom = com
    out.append(t)
open(TH + 'Encode32.v', 'w').write('\n'.join(out) + '\n')
print(len(names), 'definitions'); print(' '.join(names))
