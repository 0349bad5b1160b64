(* Specification: what the processor does for a subset of the integer instructions (mov, add .. cmp, test, inc, dec, neg,
   not, push, pop, lea, xchg, movzx, movsx, movsxd, setcc, cmovcc, imul, shl, shr, sar, bswap), read from their bytes with the
   decoder of SpecX86, and what the same instructions mean for operands as they are written in a program.  From the Intel
   SDM vol. 1 (3.4.1: results in registers) and vol. 2.  Independent of xbyak.  The flags kept are CF, PF, ZF, SF and OF;
   AF is not read by any of these instructions.  Flags that the manual leaves undefined take values from an arbitrary
   sequence (field un), so a theorem about all states covers every value a processor may choose. *)
From Coq Require Import ZArith List Bool.
From Verif Require Import Base Types SpecX86 SpecAddr SpecLeg SpecCond.
Import ListNotations.
Open Scope Z_scope.

(* floating-point operations, named after their mnemonics *)
Inductive fop :=
| FAdd | FSub | FMul | FDiv | FMin | FMax | FSqrt | FMadd | FMsub | FNmadd | FNmsub | FRcp | FRsqrt | FRcp14 | FRsqrt14
| FGetexp | FScalef | FCmp | FRange | FReduce | FRndscale | FRound | FGetmant
| FOfS | FOfU | FToS | FToU | FTruncS | FTruncU.         (* from and to (un)signed integers of the same width *)
(* the vector part, used in SpecVec: vector registers, opmasks, and what floating-point operations compute (operation, bits,
   rounding (0: MXCSR, 1 .. 4: rn rd ru rz, 5: sae), operands) *)
Record vunit := mkV { xr : Z -> Z; kr : Z -> Z; fpu : fop -> Z -> Z -> list Z -> Z }.
(* registers by number (64-bit values), memory by byte address, flags, the values of undefined flags to come, the vector part *)
Record st := mkSt { rg : Z -> Z; mm : Z -> Z; fl : flags; un : nat -> bool; vu : vunit }.
Definition cf (s : st) : bool := fCF (fl s).
Definition upd (f : Z -> Z) (i v : Z) : Z -> Z := fun j => if j =? i then v else f j.
Definition addr64 (a : Z) : Z := a mod 2 ^ 64.
Fixpoint load (m : Z -> Z) (a : Z) (n : nat) : Z := match n with O => 0 | S n' => m (addr64 a) + 256 * load m (a + 1) n' end.
Fixpoint store (m : Z -> Z) (a v : Z) (n : nat) : Z -> Z :=
  match n with O => m | S n' => store (upd m (addr64 a) (v mod 256)) (a + 1) (v / 256) n' end.

(* where an operand lives *)
Inductive loc := LReg (n : Z) | LByte (b : breg) | LMem (a : Z).
Definition read (w : Z) (l : loc) (s : st) : Z :=
  match l with
  | LReg n => rg s n mod 2 ^ w
  | LByte (BLow n) => rg s n mod 256
  | LByte (BHigh n) => rg s n / 256 mod 256
  | LMem a => load (mm s) a (Z.to_nat (w / 8))
  end.
Definition set_reg (s : st) (n v : Z) : st := mkSt (upd (rg s) n v) (mm s) (fl s) (un s) (vu s).
(* 32-bit results clear the upper half of the register, 16- and 8-bit results keep the rest *)
Definition write (w : Z) (l : loc) (v : Z) (s : st) : st :=
  match l with
  | LReg n => let v := v mod 2 ^ w in
      set_reg s n (if w =? 16 then rg s n - rg s n mod 2 ^ 16 + v else v)
  | LByte (BLow n) => set_reg s n (rg s n - rg s n mod 256 + v mod 256)
  | LByte (BHigh n) => set_reg s n (rg s n - (rg s n / 256 mod 256) * 256 + (v mod 256) * 256)
  | LMem a => mkSt (rg s) (store (mm s) a v (Z.to_nat (w / 8))) (fl s) (un s) (vu s)
  end.
Definition set_fl (f : flags) (s : st) : st := mkSt (rg s) (mm s) f (un s) (vu s).
(* k values were used *)
Definition drop (k : nat) (s : st) : st := mkSt (rg s) (mm s) (fl s) (fun i => un s (k + i)%nat) (vu s).

(* PF: the low byte has an even number of one bits *)
Definition parity (r : Z) : bool := negb (fold_right xorb false (map (Z.testbit r) [0; 1; 2; 3; 4; 5; 6; 7])).
Definition result_flags (w r : Z) (c o : bool) : flags := mkFlags c (parity r) (r =? 0) (2 ^ (w - 1) <=? r) o.
Definition fits (w v : Z) : bool := (- 2 ^ (w - 1) <=? v) && (v <? 2 ^ (w - 1)).
(* add or adc sbb and sub xor cmp, by their number; a, b below 2^w; the result and the flags *)
Definition alu (d w a b : Z) (c : bool) : Z * flags :=
  let k := 2 ^ w in
  let addc x := let r := (a + b + x) mod k in
    (r, result_flags w r (k <=? a + b + x) (negb (fits w (sval w a + sval w b + x)))) in
  let subb x := let r := (a - b - x) mod k in
    (r, result_flags w r (a - b - x <? 0) (negb (fits w (sval w a - sval w b - x)))) in
  let logic r := (r, result_flags w r false false) in
  let cy := if c then 1 else 0 in
  if d =? 0 then addc 0 else if d =? 1 then logic (Z.lor a b) else if d =? 2 then addc cy else if d =? 3 then subb cy
  else if d =? 4 then logic (Z.land a b) else if d =? 6 then logic (Z.lxor a b) else subb 0.
(* dst op= v; cmp writes nothing *)
Definition do_alu (d w : Z) (dst : loc) (v : Z) (s : st) : st :=
  let '(x, f) := alu d w (read w dst s) v (cf s) in
  set_fl f (if d =? 7 then s else write w dst x s).
(* test: the flags of and *)
Definition do_test (w : Z) (dst : loc) (v : Z) (s : st) : st := set_fl (snd (alu 4 w (read w dst s) v false)) s.
Inductive unary := Inc | Dec | Not | Neg.
(* inc and dec keep CF, not keeps all flags *)
Definition do_unary (u : unary) (w : Z) (dst : loc) (s : st) : st :=
  let a := read w dst s in
  let keep_cf f := mkFlags (cf s) (fPF f) (fZF f) (fSF f) (fOF f) in
  match u with
  | Inc => let '(x, f) := alu 0 w a 1 false in set_fl (keep_cf f) (write w dst x s)
  | Dec => let '(x, f) := alu 5 w a 1 false in set_fl (keep_cf f) (write w dst x s)
  | Not => write w dst (2 ^ w - 1 - a) s
  | Neg => let '(x, f) := alu 5 w 0 a false in set_fl f (write w dst x s)
  end.
(* imul: CF and OF say that the product does not fit; SF, ZF and PF are undefined *)
Definition do_imul (w : Z) (dst : loc) (a b : Z) (s : st) : st :=
  let p := sval w a * sval w b in let o := negb (fits w p) in
  drop 3 (set_fl (mkFlags o (un s 0%nat) (un s 1%nat) (un s 2%nat) o) (write w dst (p mod 2 ^ w) s)).
Inductive shift := Shl | Shr | Sar.
(* the count is taken modulo 32, or 64 for 64-bit operands; a zero count keeps the flags; OF is defined for count 1 only,
   CF of shl and shr for counts below the width only *)
Definition do_shift (k : shift) (w : Z) (dst : loc) (cnt : Z) (s : st) : st :=
  let a := read w dst s in
  let n := cnt mod (if w =? 64 then 64 else 32) in
  let x := match k with Shl => a * 2 ^ n mod 2 ^ w | Shr => a / 2 ^ n | Sar => sval w a / 2 ^ n mod 2 ^ w end in
  let c := match k with
           | Shl => if n <? w then Z.testbit a (w - n) else un s 0%nat
           | Shr => if n <? w then Z.testbit a (n - 1) else un s 0%nat
           | Sar => Z.testbit (sval w a) (n - 1) end in
  let o := if n =? 1 then match k with Shl => xorb (2 ^ (w - 1) <=? x) c | Shr => 2 ^ (w - 1) <=? a | Sar => false end
           else un s 1%nat in
  drop 2 (set_fl (if n =? 0 then fl s else result_flags w x c o) (write w dst x s)).
(* both values are read before the first is written; the order of the two writes does not matter *)
Definition reg_order (l : loc) : option Z :=
  match l with LReg n => Some n | LByte (BLow n) => Some (2 * n) | LByte (BHigh n) => Some (2 * n + 1) | LMem _ => None end.
Definition do_xchg (w : Z) (l1 l2 : loc) (s : st) : st :=
  let v1 := read w l1 s in let v2 := read w l2 s in
  match reg_order l1, reg_order l2 with
  | Some n1, Some n2 => if n1 <? n2 then write w l1 v2 (write w l2 v1 s) else write w l2 v1 (write w l1 v2 s)
  | _, _ => write w l2 v1 (write w l1 v2 s) end.
(* the bytes of v, w bits, in reverse order *)
Fixpoint rev_bytes (n : nat) (v acc : Z) : Z := match n with O => acc | S n' => rev_bytes n' (v / 256) (256 * acc + v mod 256) end.
Definition do_bswap (w : Z) (dst : loc) (s : st) : st := write w dst (rev_bytes (Z.to_nat (w / 8)) (read w dst s) 0) s.
Definition RSP : Z := 4.
Definition do_push (w v : Z) (s : st) : st :=
  let a := addr64 (rg s RSP - w / 8) in mkSt (upd (rg s) RSP a) (store (mm s) a v (Z.to_nat (w / 8))) (fl s) (un s) (vu s).
(* the destination is found after the stack pointer was changed *)
Definition do_pop (w : Z) (dst : st -> loc) (s : st) : st :=
  let v := load (mm s) (rg s RSP) (Z.to_nat (w / 8)) in
  let s1 := set_reg s RSP (addr64 (rg s RSP + w / 8)) in
  write w (dst s1) v s1.

(* ---- execution of bytes ---- *)
Definition take (n : Z) (bs : list Z) : option (Z * list Z) :=
  let k := Z.to_nat n in
  if Z.of_nat (length bs) <? n then None else Some (le_val (firstn k bs), skipn k bs).
Definition plain (h : header) : bool :=
  match h_space h, h_seg h with Legacy, None => negb (h_F2 h || h_F3 h || h_lock h) | _, _ => false end.
Definition opsize (h : header) : Z := if h_W h then 64 else if h_66 h then 16 else 32.
Definition stacksize (h : header) : Z := if h_66 h then 16 else 64.
Definition reg_loc (h : header) (w n : Z) : loc := if w =? 8 then LByte (byte_reg (h_rex h) n) else LReg n.
(* rip: the address of the next instruction *)
Definition rm_loc (rip : Z) (h : header) (w : Z) (rm : rmop) (s : st) : loc :=
  match rm with RReg n _ => reg_loc h w n | RMem m => LMem (eff_addr (rg s) rip (h_67 h) m) end.
Definition zlen (w : Z) : Z := Z.min (w / 8) 4.
(* instructions without ModRM *)
Definition exec_plain (h : header) (c : list Z) (s : st) : option (list Z * st) :=
  let o := h_opc h in
  let w := if Z.even o then 8 else opsize h in
  let r := h_B h + o mod 8 in
  if (0xB0 <=? o) && (o <=? 0xB7) then     (* mov r8, ib *)
    match take 1 c with Some (v, c) => Some (c, write 8 (reg_loc h 8 r) v s) | None => None end
  else if (0xB8 <=? o) && (o <=? 0xBF) then  (* mov r, iw/id/iq *)
    match take (opsize h / 8) c with Some (v, c) => Some (c, write (opsize h) (LReg r) v s) | None => None end
  else if (o <? 0x40) && ((o mod 8 =? 4) || (o mod 8 =? 5)) then  (* add .. cmp al/ax/eax/rax, imm *)
    match take (zlen w) c with
    | Some (v, c) => Some (c, do_alu (o / 8) w (if w =? 8 then LByte (BLow 0) else LReg 0) (signed (8 * zlen w) v mod 2 ^ w) s)
    | None => None end
  else if (0x50 <=? o) && (o <=? 0x57) then Some (c, do_push (stacksize h) (read (stacksize h) (LReg r) s) s)
  else if (0x58 <=? o) && (o <=? 0x5F) then Some (c, do_pop (stacksize h) (fun _ => LReg r) s)
  else if (0x90 <=? o) && (o <=? 0x97) then  (* xchg; 90 is nop, it does not clear the upper half of rax *)
    Some (c, if (r =? 0) && (opsize h =? 32) then s else do_xchg (opsize h) (LReg r) (LReg 0) s)
  else if (o =? 0xA8) || (o =? 0xA9) then    (* test al/ax/eax/rax, imm *)
    match take (zlen w) c with
    | Some (v, c) => Some (c, do_test w (if w =? 8 then LByte (BLow 0) else LReg 0) (signed (8 * zlen w) v mod 2 ^ w) s)
    | None => None end
  else if o =? 0x6A then match take 1 c with Some (v, c) => Some (c, do_push (stacksize h) (signed 8 v) s) | None => None end
  else if o =? 0x68 then
    match take (zlen (stacksize h)) c with
    | Some (v, c) => Some (c, do_push (stacksize h) (signed (8 * zlen (stacksize h)) v) s) | None => None end
  else None.
Definition shift_of (reg : Z) : option shift := if reg =? 4 then Some Shl else if reg =? 5 then Some Shr else if reg =? 7 then Some Sar else None.
(* instructions with ModRM *)
Definition exec_modrm (rip : Z) (h : header) (reg : Z) (rm : rmop) (c : list Z) (s : st) : option (list Z * st) :=
  let o := h_opc h in
  let w := if Z.even o then 8 else opsize h in
  let dst w := rm_loc rip h w rm s in
  if (o =? 0x80) || (o =? 0x81) then
    match take (zlen w) c with
    | Some (v, c) => Some (c, do_alu reg w (dst w) (signed (8 * zlen w) v mod 2 ^ w) s) | None => None end
  else if o =? 0x83 then
    match take 1 c with Some (v, c) => Some (c, do_alu reg w (dst w) (signed 8 v mod 2 ^ w) s) | None => None end
  else if ((o =? 0xC6) || (o =? 0xC7)) && (reg =? 0) then
    match take (zlen w) c with
    | Some (v, c) => Some (c, write w (dst w) (signed (8 * zlen w) v mod 2 ^ w) s) | None => None end
  else if (o =? 0xFF) && (reg =? 6) then
    Some (c, do_push (stacksize h) (read (stacksize h) (dst (stacksize h)) s) s)
  else if (o =? 0x8F) && (reg =? 0) then
    Some (c, do_pop (stacksize h) (rm_loc rip h (stacksize h) rm) s)
  else if (o <? 0x40) && (o mod 8 <? 4) then   (* add .. cmp *)
    let r := reg_loc h w reg in
    if o mod 8 <? 2 then Some (c, do_alu (o / 8) w (dst w) (read w r s) s)
    else Some (c, do_alu (o / 8) w r (read w (dst w) s) s)
  else if (o =? 0x88) || (o =? 0x89) then Some (c, write w (dst w) (read w (reg_loc h w reg) s) s)
  else if (o =? 0x8A) || (o =? 0x8B) then Some (c, write w (reg_loc h w reg) (read w (dst w) s) s)
  else if (o =? 0x84) || (o =? 0x85) then Some (c, do_test w (dst w) (read w (reg_loc h w reg) s) s)
  else if (o =? 0x86) || (o =? 0x87) then Some (c, do_xchg w (dst w) (reg_loc h w reg) s)
  else if ((o =? 0xFE) || (o =? 0xFF)) && (reg =? 0) then Some (c, do_unary Inc w (dst w) s)
  else if ((o =? 0xFE) || (o =? 0xFF)) && (reg =? 1) then Some (c, do_unary Dec w (dst w) s)
  else if ((o =? 0xF6) || (o =? 0xF7)) && (reg =? 0) then
    match take (zlen w) c with
    | Some (v, c) => Some (c, do_test w (dst w) (signed (8 * zlen w) v mod 2 ^ w) s) | None => None end
  else if ((o =? 0xF6) || (o =? 0xF7)) && (reg =? 2) then Some (c, do_unary Not w (dst w) s)
  else if ((o =? 0xF6) || (o =? 0xF7)) && (reg =? 3) then Some (c, do_unary Neg w (dst w) s)
  else if (o =? 0xC0) || (o =? 0xC1) then   (* shifts *)
    match shift_of reg, take 1 c with Some k, Some (v, c) => Some (c, do_shift k w (dst w) v s) | _, _ => None end
  else if (o =? 0xD0) || (o =? 0xD1) then
    match shift_of reg with Some k => Some (c, do_shift k w (dst w) 1 s) | None => None end
  else if (o =? 0xD2) || (o =? 0xD3) then
    match shift_of reg with Some k => Some (c, do_shift k w (dst w) (read 8 (LByte (BLow 1)) s) s) | None => None end
  else if o =? 0x69 then                   (* imul r, r/m, imm *)
    match take (zlen w) c with
    | Some (v, c) => Some (c, do_imul w (LReg reg) (read w (dst w) s) (signed (8 * zlen w) v mod 2 ^ w) s) | None => None end
  else if o =? 0x6B then
    match take 1 c with
    | Some (v, c) => Some (c, do_imul (opsize h) (LReg reg) (read (opsize h) (dst (opsize h)) s) (signed 8 v mod 2 ^ opsize h) s) | None => None end
  else if o =? 0x63 then                   (* movsxd *)
    if h_W h then Some (c, write 64 (LReg reg) (sval 32 (read 32 (dst 32) s) mod 2 ^ 64) s) else None
  else if o =? 0x8D then                   (* lea *)
    match rm with RMem m => Some (c, write w (LReg reg) (eff_addr (rg s) rip (h_67 h) m) s) | RReg _ _ => None end
  else None.
(* opcodes after 0F *)
Definition exec_0f (rip : Z) (h : header) (reg : Z) (rm : rmop) (c : list Z) (s : st) : option (list Z * st) :=
  let o := h_opc h in
  let w := opsize h in
  let src w := rm_loc rip h w rm s in
  if o =? 0xB6 then Some (c, write w (LReg reg) (read 8 (src 8) s) s)
  else if o =? 0xB7 then Some (c, write w (LReg reg) (read 16 (src 16) s) s)
  else if o =? 0xBE then Some (c, write w (LReg reg) (sval 8 (read 8 (src 8) s) mod 2 ^ w) s)
  else if o =? 0xBF then Some (c, write w (LReg reg) (sval 16 (read 16 (src 16) s) mod 2 ^ w) s)
  else if o =? 0xAF then Some (c, do_imul w (LReg reg) (read w (LReg reg) s) (read w (src w) s) s)
  else if (0x40 <=? o) && (o <=? 0x4F) then   (* cmovcc: a 32-bit register is written in any case *)
    Some (c, write w (LReg reg) (if cc_holds (o - 0x40) (fl s) then read w (src w) s else read w (LReg reg) s) s)
  else if (0x90 <=? o) && (o <=? 0x9F) then   (* setcc *)
    Some (c, write 8 (src 8) (if cc_holds (o - 0x90) (fl s) then 1 else 0) s)
  else None.
(* opcodes of exec_plain *)
Definition no_modrm (o : Z) : bool :=
  ((0xB0 <=? o) && (o <=? 0xBF)) || ((o <? 0x40) && ((o mod 8 =? 4) || (o mod 8 =? 5)))
  || ((0x50 <=? o) && (o <=? 0x5F)) || ((0x90 <=? o) && (o <=? 0x97)) || (o =? 0x6A) || (o =? 0x68) || (o =? 0xA8) || (o =? 0xA9).
Definition exec (rip : Z) (bs : list Z) (s : st) : option (list Z * st) :=
  match dec_header bs with
  | None => None
  | Some (h, c) =>
      if negb (plain h) then None
      else if (h_map h =? 0) && no_modrm (h_opc h) then exec_plain h c s
      else if (h_map h =? 1) && (0xC8 <=? h_opc h) && (h_opc h <=? 0xCF) then   (* bswap; undefined for 16-bit registers *)
        if opsize h =? 16 then None else Some (c, do_bswap (opsize h) (LReg (h_B h + h_opc h mod 8)) s)
      else match decode false 1 bs with
           | Some (h, reg, rm, c) =>
               if h_map h =? 0 then exec_modrm rip h reg rm c s else if h_map h =? 1 then exec_0f rip h reg rm c s else None
           | None => None end
  end.

(* ---- operands as written ---- *)
Definition loc_of (op : Operand) (s : st) : loc :=
  match op with
  | OReg r => if bit_ r =? 8 then LByte (byte_meaning r) else LReg (regno r)
  | OMem a => LMem (written (rg s) (a_e a) mod addr_size (uses32 (a_e a)))
  end.
(* the number of the address, as lea computes it *)
Definition value_of (a : Address) (s : st) : Z := written (rg s) (a_e a) mod addr_size (uses32 (a_e a)).
(* op <- v; op op= v; o1 op= o2; o1 <- o2; push op; pop op, with operand size w *)
Definition e_mov (w : Z) (op : Operand) (v : Z) (s : st) : st := write w (loc_of op s) v s.
Definition e_alu (d w : Z) (op : Operand) (v : Z) (s : st) : st := do_alu d w (loc_of op s) v s.
Definition e_alu2 (d w : Z) (o1 o2 : Operand) (s : st) : st := do_alu d w (loc_of o1 s) (read w (loc_of o2 s) s) s.
Definition e_mov2 (w : Z) (o1 o2 : Operand) (s : st) : st := write w (loc_of o1 s) (read w (loc_of o2 s) s) s.
Definition e_push (w : Z) (op : Operand) (s : st) : st := do_push w (read w (loc_of op s) s) s.
Definition e_pop (w : Z) (op : Operand) (s : st) : st := do_pop w (loc_of op) s.
Definition e_test (w : Z) (o1 o2 : Operand) (s : st) : st := do_test w (loc_of o1 s) (read w (loc_of o2 s) s) s.
Definition e_xchg (w : Z) (o1 o2 : Operand) (s : st) : st := do_xchg w (loc_of o1 s) (loc_of o2 s) s.
Definition e_unary (u : unary) (w : Z) (op : Operand) (s : st) : st := do_unary u w (loc_of op s) s.
Definition e_shift (k : shift) (w : Z) (op : Operand) (cnt : Z) (s : st) : st := do_shift k w (loc_of op s) cnt s.
Definition e_bswap (w : Z) (op : Operand) (s : st) : st := do_bswap w (loc_of op s) s.
Definition e_testi (w : Z) (op : Operand) (v : Z) (s : st) : st := do_test w (loc_of op s) v s.
(* o1 <- o2 * v *)
Definition e_imul3 (w : Z) (o1 o2 : Operand) (v : Z) (s : st) : st := do_imul w (loc_of o1 s) (read w (loc_of o2 s) s) v s.
Definition e_imul (w : Z) (o1 o2 : Operand) (s : st) : st := do_imul w (loc_of o1 s) (read w (loc_of o1 s) s) (read w (loc_of o2 s) s) s.
Definition e_lea (w : Z) (op : Operand) (a : Address) (s : st) : st := write w (loc_of op s) (value_of a s) s.
(* o1, w bits, receives o2, w2 bits, extended with zeros or with its sign *)
Definition e_extend (sign : bool) (w w2 : Z) (o1 o2 : Operand) (s : st) : st :=
  let v := read w2 (loc_of o2 s) s in write w (loc_of o1 s) (if sign then sval w2 v mod 2 ^ w else v) s.
Definition e_cmov (c : flags -> bool) (w : Z) (o1 o2 : Operand) (s : st) : st :=
  write w (loc_of o1 s) (read w (loc_of (if c (fl s) then o2 else o1) s) s) s.
Definition e_set (c : flags -> bool) (op : Operand) (s : st) : st := write 8 (loc_of op s) (if c (fl s) then 1 else 0) s.
(* 64-bit values with an all-zero upper half; with an upper half that repeats bit 31 *)
Definition fits32u (imm : Z) : bool := imm mod 2 ^ 64 <? 2 ^ 32.
Definition fits32s (imm : Z) : bool := let v := signed 64 (imm mod 2 ^ 64) in (- 2 ^ 31 <=? v) && (v <? 2 ^ 31).
