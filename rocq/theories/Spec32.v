(* Specification: instructions in 32-bit (protected, compatibility) mode, Intel SDM vol. 2 chapter 2, and what the operands of
   the 32-bit build correspond to in the 64-bit build. *)
From Coq Require Import ZArith List Bool.
From Verif Require Import Base Types SpecX86 SpecAddr Emit EmitFacts.
Import ListNotations.
Open Scope Z_scope.

(* ---- decoding ---- *)
(* There are no REX and REX2 prefixes: 40..4F are inc/dec, D5 is aad.  C4, C5 and 62 are les, lds and bound unless the next
   byte would be a ModRM byte with mod = 11; then they start VEX and EVEX, with R = X = 1 as written.  The fields that the
   manual calls ignored or reserved outside 64-bit mode must have the value they have for registers 0..7, other byte strings
   are not decoded here; map 4 (APX) does not exist.  67 selects 16-bit addressing, not decoded here. *)
Definition dec_header32 (bs : list Z) : option (header * list Z) :=
  let (p, bs) := scan_prefixes pfx0 bs in
  if p_67 p then None else
  match bs with
  | [] => None
  | b :: r =>
    if ((b =? 0xC5) || (b =? 0xC4) || (b =? 0x62)) && (match r with q :: _ => 0xC0 <=? q | [] => false end) then
      if negb (no_simd_pfx p) then None
      else if b =? 0xC5 then
        match r with
        | q :: o :: r' =>
            Some (mkHeader (p_66 p) (p_67 p) (p_F2 p) (p_F3 p) (p_lock p) (p_seg p) Vex false 1 (q mod 4) false
                    0 0 0 (7 - q / 8 mod 8) false (z_of (tb q 2)) false false 0 true false false 0 o, r')
        | _ => None
        end
      else if b =? 0xC4 then
        match r with
        | q1 :: q2 :: o :: r' =>
            if tb q1 5 && tb q2 6 then
            Some (mkHeader (p_66 p) (p_67 p) (p_F2 p) (p_F3 p) (p_lock p) (p_seg p) Vex false
                    (q1 mod 32) (q2 mod 4) (tb q2 7) 0 0 0 (7 - q2 / 8 mod 8) false (z_of (tb q2 2))
                    false false 0 true false false 0 o, r')
            else None
        | _ => None
        end
      else
        match r with
        | q1 :: q2 :: q3 :: o :: r' =>
            if tb q1 5 && tb q1 4 && negb (tb q1 3) && tb q2 6 && tb q2 2 && tb q3 3 && negb (q1 mod 8 =? 4) then
            Some (mkHeader (p_66 p) (p_67 p) (p_F2 p) (p_F3 p) (p_lock p) (p_seg p) Evex false
                    (q1 mod 8) (q2 mod 4) (tb q2 7) 0 0 0 (7 - q2 / 8 mod 8)
                    false (q3 / 32 mod 4) (tb q3 4) (tb q3 7) (q3 mod 8) true (tb q3 4) (tb q3 2) (q3 mod 16) o, r')
            else None
        | _ => None
        end
    else dec_legacy p false false 0 0 0 bs
  end.

(* mod = 00, r/m = 101 is [disp32], everything else is as in 64-bit mode *)
Definition absolute (rm : rmop) : rmop :=
  match rm with
  | RMem (mkMem BRip i s d) => RMem (mkMem BNone i s d)
  | _ => rm
  end.
Definition decode32 (vsib : bool) (n8 : Z) (bs : list Z) : option (header * Z * rmop * list Z) :=
  match dec_header32 bs with
  | Some (h, r) =>
      match dec_rm h vsib (match h_space h with Evex => n8 | _ => 1 end) r with
      | Some (reg, rm, r') => Some (h, reg, absolute rm, r')
      | None => None
      end
  | None => None
  end.
(* effective addresses are computed modulo 2^32 *)
Definition eff_addr32 (regs : Z -> Z) (m : mem) : Z := eff_addr regs 0 true m.
(* the value of a written expression; displacements have 32 bits *)
Definition written32 (regs : Z -> Z) (e : RegExp) : Z :=
  ((if present (e_base e) then regs (regno (e_base e)) else 0)
   + (if present (e_index e) then regs (regno (e_index e)) * e_scale e else 0) + e_disp e) mod 2 ^ 32.

(* ---- operands of the 32-bit build ---- *)
(* registers 0..7, general registers of 8, 16 or 32 bits; the widths of register objects are powers of two *)
Definition reg32 (r : Reg) : Prop :=
  0 <= idx_ r < 8 /\ 0 <= bit_ r < 16384 /\ (isREG r = true -> isBit r 64 = false)
  /\ (isBit r 16 = true -> isBit r 64 = false).
(* the registers of an address: absent, general 32-bit, or a vector register as index *)
Definition base32 (r : Reg) : Prop := r = noReg \/ (kind_ r = REG /\ bit_ r = 32 /\ 0 <= idx_ r < 8).
Definition index32 (r : Reg) : Prop :=
  base32 r \/ (0 <= idx_ r < 8 /\ ((kind_ r = XMM /\ bit_ r = 128) \/ (kind_ r = YMM /\ bit_ r = 256) \/ (kind_ r = ZMM /\ bit_ r = 512))).
Definition exp32 (e : RegExp) : Prop := base32 (e_base e) /\ index32 (e_index e) /\ 0 <= e_disp e < 2 ^ 32.
Definition addr32 (a : Address) : Prop :=
  kind_ (a_op a) = MEM /\ reg32 (a_op a) /\ a_mode a = M_ModRM /\ a_label a = None /\ exp32 (a_e a).
Definition op32 (o : Operand) : Prop := match o with OReg r => reg32 r | OMem a => addr32 a end.

(* the corresponding operand of the 64-bit build: 64-bit registers in addresses, displacement as a signed number;
   [disp32] corresponds to [rip + disp32], which has the same encoding *)
Definition widen (r : Reg) : Reg := if isREG r then set_kindbit r (kind_ r) 64 else r.
Definition widen_exp (e : RegExp) : RegExp := mkRegExp (widen (e_base e)) (widen (e_index e)) (e_scale e) (w64 (s32 (e_disp e))).
Definition widen_addr (a : Address) : Address :=
  mkAddr (a_op a) (widen_exp (a_e a)) (a_label a) (if isOnlyDisp a then M_rip else a_mode a)
         (immSize a) (disp8N a) (permitVsib a) (a_broadcast a) (a_optimize a).
Definition widen_op (o : Operand) : Operand := match o with OReg r => OReg r | OMem a => OMem (widen_addr a) end.
(* a 16-bit and a 64-bit operand *)
Definition mixed (a b : Reg) : bool := (isBit a 16 && isBit b 64) || (isBit b 16 && isBit a 64).

(* whenever m64 succeeds, m32 emits the same bytes *)
Definition same_code {A} (m32 m64 : E A) : Prop := forall env pos its u, emits m64 env pos its u -> emits m32 env pos its u.
(* the call m32 of the 32-bit build emits what the call m64 of the 64-bit build emits; if [only] holds, m32 succeeds for the same
   arguments only *)
Definition bsame (only : Prop) {A} (m32 m64 : E A) : Prop := same_code m32 m64 /\ (only -> same_code m64 m32).
(* not an MMX register: no register with more than 32 and at most 64 bits *)
Definition no_mmx (o : Operand) : Prop := match o with OReg r => ~ (32 < bit_ r <= 64) | OMem _ => True end.
(* a memory operand next to an MMX register: without a size, or with the size of the register *)
Definition fits (r a : Reg) : Prop := ~ (32 < bit_ r <= 64) \/ bit_ a = 0 \/ bit_ a = bit_ r.
Definition fits_op (r : Reg) (o : Operand) : Prop := match o with OMem a => fits r (a_op a) | OReg _ => True end.
Definition fit_ops (o1 o2 : Operand) : Prop :=
  match o1, o2 with OReg r, OMem a | OMem a, OReg r => fits r (a_op a) | _, _ => True end.
