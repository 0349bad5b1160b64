(* Specification: the meaning of a written address expression [base + index*scale + disp],
   and of register operands, in terms of architectural register numbers. *)
From Coq Require Import ZArith List Bool.
From Verif Require Import Base Types SpecX86.
Import ListNotations.
Open Scope Z_scope.

Definition present (r : Reg) : bool := negb (bit_ r =? 0).
(* architectural number of a register object: al/ax/eax/rax = 0, ..., spl..dil = 4..7, xmm5 = 5 *)
Definition regno (r : Reg) : Z := idx_ r mod 32.
(* value of the expression for a register file [regs] *)
Definition written (regs : Z -> Z) (e : RegExp) : Z :=
  (if present (e_base e) then regs (regno (e_base e)) else 0)
  + (if present (e_index e) then regs (regno (e_index e)) * e_scale e else 0)
  + s64 (e_disp e).
Definition addr_size (a32 : bool) : Z := if a32 then 2 ^ 32 else 2 ^ 64.
(* one of the registers of the expression is a 32-bit register *)
Definition uses32 (e : RegExp) : bool := (bit_ (e_base e) =? 32) || (bit_ (e_index e) =? 32).

(* the decoded memory operand denotes the expression: same registers, same scale, same displacement *)
Definition mem_matches (e : RegExp) (m : mem) : Prop :=
  m_base m = (if present (e_base e) then BReg (regno (e_base e)) else BNone) /\
  m_index m = (if present (e_index e) then Some (regno (e_index e)) else None) /\
  (present (e_index e) = true -> m_scale m = e_scale e) /\
  m_disp m = s64 (e_disp e).

(* the byte register a register object names: ah..bh are bits 8..15 of registers 0..3 *)
Definition byte_meaning (r : Reg) : breg :=
  let n := regno r in
  if (idx_ r <? 32) && (4 <=? n) && (n <? 8) then BHigh (n - 4) else BLow n.

(* opcode bytes that are not prefixes or escapes in 64-bit mode *)
Definition plain_opcode (o : Z) : bool :=
  negb ((o =? 0x66) || (o =? 0x67) || (o =? 0xF2) || (o =? 0xF3) || (o =? 0xF0)
        || (o =? 0x26) || (o =? 0x2E) || (o =? 0x36) || (o =? 0x3E) || (o =? 0x64) || (o =? 0x65)
        || ((0x40 <=? o) && (o <=? 0x4F)) || (o =? 0xD5) || (o =? 0xC4) || (o =? 0xC5) || (o =? 0x62)
        || (o =? 0x0F)).
(* an opcode byte usable in an opcode map *)
Definition opcode_ok (map o : Z) : bool :=
  (0 <=? o) && (o <? 256)
  && (if map =? 0 then plain_opcode o
      else if map =? 1 then negb ((o =? 0x38) || (o =? 0x3A)) else true).

(* The decoded memory operand m, in an instruction with header h, denotes the written expression e:
   for all register contents the effective address is the value of e modulo the address size. *)
Definition denotes (e : RegExp) (h : header) (m : mem) : Prop :=
  forall (regs : Z -> Z) (rip : Z),
    eff_addr regs rip (h_67 h) m = written regs e mod addr_size (uses32 e).
