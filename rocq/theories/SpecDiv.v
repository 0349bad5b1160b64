(* Specification: a 32-bit x86 machine with the few instructions that sample/quantize.cpp uses (C60), after the Intel SDM volume 2
   (ADC, ADD, MOV, MUL, POP, PUSH, RET, SHR).  Independent of xbyak.  Of the flags only CF is kept; memory is byte addressed and
   addresses wrap at 2^32. *)
From Coq Require Import ZArith List Bool.
Import ListNotations.
Open Scope Z_scope.

Definition EAX := 0. Definition EDX := 2. Definition ESP := 4. Definition ESI := 6. Definition EDI := 7.
Inductive ins :=
| Load (r base off : Z) | Store (base off r : Z) | MovI (r imm : Z) | MovR (r s : Z)
| Mul (r : Z) | AddI (r imm : Z) | AdcI (r imm : Z) | ShrI (r n : Z)
| Push (r : Z) | Pop (r : Z) | Ret.
Record mach := Mach { reg : Z -> Z; cf : bool; byte : Z -> Z; ip : option Z }.   (* ip: the address returned to *)
Definition set_reg (f : Z -> Z) (r v : Z) : Z -> Z := fun i => if i =? r then v else f i.
Definition at32 (a : Z) : Z := a mod 2 ^ 32.
Definition get32 (m : Z -> Z) (a : Z) : Z :=
  m (at32 a) mod 256 + 256 * (m (at32 (a + 1)) mod 256 + 256 * (m (at32 (a + 2)) mod 256 + 256 * (m (at32 (a + 3)) mod 256))).
Definition put32 (m : Z -> Z) (a v : Z) : Z -> Z := fun i => let k := at32 (i - a) in if k <? 4 then v / 256 ^ k mod 256 else m i.
Definition step (s : mach) (i : ins) : mach :=
  let with_reg r v c := Mach (set_reg (reg s) r v) c (byte s) (ip s) in
  match i with
  | Load r b o => with_reg r (get32 (byte s) (reg s b + o)) (cf s)
  | Store b o r => Mach (reg s) (cf s) (put32 (byte s) (reg s b + o) (reg s r)) (ip s)
  | MovI r v => with_reg r (at32 v) (cf s)
  | MovR r q => with_reg r (reg s q) (cf s)
  | Mul r => let p := reg s EAX * reg s r in Mach (set_reg (set_reg (reg s) EAX (at32 p)) EDX (p / 2 ^ 32)) (negb (p / 2 ^ 32 =? 0)) (byte s) (ip s)
  | AddI r v => let t := reg s r + at32 v in with_reg r (at32 t) (2 ^ 32 <=? t)
  | AdcI r v => let t := reg s r + at32 v + (if cf s then 1 else 0) in with_reg r (at32 t) (2 ^ 32 <=? t)
  | ShrI r n => let c := n mod 32 in if c =? 0 then s else with_reg r (reg s r / 2 ^ c) (Z.testbit (reg s r) (c - 1))
  | Push r => let a := at32 (reg s ESP - 4) in Mach (set_reg (reg s) ESP a) (cf s) (put32 (byte s) a (reg s r)) (ip s)
  | Pop r => let v := get32 (byte s) (reg s ESP) in Mach (set_reg (set_reg (reg s) ESP (at32 (reg s ESP + 4))) r v) (cf s) (byte s) (ip s)
  | Ret => Mach (set_reg (reg s) ESP (at32 (reg s ESP + 4))) (cf s) (byte s) (Some (get32 (byte s) (reg s ESP)))
  end.
Definition run (l : list ins) (s : mach) : mach := fold_left step l s.
