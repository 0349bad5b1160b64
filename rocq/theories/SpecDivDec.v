(* Specification: the encodings of the instructions of SpecDiv in 32-bit mode, read from bytes (Intel SDM volume 2: ADC, ADD, MOV, MUL,
   POP, PUSH, RET, SHR and tables 2-2, 2-3).  Independent of xbyak; None: not one of these encodings. *)
From Coq Require Import ZArith List Bool.
From Verif Require Import SpecDiv.
Import ListNotations.
Open Scope Z_scope.

Definition sx (n v : Z) : Z := if v <? 2 ^ (n - 1) then v else v - 2 ^ n.
Definition id32 (l : list Z) : option (Z * list Z) :=
  match l with a :: b :: c :: d :: l => Some (sx 32 (a + 256 * (b + 256 * (c + 256 * d))), l) | _ => None end.
Definition ib (l : list Z) : option (Z * list Z) := match l with a :: l => Some (sx 8 a, l) | _ => None end.
(* [base + disp] after a ModRM byte with mod md and r/m rm; of the SIB bytes only esp without an index *)
Definition mem32 (md rm : Z) (l : list Z) : option (Z * Z * list Z) :=
  let base := if rm =? 4 then match l with 0x24 :: l => Some (4, l) | _ => None end else if (md =? 0) && (rm =? 5) then None else Some (rm, l) in
  match base with
  | None => None
  | Some (b, l) =>
      if md =? 0 then Some (b, 0, l)
      else match (if md =? 1 then ib l else id32 l) with Some (d, l) => Some (b, d, l) | None => None end
  end.
Definition fetch (l : list Z) : option (ins * list Z) :=
  match l with
  | [] => None
  | op :: l =>
      if op / 8 =? 0x50 / 8 then Some (Push (op mod 8), l)
      else if op / 8 =? 0x58 / 8 then Some (Pop (op mod 8), l)
      else if op =? 0xC3 then Some (Ret, l)
      else if op / 8 =? 0xB8 / 8 then match id32 l with Some (v, l) => Some (MovI (op mod 8) v, l) | None => None end
      else if op =? 0x05 then match id32 l with Some (v, l) => Some (AddI EAX v, l) | None => None end
      else match l with
      | [] => None
      | m :: l =>
          let md := m / 64 in let r := m / 8 mod 8 in let rm := m mod 8 in
          if md =? 3 then
            if op =? 0x8B then Some (MovR r rm, l)
            else if op =? 0x89 then Some (MovR rm r, l)
            else if (op =? 0xF7) && (r =? 4) then Some (Mul rm, l)
            else if (op =? 0xD1) && (r =? 5) then Some (ShrI rm 1, l)
            else match ib l with
                 | None => None
                 | Some (v, l) =>
                     if (op =? 0x83) && (r =? 0) then Some (AddI rm v, l)
                     else if (op =? 0x83) && (r =? 2) then Some (AdcI rm v, l)
                     else if (op =? 0xC1) && (r =? 5) then Some (ShrI rm v, l)
                     else None
                 end
          else if op =? 0x8B then match mem32 md rm l with Some (b, d, l) => Some (Load r b d, l) | None => None end
          else if op =? 0x89 then match mem32 md rm l with Some (b, d, l) => Some (Store b d r, l) | None => None end
          else None
      end
  end.
(* the instructions that the bytes consist of *)
Fixpoint disasm (n : nat) (l : list Z) : option (list ins) :=
  match l, n with
  | [], _ => Some []
  | _, O => None
  | _, S n => match fetch l with Some (i, l) => match disasm n l with Some r => Some (i :: r) | None => None end | None => None end
  end.
(* execution from memory: the 15 bytes at pc, the instruction at their beginning, the next pc *)
Definition window (m : Z -> Z) (pc : Z) : list Z := map (fun k => m (at32 (pc + Z.of_nat k)) mod 256) (seq 0 15).
Definition mstep (x : Z * mach) : option (Z * mach) :=
  let '(pc, s) := x in
  match fetch (window (byte s) pc) with
  | None => None
  | Some (i, rest) =>
      let s' := step s i in
      let next := at32 (pc + (15 - Z.of_nat (length rest))) in
      Some (match i with Ret => match ip s' with Some a => a | None => next end | _ => next end, s')
  end.
Fixpoint msteps (n : nat) (x : Z * mach) : option (Z * mach) :=
  match n with O => Some x | S n => match mstep x with Some y => msteps n y | None => None end end.
