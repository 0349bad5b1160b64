(* Specification: a processor that fetches its instructions from memory.  The integer instructions are those of SpecExec,
   the vector instructions those of SpecVec and VecIsa, the SSE instructions those of SpecSse and SseIsa; here are the branches (Intel SDM vol. 2: JMP, Jcc, CALL, RET in 64-bit mode, operand size 64; direct and indirect) and the fetch of at most
   15 bytes.  Independent of xbyak.  Simplifications: no page faults, no canonical-address checks, no interrupts; code that
   was just written is fetched (no cross-modifying code). *)
From Coq Require Import ZArith List Bool.
From Verif Require Import Base Types SpecX86 SpecLeg SpecCond SpecExec SpecVec VecIsa SpecSse SseIsa.
Import ListNotations.
Open Scope Z_scope.

Fixpoint fetch (m : Z -> Z) (ip : Z) (n : nat) : list Z :=
  match n with O => [] | S n' => m (addr64 ip) :: fetch m (ip + 1) n' end.
(* the branch at ip of k bytes, the displacement of n bytes at its end *)
Definition relative (ip k n : Z) (c : list Z) : option Z :=
  match take n c with Some (v, _) => Some (addr64 (ip + k + signed (8 * n) v)) | None => None end.
Definition if_taken (b : bool) (target next : Z) : Z := if b then target else next.
Definition branch (ip : Z) (bs : list Z) (s : st) : option (Z * st) :=
  match bs with
  | [] => None
  | b :: c =>
      if b =? 0xEB then option_map (fun t => (t, s)) (relative ip 2 1 c)
      else if b =? 0xE9 then option_map (fun t => (t, s)) (relative ip 5 4 c)
      else if b =? 0xE8 then option_map (fun t => (t, do_push 64 (addr64 (ip + 5)) s)) (relative ip 5 4 c)
      else if b =? 0xC3 then Some (addr64 (load (mm s) (rg s RSP) 8), set_reg s RSP (addr64 (rg s RSP + 8)))
      else if (0x70 <=? b) && (b <=? 0x7F) then
        option_map (fun t => (if_taken (cc_holds (b - 0x70) (fl s)) t (addr64 (ip + 2)), s)) (relative ip 2 1 c)
      else if b =? 0x0F then
        match c with
        | b2 :: c => if (0x80 <=? b2) && (b2 <=? 0x8F) then
            option_map (fun t => (if_taken (cc_holds (b2 - 0x80) (fl s)) t (addr64 (ip + 6)), s)) (relative ip 6 4 c) else None
        | [] => None end
      else None
  end.
(* FF /4 and FF /2: jump to, or call, the address in a register or in memory *)
Definition is_indirect (h : header) (reg : Z) : bool :=
  plain h && (h_map h =? 0) && (h_opc h =? 0xFF) && negb (h_66 h) && ((reg =? 2) || (reg =? 4)).
Definition indirect (ip : Z) (bs : list Z) (s : st) : option (Z * st) :=
  match decode false 1 bs with
  | Some (h, reg, rm, c) =>
      if is_indirect h reg then
        let next := addr64 (ip + (Z.of_nat (length bs) - Z.of_nat (length c))) in
        Some (addr64 (read 64 (rm_loc next h 64 rm s) s), if reg =? 2 then do_push 64 next s else s)
      else None
  | None => None
  end.
(* integer, vector and SSE instructions *)
Definition xexec (rip : Z) (bs : list Z) (s : st) : option (list Z * st) :=
  match exec rip bs s with
  | Some r => Some r
  | None => match vexec vec_proc rip bs s with Some r => Some r | None => sexec sse_proc rip bs s end end.
(* one instruction at ip: the new instruction pointer and state; None: not an instruction of this subset *)
Definition mstep (ip : Z) (s : st) : option (Z * st) :=
  let bs := fetch (mm s) ip 15 in
  match branch ip bs s with
  | Some r => Some r
  | None =>
  match indirect ip bs s with
  | Some r => Some r
  | None =>
      match xexec ip bs s with           (* first for the length only *)
      | Some (rest, _) =>
          let next := addr64 (ip + (15 - Z.of_nat (length rest))) in
          match xexec next bs s with Some (_, s') => Some (next, s') | None => None end
      | None => None end
  end end.
Inductive msteps : Z * st -> Z * st -> Prop :=
| M_none c : msteps c c
| M_one ip s c c' : mstep ip s = Some c -> msteps c c' -> msteps (ip, s) c'.
