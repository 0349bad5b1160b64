(* Specification: what the processor does for SSE instructions (legacy encodings, Intel SDM vol. 2): the operations are those
   of SpecVec at 128 bits, without masks; the first operand is destination and source, and bits 128 and up of its register
   keep their values.  Independent of xbyak.  Simplifications as in SpecVec (no faults, in particular no alignment check). *)
From Coq Require Import ZArith List Bool String.
From Verif Require Import Base Types SpecX86 SpecIsa SpecLeg SpecExec SpecVec.
Import ListNotations.
Open Scope Z_scope.

(* Two: destination and source; One: the destination is written only; Store: the destination is in ModRM.rm *)
Inductive sform := Two | One | Store.
Record sserow := mkSse { q_pp : ppfx; q_map : Z; q_opc : Z; q_imm : bool; q_form : sform; q_m : meaning }.
Definition low128 : Z := 2 ^ 128.
(* s' with the upper part of register n from s *)
Definition keep (n : Z) (s s' : st) : st := set_x s' n (vx s' n mod low128 + vx s n / low128 * low128).
Definition sse_do (q : sserow) (imm : Z) (d o : vloc) (s : st) : st :=
  let s' := perform (q_m q) 128 0 imm 0 false false d (match q_form q with Two => [d; o] | _ => [o] end) s in
  match d, o with
  | XReg n, XReg k =>   (* movss, movsd between registers: the rest of the destination is not changed *)
      if is_one (q_m q) then let e := 2 ^ esize (q_m q) in set_x s n (vx s k mod e + vx s n / e * e) else keep n s s'
  | XReg n, _ => keep n s s'
  | _, _ => s' end.
(* prefixes, map and opcode; REX.W is ignored *)
Definition is_sse (h : header) (q : sserow) : bool :=
  match h_space h, h_seg h with Legacy, None => negb (h_lock h) | _, _ => false end
  && Bool.eqb (h_66 h) (pp_is (q_pp q) P66) && Bool.eqb (h_F2 h) (pp_is (q_pp q) PF2) && Bool.eqb (h_F3 h) (pp_is (q_pp q) PF3)
  && (h_map h =? q_map q) && (h_opc h =? q_opc q).
Definition sexec (isa : list sserow) (rip : Z) (bs : list Z) (s : st) : option (list Z * st) :=
  match dec_header bs with
  | None => None
  | Some (h, _) =>
  match find (is_sse h) isa with
  | None => None
  | Some q =>
  match decode false 1 bs with
  | None => None
  | Some (_, reg, rm, c) =>
      let m := match rm with RReg n _ => XReg n | RMem a => XMem (eff_addr (rg s) rip (h_67 h) a) end in
      let run imm := match q_form q with Store => sse_do q imm m (XReg reg) s | _ => sse_do q imm (XReg reg) m s end in
      if q_imm q then match c with i :: c => Some (c, run i) | [] => None end else Some (c, run 0)
  end end end.
(* the instruction with the operands as written, destination first *)
Definition smeans (q : sserow) (imm : Z) (ops : list Operand) (s : st) : st :=
  match ops with [d; o] => sse_do q (if q_imm q then imm else 0) (where_ s d) (where_ s o) s | _ => s end.
