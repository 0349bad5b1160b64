(* Specification for C25, C36, C37: no-operation instructions, alignment, pages, live mappings. *)
From Coq Require Import ZArith List Bool.
From Verif Require Import Base Types SpecX86 Mmap.
Import ListNotations.
Open Scope Z_scope.

(* 90 (without REX.B and F3: not xchg, not pause) or 0F 1F /0 with a memory operand *)
Definition is_nop (i : list Z) : Prop := forall rest,
  (exists h, dec_header (i ++ rest) = Some (h, rest) /\ h_space h = Legacy /\ h_map h = 0 /\ h_opc h = 0x90
             /\ h_B h = 0 /\ h_F3 h = false /\ h_F2 h = false /\ h_lock h = false)
  \/ (exists h m, decode false 1 (i ++ rest) = Some (h, 0, RMem m, rest) /\ h_space h = Legacy /\ h_map h = 1
             /\ h_opc h = 0x1F /\ h_F3 h = false /\ h_F2 h = false /\ h_lock h = false).
Inductive nops : list Z -> Prop :=
| nops_nil : nops []
| nops_cons i rest : is_nop i -> (1 <= List.length i <= 9)%nat -> nops rest -> nops (i ++ rest).

Definition pow2 (x : Z) : Prop := exists k, 0 <= k /\ x = 2 ^ k.
(* the least number of bytes from address a to a multiple of x *)
Definition least_pad (a x n : Z) : Prop := 0 <= n /\ (a + n) mod x = 0 /\ forall k, 0 <= k -> (a + k) mod x = 0 -> n <= k.

(* mprotect(a, len) changes the pages that intersect [a, a + len) (POSIX; a must be page aligned) *)
Definition page_hit (ps a len x : Z) : Prop := exists y, a <= y < a + len /\ y / ps = x / ps.

(* the length of the live mapping at p after a sequence of events (oldest first) *)
Fixpoint live (es : list mev) (p : Z) (cur : option Z) : option Z :=
  match es with
  | [] => cur
  | EMap q len :: es' => live es' p (if q =? p then Some len else cur)
  | EUnmap q _ true :: es' => live es' p (if q =? p then None else cur)
  | _ :: es' => live es' p cur
  end.
(* addresses of a live mapping *)
Definition owned (es : list mev) (p x : Z) : Prop := exists len, live es p None = Some len /\ p <= x < p + len.
(* what mmap promises: a page-aligned non-null address of a region in no live mapping *)
Definition fresh (pageSize : Z) (es : list mev) (p len : Z) : Prop :=
  p <> 0 /\ p mod pageSize = 0 /\ forall q x, owned es q x -> ~ (p <= x < p + len).
(* all answers of mmap in a history keep this promise *)
Fixpoint os_ok (pageSize : Z) (es : list mev) (m : amap) (ops : list mop) : Prop :=
  match ops with
  | [] => True
  | o :: ops' =>
      let (m1, e1) := mm_step pageSize m o in
      (forall p len, In (EMap p len) e1 -> fresh pageSize es p len) /\ os_ok pageSize (es ++ e1) m1 ops'
  end.
