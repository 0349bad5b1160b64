(* What the processor reads from the code buffer: little-endian fields and branch targets. *)
From Coq Require Import ZArith List Bool.
From Verif Require Import Base Types Emit State Code.
Import ListNotations.
Open Scope Z_scope.

(* value of the n bytes at offset p *)
Fixpoint le_read (m : Z -> Z) (p : Z) (n : nat) : Z :=
  match n with O => 0 | S n' => m p + 256 * le_read m (p + 1) n' end.
(* the n-byte field read as a signed number *)
Definition signed (n v : Z) : Z := if v <? 2 ^ (8 * n - 1) then v else v - 2 ^ (8 * n).
Definition read_signed (c : Code) (pos n : Z) : Z := signed n (le_read (c_mem c) pos (Z.to_nat n)).
Definition read_u64 (c : Code) (pos : Z) : Z := le_read (c_mem c) pos 8.
(* next instruction address + displacement, for a branch whose displacement is its last field *)
Definition branch_target (c : Code) (pos n : Z) : Z := w64 (c_top c + (pos + n) + read_signed c pos n).
