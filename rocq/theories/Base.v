(* Machine-integer helpers shared by the model.  All C++ integers are modelled
   as [Z]; every place where the C++ arithmetic wraps has an explicit wrap. *)
From Coq Require Import ZArith List Bool Lia.
Import ListNotations.
Open Scope Z_scope.

Definition w8  (x : Z) : Z := x mod 256.            (* static_cast<uint8_t> *)
Definition w16 (x : Z) : Z := x mod 65536.
Definition w32 (x : Z) : Z := x mod 4294967296.     (* static_cast<uint32_t> *)
Definition w64 (x : Z) : Z := x mod 18446744073709551616.  (* size_t / uint64_t *)

(* reinterpretation of an unsigned n-bit value as signed *)
Definition s8  (x : Z) : Z := if w8 x <? 128 then w8 x else w8 x - 256.
Definition s32 (x : Z) : Z := if w32 x <? 2147483648 then w32 x else w32 x - 4294967296.
Definition s64 (x : Z) : Z :=
  if w64 x <? 9223372036854775808 then w64 x else w64 x - 18446744073709551616.

(* (x & mask) != 0 *)
Definition has (x mask : Z) : bool := negb (Z.land x mask =? 0).
Definition b2z (b : bool) : Z := if b then 1 else 0.
Infix "|||" := Z.lor (at level 50, left associativity) : Z_scope.
Infix "&&&" := Z.land (at level 40, left associativity) : Z_scope.
Infix "<<<" := Z.shiftl (at level 45, left associativity) : Z_scope.
Infix ">>>" := Z.shiftr (at level 45, left associativity) : Z_scope.

(* little-endian bytes of v, n bytes: loop "static_cast<uint8_t>(v >> (i * 8))" *)
Fixpoint le_bytes (v : Z) (n : nat) : list Z :=
  match n with
  | O => []
  | S n' => w8 v :: le_bytes (v / 256) n'
  end.

(* value of a little-endian byte list *)
Fixpoint le_val (l : list Z) : Z :=
  match l with
  | [] => 0
  | b :: l' => b + 256 * le_val l'
  end.
