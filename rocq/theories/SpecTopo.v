(* Specification of C45: family and model, threads and cores, caches, as the processor manuals define them (Intel SDM vol. 2
   CPUID and vol. 3 9.9, AMD APM vol. 3 app. E).  [answer o leaf sub r]: a 32-bit register of an answer of cpuid (SpecCpu.v). *)
From Coq Require Import ZArith List Bool String.
From Verif Require Import Base Types Cpu SpecCpu.
Import ListNotations.
Open Scope Z_scope.

(* bits lo .. hi *)
Definition field (x lo hi : Z) : Z := (x / 2 ^ lo) mod 2 ^ (hi - lo + 1).
Definition answers32 (o : oracle) : Prop := forall l s r, 0 <= answer o l s r < 2 ^ 32.

(* ---- leaf 1: family and model ---- *)
Definition fam (o : oracle) : Z := field (answer o 1 0 A) 8 11.
Definition display_family (o : oracle) : Z := if fam o =? 15 then fam o + field (answer o 1 0 A) 20 27 else fam o.
Definition display_model (o : oracle) : Z :=
  let m := field (answer o 1 0 A) 4 7 in
  if (fam o =? 15) || ((fam o =? 6) && intel o && negb (amd o)) then m + 16 * field (answer o 1 0 A) 16 19 else m.

(* ---- leaf 0Bh: sub-leaf 0 describes the threads of a core (level type 1), sub-leaf 1 the threads of a package (type 2) ---- *)
Definition x2apic (o : oracle) : Prop :=
  11 <= max_basic o /\ (answer o 11 0 A <> 0 \/ answer o 11 0 B <> 0)
  /\ field (answer o 11 0 C) 8 15 = 1 /\ field (answer o 11 1 C) 8 15 = 2.
Definition threads_per_core (o : oracle) : Z := field (answer o 11 0 B) 0 15.
Definition threads (o : oracle) : Z := field (answer o 11 1 B) 0 15.

(* ---- leaf 4 (Intel) and 8000001Dh (AMD): one sub-leaf per cache, the list ends with type 0;
   types 1, 2, 3: data, instruction, unified ---- *)
Definition ctype (o : oracle) (leaf i : Z) : Z := field (answer o leaf i A) 0 4.
Definition is_data (o : oracle) (leaf i : Z) : bool := (ctype o leaf i =? 1) || (ctype o leaf i =? 3).
(* the list has n entries *)
Definition listed (o : oracle) (leaf : Z) (n : nat) : Prop :=
  ctype o leaf (Z.of_nat n) = 0 /\ forall i, 0 <= i < Z.of_nat n -> 1 <= ctype o leaf i <= 3.
Fixpoint zrange (i : Z) (m : nat) : list Z := match m with O => [] | S m => i :: zrange (i + 1) m end.
(* the sub-leaves of the caches that hold data *)
Definition data_caches (o : oracle) (leaf : Z) (n : nat) : list Z := filter (is_data o leaf) (zrange 0 n).
(* ways * partitions * line size * sets *)
Definition cache_bytes (o : oracle) (leaf i : Z) : Z :=
  let b := answer o leaf i B in
  (field b 22 31 + 1) * (field b 12 21 + 1) * (field b 0 11 + 1) * (answer o leaf i C + 1).
(* logical processors that share the cache *)
Definition cache_threads (o : oracle) (leaf i : Z) : Z := field (answer o leaf i A) 14 25 + 1.
(* AMD: the product of the first three numbers is a C++ int *)
Definition no_overflow (o : oracle) (i : Z) : Prop :=
  let b := answer o 0x8000001D i B in (field b 22 31 + 1) * (field b 12 21 + 1) * (field b 0 11 + 1) < 2 ^ 31.
(* a fully associative cache has one set *)
Definition assoc_ok (o : oracle) (i : Z) : Prop :=
  field (answer o 0x8000001D i A) 9 9 <> 0 -> answer o 0x8000001D i C = 0.

(* ---- leaves 80000005h and 80000006h (older AMD processors): sizes in bytes; no cache: associativity 0 ---- *)
Definition amd_l1 (o : oracle) : Z := field (answer o 0x80000005 0 C) 24 31 * 1024.
Definition amd_l2 (o : oracle) : option Z :=
  if field (answer o 0x80000006 0 C) 12 15 =? 0 then None else Some (field (answer o 0x80000006 0 C) 16 31 * 1024).
Definition amd_l3 (o : oracle) : option Z :=
  if field (answer o 0x80000006 0 D) 12 15 =? 0 then None else Some (field (answer o 0x80000006 0 D) 18 31 * 512 * 1024).

(* ---- Clock: the time between each begin and the following end ---- *)
Definition time_of (l : list (Z * Z)) : Z := fold_right (fun p s => snd p - fst p + s) 0 l.

(* ---- Profiler: the ranges between consecutive addresses; a line of the perf map has a start, a size and a name of at least
   three characters that begins with the given name and the suffix ---- *)
Fixpoint ranges (start : Z) (l : list (string * Z)) : list (Z * Z) :=
  match l with [] => [] | (_, e) :: l => (start, e) :: ranges e l end.
Definition line_ok (suffix : string) (x : (string * Z) * (Z * Z) * (Z * Z * string)) : Prop :=
  let '((nm, _), (a, b), (start, size, text)) := x in
  start = a /\ size = b - a /\ (3 <= String.length text)%nat /\ exists pad, text = ((nm ++ suffix) ++ pad)%string.
Fixpoint increasing (start : Z) (l : list (string * Z)) : Prop :=
  match l with [] => True | (_, e) :: l => start <= e /\ increasing e l end.
