(* Model: memory helpers of xbyak.h with explicit 64-bit arithmetic.  Operating system calls are given by
   their answers. *)
From Coq Require Import ZArith List Bool.
From Verif Require Import Base Types.
Import ListNotations.
Open Scope Z_scope.

(* ~x for size_t *)
Definition not64 (x : Z) : Z := w64 (Z.lnot x).
(* xbyak.h:1312-1315 getAlignedAddress *)
Definition getAlignedAddress (addr alignedSize : Z) : Z :=
  w64 (w64 (addr + alignedSize) - 1) &&& not64 (w64 (alignedSize - 1)).
(* xbyak.h:1275-1305 protect(), __GNUC__ branch: the arguments of mprotect; None: returns false at once.
   PROTECT_RW, PROTECT_RWE, PROTECT_RE are 0, 1, 2 (xbyak.h:1110-1114); PROT_READ | PROT_WRITE = 3,
   PROT_EXEC = 4 *)
Definition protect (pageSize addr size mode : Z) : option (Z * Z * Z) :=
  let prot := if mode =? 0 then Some 3 else if mode =? 1 then Some 7 else if mode =? 2 then Some 5 else None in
  match prot with
  | None => None
  | Some m =>
      let roundAddr := addr &&& not64 (w64 (pageSize - 1)) in
      Some (roundAddr, w64 (size + w64 (addr - roundAddr)), m)
  end.

(* xbyak.h:469-534 MmapAllocator without XBYAK_USE_MEMFD and XBYAK_USE_MAP_JIT: allocList_ as an association list *)
Definition amap := list (Z * Z).
Fixpoint m_find (m : amap) (p : Z) : option Z :=
  match m with [] => None | (q, s) :: m' => if q =? p then Some s else m_find m' p end.
Fixpoint m_erase (m : amap) (p : Z) : amap :=
  match m with [] => [] | (q, s) :: m' => if q =? p then m' else (q, s) :: m_erase m' p end.
(* operator[] followed by an assignment *)
Definition m_set (m : amap) (p s : Z) : amap := (p, s) :: m_erase m p.
(* calls to the operating system and reported errors, in order *)
Inductive mev :=
| EMap (p len : Z)           (* mmap(NULL, len, ..) returned p *)
| EMapFailed (len : Z)
| EUnmap (p len : Z) (ok : bool)
| EErr (e : xerr).
(* xbyak.h:484-521 *)
Definition mm_alloc (pageSize size : Z) (answer : option Z) (m : amap) : amap * option Z * list mev :=
  let m1 := w64 (pageSize - 1) in
  let len := w64 (size + m1) &&& not64 m1 in
  match answer with
  | None => (m, None, [EMapFailed len; EErr ERR_CANT_ALLOC])
  | Some p => (m_set m p len, Some p, [EMap p len])
  end.
(* xbyak.h:522-533 *)
Definition mm_free (p : Z) (ok : bool) (m : amap) : amap * list mev :=
  if p =? 0 then (m, [])
  else match m_find m p with
       | None => (m, [EErr ERR_BAD_PARAMETER])
       | Some s => if ok then (m_erase m p, [EUnmap p s true]) else (m, [EUnmap p s false; EErr ERR_MUNMAP])
       end.
Inductive mop := OAlloc (size : Z) (answer : option Z) | OFree (p : Z) (ok : bool).
Definition mm_step (pageSize : Z) (m : amap) (o : mop) : amap * list mev :=
  match o with
  | OAlloc size a => let '(m', _, e) := mm_alloc pageSize size a m in (m', e)
  | OFree p ok => mm_free p ok m
  end.
Fixpoint mm_run (pageSize : Z) (m : amap) (ops : list mop) : amap * list mev :=
  match ops with
  | [] => (m, [])
  | o :: ops' => let (m1, e1) := mm_step pageSize m o in let (m2, e2) := mm_run pageSize m1 ops' in (m2, e1 ++ e2)
  end.
