(* Model: class Cpu of xbyak_util.h: family and model numbers, number of cores, cache hierarchy (xbyak_util.h:160-392), and the
   classes Clock and Profiler (743-781, 1019-1150).

   cpuid is an oracle whose answers are 32-bit numbers.  [Undef]: undefined behaviour (division by zero, signed overflow, write
   outside an array); [Endless]: a loop has used up its fuel.  assert() does nothing (NDEBUG). *)
From Coq Require Import ZArith List Bool String Ascii.
From Verif Require Import Base Types Cpu.
Import ListNotations.
Open Scope Z_scope.

Inductive out (A : Type) := Val (a : A) | Undef | Endless.
Arguments Val {A} _. Arguments Undef {A}. Arguments Endless {A}.
Definition obind {A B} (m : out A) (f : A -> out B) : out B :=
  match m with Val a => f a | Undef => Undef | Endless => Endless end.
Notation "x <-- m ; k" := (obind m (fun x => k)) (at level 61, m at next level, right associativity).

(* division of C++ integers that are not negative; by zero it is undefined *)
Definition odiv (a b : Z) : out Z := if b =? 0 then Undef else Val (a / b).
(* the value of a signed int expression *)
Definition oint (a : Z) : out Z := if (-2147483648 <=? a) && (a <=? 2147483647) then Val a else Undef.

(* xbyak_util.h:164-167 *)
Definition extractBit (val base end_ : Z) : Z :=
  Z.shiftr val base &&& w32 (w32 (Z.shiftl 1 (end_ + 1 - base)) - 1).

Definition hasI (o : oracle) : bool := cpu_has (cpu_type o) (ty tINTEL).
Definition hasA (o : oracle) : bool := cpu_has (cpu_type o) (ty tAMD).

(* xbyak_util.h:168-189 setFamily *)
Record Family := mkFamily { stepping : Z; model_ : Z; family : Z; extModel : Z; extFamily : Z; displayFamily : Z; displayModel : Z }.
Definition setFamily (o : oracle) : Family :=
  let a := EAX (cpuid o 1 0) in
  let stepping := extractBit a 0 3 in
  let model := extractBit a 4 7 in
  let family := extractBit a 8 11 in
  let extModel := extractBit a 16 19 in
  let extFamily := extractBit a 20 27 in
  mkFamily stepping model family extModel extFamily
    (if family =? 0x0F then family + extFamily else family)
    (if (hasI o && (family =? 6)) || (family =? 0x0F) then Z.shiftl extModel 4 + model else model).

(* numCores_[0], numCores_[1] *)
Record Cores := mkCores { smt : Z; core : Z }.
(* xbyak_util.h:205-211: one round of the loop over the levels of leaf 0Bh *)
Definition levelB (o : oracle) (i : Z) (n : Cores) : Cores :=
  let d := cpuid o 0xB i in
  let level := extractBit (ECX d) 8 15 in
  if level =? 1 then mkCores (extractBit (EBX d) 0 15) (core n)
  else if level =? 2 then mkCores (smt n) (extractBit (EBX d) 0 15) else n.
(* xbyak_util.h:221-247 *)
Definition coresAMD (o : oracle) : out Cores :=
  let d := cpuid o 1 0 in
  let logical := extractBit (EBX d) 16 23 in
  let htt := extractBit (EDX d) 28 28 in
  let highest := EAX (cpuid o 0x80000000 0) in
  let physical := if 0x80000008 <=? highest then extractBit (ECX (cpuid o 0x80000008 0)) 0 7 + 1 else 0 in
  if htt =? 0 then Val (mkCores 1 1)
  else if 1 <? physical then
    physical <-- (if (0x17 <=? displayFamily (setFamily o)) && (0x8000001E <=? highest)
                  then odiv physical (extractBit (EBX (cpuid o 0x8000001E 0)) 8 15 + 1) else Val physical) ;
    s <-- odiv logical physical ;
    Val (mkCores s logical)
  else Val (mkCores 1 (if 1 <? logical then logical else 2)).
(* xbyak_util.h:248-270 *)
Definition coresIntel (o : oracle) : out Cores :=
  let d := cpuid o 1 0 in
  let logical := extractBit (EBX d) 16 23 in
  let htt := extractBit (EDX d) 28 28 in
  let physical := if 4 <=? EAX (cpuid o 0 0) then extractBit (EAX (cpuid o 4 0)) 26 31 + 1 else 0 in
  if htt =? 0 then Val (mkCores 1 1)
  else if 1 <? physical then s <-- odiv logical physical ; Val (mkCores s logical)
  else Val (mkCores 1 (if 0 <? logical then logical else 1)).
(* xbyak_util.h:190-271 setNumCores *)
Definition setNumCores (o : oracle) : out Cores :=
  if negb (hasI o) && negb (hasA o) then Val (mkCores 0 0)
  else
    let b := cpuid o 0xB 0 in
    if (0xB <=? EAX (cpuid o 0 0)) && (negb (EAX b =? 0) || negb (EBX b =? 0)) then
      let n := levelB o 1 (levelB o 0 (mkCores 0 0)) in
      let s := Z.max 1 (smt n) in
      Val (mkCores s (Z.max s (core n)))
    else if hasA o then coresAMD o else coresIntel o.

(* dataCacheLevels_, dataCacheSize_, coresSharingDataCache_ *)
Record Caches := mkCaches { levels : Z; csize : Z -> Z; sharing : Z -> Z }.
Definition noCaches : Caches := mkCaches 0 (fun _ => 0) (fun _ => 0).
Definition maxNumberCacheLevels : Z := 10.
Definition setAt (f : Z -> Z) (i v : Z) : Z -> Z := fun j => if j =? i then v else f j.
(* dataCacheSize_[dataCacheLevels_] = size; coresSharingDataCache_[dataCacheLevels_] = share; dataCacheLevels_++ *)
Definition pushCache (c : Caches) (size share : Z) : out Caches :=
  if (0 <=? levels c) && (levels c <? maxNumberCacheLevels)
  then Val (mkCaches (w32 (levels c + 1)) (setAt (csize c) (levels c) size) (setAt (sharing c) (levels c) share)) else Undef.

(* xbyak_util.h:280-314: the loop over leaf 8000001Dh; subLeaf is a uint32_t *)
Fixpoint cachesAMD (fuel : nat) (o : oracle) (n : Cores) (subLeaf : Z) (c : Caches) : out Caches :=
  if levels c <? maxNumberCacheLevels then
    match fuel with
    | O => Endless
    | S fuel =>
        let d := cpuid o 0x8000001D subLeaf in
        let cacheType := extractBit (EAX d) 0 4 in
        if cacheType =? 0 then Val c
        else if cacheType =? 2 then cachesAMD fuel o n (w32 (subLeaf + 1)) c
        else
          let fullyAssociative := extractBit (EAX d) 9 9 in
          let numSharingCache := extractBit (EAX d) 14 25 + 1 in
          let cacheNumWays := extractBit (EBX d) 22 31 + 1 in
          let cachePhysPartitions := extractBit (EBX d) 12 21 + 1 in
          let cacheLineSize := extractBit (EBX d) 0 11 + 1 in
          let cacheNumSets := s32 (ECX d + 1) in
          p <-- oint (cacheLineSize * cachePhysPartitions) ;
          p <-- oint (p * cacheNumWays) ;
          let size := if fullyAssociative =? 0 then w32 (p * w32 cacheNumSets) else p in
          share <-- (if 0 <? subLeaf then
                       let m := if numSharingCache <? s32 (core n) then numSharingCache else s32 (core n) in
                       q <-- odiv (w32 m) (Z.max 1 (sharing c 0)) ; Val (s32 q)
                     else Val numSharingCache) ;
          c <-- pushCache c size (w32 share) ;
          cachesAMD fuel o n (w32 (subLeaf + 1)) c
    end
  else Val c.
(* xbyak_util.h:316-345: leaves 80000005h and 80000006h *)
Definition cachesOldAMD (o : oracle) (n : Cores) : out Caches :=
  let l1 := extractBit (ECX (cpuid o 0x80000005 0)) 24 31 in
  l1 <-- oint (l1 * 1024) ;
  let c := mkCaches 1 (setAt (fun _ => 0) 0 l1) (setAt (fun _ => 0) 0 1) in
  let d := cpuid o 0x80000006 0 in
  c <-- (if 0 <? extractBit (ECX d) 12 15 then
           l2 <-- oint (extractBit (ECX d) 16 31 * 1024) ;
           Val (mkCaches 2 (setAt (csize c) 1 l2) (setAt (sharing c) 1 1))
         else Val c) ;
  if 0 <? extractBit (EDX d) 12 15 then
    l3 <-- oint (extractBit (EDX d) 18 31 * 512) ;
    l3 <-- oint (l3 * 1024) ;
    Val (mkCaches 3 (setAt (csize c) 2 l3) (setAt (sharing c) 2 (core n)))
  else Val c.
(* xbyak_util.h:346-391: the loop over leaf 4; i is an int and passes INT_MAX only after 2^31 rounds *)
Fixpoint cachesIntel (fuel : nat) (o : oracle) (logical_cores i smt_width : Z) (c : Caches) : out Caches :=
  if levels c <? maxNumberCacheLevels then
    match fuel with
    | O => Endless
    | S fuel =>
        let d := cpuid o 4 i in
        let cacheType := extractBit (EAX d) 0 4 in
        if cacheType =? 0 then Val c
        else
          i1 <-- oint (i + 1) ;
          if (cacheType =? 1) || (cacheType =? 3) then
            let actual := w32 (extractBit (EAX d) 14 25 + 1) in
            let actual := if negb (logical_cores =? 0) then (if actual <? logical_cores then actual else logical_cores) else actual in
            let size := w32 (w32 (w32 (w32 (extractBit (EBX d) 22 31 + 1) * w32 (extractBit (EBX d) 12 21 + 1))
                                  * w32 (extractBit (EBX d) 0 11 + 1)) * w32 (ECX d + 1)) in
            let smt_width := if (cacheType =? 1) && (smt_width =? 0) then actual else smt_width in
            q <-- odiv actual smt_width ;
            c <-- pushCache c size (Z.max q 1) ;
            cachesIntel fuel o logical_cores i1 smt_width c
          else cachesIntel fuel o logical_cores i1 smt_width c
    end
  else Val c.
(* xbyak_util.h:272-392 setCacheHierarchy *)
Definition setCacheHierarchy (fuel : nat) (o : oracle) (n : Cores) : out Caches :=
  if hasA o then
    let highest := EAX (cpuid o 0x80000000 0) in
    if 0x8000001D <=? highest then
      c <-- cachesAMD fuel o n 0 noCaches ;
      Val (mkCaches (levels c) (csize c) (setAt (sharing c) 0 (if 1 <? sharing c 0 then 1 else sharing c 0)))
    else if 0x80000006 <=? highest then cachesOldAMD o n else Val noCaches
  else if hasI o then cachesIntel fuel o (core n) 0 (smt n) noCaches
  else Val noCaches.

(* the end of the constructor, xbyak_util.h:723-725 *)
Record CpuInfo := mkInfo { ci_family : Family; ci_cores : Cores; ci_caches : Caches }.
Definition cpu_info (fuel : nat) (o : oracle) : out CpuInfo :=
  n <-- setNumCores o ; c <-- setCacheHierarchy fuel o n ; Val (mkInfo (setFamily o) n c).

(* xbyak_util.h:403-421; Some e: reports e *)
Definition getNumCores (n : Cores) (level : Z) : out (Z + xerr) :=
  if level =? 1 then Val (inl (smt n))
  else if level =? 2 then q <-- odiv (core n) (smt n) ; Val (inl q)
  else Val (inr ERR_X2APIC_IS_NOT_SUPPORTED).
Definition rdArray (f : Z -> Z) (i : Z) : out Z := if (0 <=? i) && (i <? maxNumberCacheLevels) then Val (f i) else Undef.
Definition getCoresSharingDataCache (c : Caches) (i : Z) : out (Z + xerr) :=
  if levels c <=? i then Val (inr ERR_BAD_PARAMETER) else v <-- rdArray (sharing c) i ; Val (inl v).
Definition getDataCacheSize (c : Caches) (i : Z) : out (Z + xerr) :=
  if levels c <=? i then Val (inr ERR_BAD_PARAMETER) else v <-- rdArray (csize c) i ; Val (inl v).

(* ---- Clock, xbyak_util.h:743-781: the time stamp counter is given with each call ---- *)
Record Clock := mkClock { clock_ : Z; count_ : Z }.
Definition clock0 : Clock := mkClock 0 0.
Inductive clockOp := Begin (tsc : Z) | End_ (tsc : Z) | Clear.
Definition clockStep (c : Clock) (o : clockOp) : out Clock :=
  match o with
  | Begin t => Val (mkClock (w64 (clock_ c - t)) (count_ c))
  | End_ t => n <-- oint (count_ c + 1) ; Val (mkClock (w64 (clock_ c + t)) n)
  | Clear => Val clock0
  end.
Fixpoint clockRun (c : Clock) (l : list clockOp) : out Clock :=
  match l with [] => Val c | o :: l => c <-- clockStep c o ; clockRun c l end.

(* ---- Profiler, xbyak_util.h:1019-1150, with XBYAK_USE_PERF (Linux) and without VTune: the lines of the perf map.
   A line: start, size, name.  [open_]: fopen succeeds. ---- *)
Record Profiler := mkProf { pf_perf : bool; pf_open : bool; pf_suffix : string; pf_start : Z; pf_lines : list (Z * Z * string) }.
Definition prof0 : Profiler := mkProf false false "" 0 [].
Definition profInit (p : Profiler) (mode : Z) (open_ : bool) : Profiler :=
  if mode =? 1 then mkProf open_ open_ (pf_suffix p) (pf_start p) (pf_lines p)
  else mkProf false (pf_open p) (pf_suffix p) (pf_start p) (pf_lines p).
Definition profSuffix (p : Profiler) (s : string) : Profiler := mkProf (pf_perf p) (pf_open p) s (pf_start p) (pf_lines p).
Definition profStart (p : Profiler) (a : Z) : Profiler := mkProf (pf_perf p) (pf_open p) (pf_suffix p) a (pf_lines p).
(* close() leaves mode_ *)
Definition profClose (p : Profiler) : Profiler := mkProf (pf_perf p) false (pf_suffix p) (pf_start p) (pf_lines p).
Fixpoint underscores (n : nat) : string := match n with O => EmptyString | S n => String "_"%char (underscores n) end.
Definition profSet (p : Profiler) (name : string) (start size : Z) : Profiler :=
  if pf_perf p then
    if pf_open p then
      let n := (name ++ pf_suffix p)%string in
      mkProf true true (pf_suffix p) (pf_start p) (pf_lines p ++ [(start, size, (n ++ underscores (3 - String.length n))%string)])
    else p
  else p.
Definition profSetEnd (p : Profiler) (name : string) (end_ : Z) : Profiler :=
  profStart (profSet p name (pf_start p) (w64 (end_ - pf_start p))) end_.
