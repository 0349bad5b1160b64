(* Property theorems C45: processor family and model, threads and cores, caches; Clock and Profiler.  [cpu_info], [setNumCores] ... are the
   model of class Cpu (CpuTopo.v), the right-hand sides are the fields of cpuid answers as the manuals define them (SpecTopo.v). *)
From Coq Require Import ZArith List Bool String Lia.
From Verif Require Import Base Types Cpu SpecCpu CpuTopo SpecTopo TopoProofs.
Import ListNotations.
Open Scope Z_scope.

Theorem C45_family : forall o, displayFamily (setFamily o) = display_family o /\ displayModel (setFamily o) = display_model o
  /\ stepping (setFamily o) = field (answer o 1 0 A) 0 3.
Proof. exact family_ok. Qed.
Print Assumptions C45_family.

(* with leaf 0Bh: threads per core, and threads of the package divided by it *)
Theorem C45_cores : forall o, intel o = true \/ amd o = true -> x2apic o ->
  exists n, setNumCores o = Val n /\ smt n = Z.max 1 (threads_per_core o) /\ core n = Z.max (smt n) (threads o) /\ 1 <= smt n <= core n.
Proof. exact x2apic_cores. Qed.
Print Assumptions C45_cores.
Theorem C45_num_cores : forall n, 1 <= smt n <= core n ->
  getNumCores n 1 = Val (inl (smt n)) /\ getNumCores n 2 = Val (inl (core n / smt n)) /\ 1 <= core n / smt n
  /\ forall l, l <> 1 -> l <> 2 -> getNumCores n l = Val (inr ERR_X2APIC_IS_NOT_SUPPORTED).
Proof. exact x2apic_queries. Qed.
Print Assumptions C45_num_cores.
(* the constructor divides by zero at most on AMD processors that report more threads per unit than threads *)
Theorem C45_cores_defined_partial : forall o,
  (amd o = true -> 0x8000001E <= max_ext o -> field (answer o 0x8000001E 0 B) 8 15 <= field (answer o 0x80000008 0 C) 0 7) ->
  exists n, setNumCores o = Val n /\ 0 <= smt n /\ 0 <= core n.
Proof. exact cores_defined. Qed.
Print Assumptions C45_cores_defined_partial.

(* the caches that hold data, in the order of the sub-leaves *)
Theorem C45_intel_caches : forall o n m fuel, intel o = true -> amd o = false -> 1 <= smt n -> 1 <= core n ->
  listed o 4 m -> (List.length (data_caches o 4 m) <= 10)%nat -> (m < fuel)%nat -> Z.of_nat m < 2147483647 ->
  exists c, setCacheHierarchy fuel o n = Val c /\ levels c = Z.of_nat (List.length (data_caches o 4 m))
  /\ forall k i, nth_error (data_caches o 4 m) k = Some i ->
       getDataCacheSize c (Z.of_nat k) = Val (inl (cache_bytes o 4 i mod 2 ^ 32))
       /\ getCoresSharingDataCache c (Z.of_nat k) = Val (inl (Z.max 1 (Z.min (cache_threads o 4 i) (core n) / smt n))).
Proof. exact intel_caches. Qed.
Print Assumptions C45_intel_caches.
Theorem C45_amd_caches : forall o n m fuel, amd o = true -> 0x8000001D <= max_ext o -> 1 <= core n < 2 ^ 31 ->
  listed o 0x8000001D m -> is_data o 0x8000001D 0 = true -> (List.length (data_caches o 0x8000001D m) <= 10)%nat ->
  (forall i, 0 <= i < Z.of_nat m -> is_data o 0x8000001D i = true -> no_overflow o i /\ assoc_ok o i) ->
  (m < fuel)%nat -> Z.of_nat m < 2147483647 ->
  exists c, setCacheHierarchy fuel o n = Val c /\ levels c = Z.of_nat (List.length (data_caches o 0x8000001D m))
  /\ forall k i, nth_error (data_caches o 0x8000001D m) k = Some i ->
       getDataCacheSize c (Z.of_nat k) = Val (inl (cache_bytes o 0x8000001D i mod 2 ^ 32))
       /\ getCoresSharingDataCache c (Z.of_nat k)
          = Val (inl (if Nat.eqb k 0 then 1 else Z.min (cache_threads o 0x8000001D i) (core n) / cache_threads o 0x8000001D 0)).
Proof. exact amd_caches. Qed.
Print Assumptions C45_amd_caches.
Theorem C45_old_amd_caches : forall o fuel n, amd o = true -> 0x80000006 <= max_ext o < 0x8000001D ->
  (forall x, amd_l3 o = Some x -> x < 2 ^ 31) ->
  exists c, setCacheHierarchy fuel o n = Val c
  /\ levels c = (match amd_l3 o with Some _ => 3 | None => match amd_l2 o with Some _ => 2 | None => 1 end end)
  /\ csize c 0 = amd_l1 o /\ csize c 1 = (match amd_l2 o with Some x => x | None => 0 end)
  /\ csize c 2 = (match amd_l3 o with Some x => x | None => 0 end).
Proof. exact old_amd_caches. Qed.
Print Assumptions C45_old_amd_caches.
(* whatever the processor answered, the queries stay inside the arrays and report other indices *)
Theorem C45_cache_index : forall fuel o n c i, setCacheHierarchy fuel o n = Val c -> 0 <= i ->
  (i < levels c -> getDataCacheSize c i = Val (inl (csize c i)) /\ getCoresSharingDataCache c i = Val (inl (sharing c i)))
  /\ (levels c <= i -> getDataCacheSize c i = Val (inr ERR_BAD_PARAMETER) /\ getCoresSharingDataCache c i = Val (inr ERR_BAD_PARAMETER)).
Proof. exact cache_queries. Qed.
Print Assumptions C45_cache_index.

(* Clock adds up the time from each begin() to the following end(), modulo 2^64 *)
Theorem C45_clock : forall l c, 0 <= clock_ c < 2 ^ 64 -> 0 <= count_ c -> count_ c + Z.of_nat (List.length l) < 2 ^ 31 ->
  clockRun c (pairs l) = Val (mkClock ((clock_ c + time_of l) mod 2 ^ 64) (count_ c + Z.of_nat (List.length l))).
Proof. exact clock_ok. Qed.
Print Assumptions C45_clock.
(* Profiler (perf): consecutive set(name, end) describe the adjacent ranges *)
Theorem C45_profiler : forall l p, pf_perf p = true -> pf_open p = true -> 0 <= pf_start p -> increasing (pf_start p) l ->
  (forall x, In x l -> snd x < 2 ^ 64) ->
  exists t, pf_lines (prof_run p l) = pf_lines p ++ t /\ List.length t = List.length l
  /\ Forall (line_ok (pf_suffix p)) (combine (combine l (ranges (pf_start p) l)) t).
Proof. exact profiler_ok. Qed.
Print Assumptions C45_profiler.

(* processors for the hypotheses: vendor words, then answers *)
Definition r0 : regs4 := mkR4 0 0 0 0.
Definition intel0 (max : Z) : regs4 := mkR4 max 0x756E6547 0x6C65746E 0x49656E69.
Definition amd0 (max : Z) : regs4 := mkR4 max 0x68747541 0x444D4163 0x69746E65.
(* two threads per core, eight threads; 32 KiB data and instruction caches, 8 MiB unified cache of all threads *)
Definition cpu_i : oracle := mkO (fun l s =>
  if l =? 0 then intel0 0x1F else if l =? 11 then (if s =? 0 then mkR4 1 2 0x100 0 else mkR4 3 8 0x201 0)
  else if l =? 4 then (if s =? 0 then mkR4 (1 + 1 * 16384) 0x01C0003F 63 0 else if s =? 1 then mkR4 (2 + 1 * 16384) 0x01C0003F 63 0
                       else if s =? 2 then mkR4 (3 + 15 * 16384) 0x03C0003F 8191 0 else r0) else r0) 0.
Definition cpu_a : oracle := mkO (fun l s =>
  if l =? 0 then amd0 0x10 else if l =? 11 then (if s =? 0 then mkR4 1 2 0x100 0 else mkR4 3 8 0x201 0)
  else if l =? 0x80000000 then mkR4 0x80000020 0 0 0
  else if l =? 0x8000001D then (if s =? 0 then mkR4 (1 + 1 * 16384) 0x01C0003F 63 0 else if s =? 1 then mkR4 (2 + 1 * 16384) 0x01C0003F 63 0
                       else if s =? 2 then mkR4 (3 + 15 * 16384) 0x03C0003F 8191 0 else r0) else r0) 0.
Example intel_listed : intel cpu_i = true /\ amd cpu_i = false /\ x2apic cpu_i /\ listed cpu_i 4 3 /\ data_caches cpu_i 4 3 = [0; 2]
  /\ map (cache_bytes cpu_i 4) [0; 2] = [32768; 8388608].
Proof.
  repeat split; try reflexivity; try (vm_compute; intuition congruence); try (left; vm_compute; congruence);
  assert (X : i = 0 \/ i = 1 \/ i = 2) by lia; destruct X as [-> | [-> | ->]]; vm_compute; congruence.
Qed.
Example intel_cores : obind (cpu_info 4 cpu_i) (fun c => Val (smt (ci_cores c), core (ci_cores c), levels (ci_caches c), sharing (ci_caches c) 1)) = Val (2, 8, 2, 4).
Proof. vm_compute. reflexivity. Qed.
Example amd_listed : amd cpu_a = true /\ listed cpu_a 0x8000001D 3 /\ is_data cpu_a 0x8000001D 0 = true
  /\ forall i, 0 <= i < 3 -> is_data cpu_a 0x8000001D i = true -> no_overflow cpu_a i /\ assoc_ok cpu_a i.
Proof.
  repeat split; try reflexivity; try (assert (X : i = 0 \/ i = 1 \/ i = 2) by lia; destruct X as [-> | [-> | ->]]; vm_compute; congruence).
Qed.
Example amd_cores : obind (cpu_info 4 cpu_a) (fun c => Val (smt (ci_cores c), core (ci_cores c), levels (ci_caches c), sharing (ci_caches c) 1)) = Val (2, 8, 2, 4).
Proof. vm_compute. reflexivity. Qed.
Example clock_twice : clockRun clock0 (pairs [(100, 130); (200, 205)]) = Val (mkClock 35 2).
Proof. vm_compute. reflexivity. Qed.
Example perf_map : pf_lines (prof_run (profStart (profInit prof0 1 true) 4096) [("f"%string, 4100); ("gcd"%string, 4200)])
  = [(4096, 4, "f__"%string); (4100, 100, "gcd"%string)].
Proof. vm_compute. reflexivity. Qed.

(* getNumCores(CoreLevel) divides by zero on every processor that is neither Intel nor AMD (numCores_ stays 0) *)
Theorem C45_other_vendor_refuted : forall o, intel o = false -> amd o = false ->
  exists n, setNumCores o = Val n /\ getNumCores n 2 = Undef.
Proof.
  intros o HI HA. unfold setNumCores. rewrite hasI_intel, hasA_amd, HI, HA. cbn [andb negb]. eexists. split; reflexivity.
Qed.
Print Assumptions C45_other_vendor_refuted.
(* without leaf 0Bh the legacy count may give 0 threads per core: on Intel (leaf 1 reports 1 thread, leaf 4 two) getNumCores(CoreLevel)
   divides by zero, and so does the constructor when the first cache is a unified one *)
Definition cpu_il (t : Z) : oracle := mkO (fun l s =>
  if l =? 0 then intel0 4 else if l =? 1 then mkR4 0 0x10000 0 0x10000000 else if l =? 4 then mkR4 (t + 0x04000000) 0 0 0 else r0) 0.
Theorem C45_legacy_intel_refuted : exists n, setNumCores (cpu_il 1) = Val n /\ getNumCores n 2 = Undef /\ cpu_info 5 (cpu_il 3) = Undef.
Proof. eexists. split; [vm_compute; reflexivity|]. split; vm_compute; reflexivity. Qed.
Print Assumptions C45_legacy_intel_refuted.
(* on AMD the constructor divides by zero when more threads per unit are reported than threads (xbyak_util.h:240-243) *)
Definition cpu_al : oracle := mkO (fun l s =>
  if l =? 0 then amd0 1 else if l =? 1 then mkR4 0x00810F00 0x20000 0 0x10000000 else if l =? 0x80000000 then mkR4 0x8000001E 0 0 0
  else if l =? 0x80000008 then mkR4 0 0 1 0 else if l =? 0x8000001E then mkR4 0 0x200 0 0 else r0) 0.
Theorem C45_legacy_amd_refuted : setNumCores cpu_al = Undef.
Proof. vm_compute. reflexivity. Qed.
Print Assumptions C45_legacy_amd_refuted.
(* a third-level cache of 2 GiB or more overflows int (xbyak_util.h:341) *)
Definition cpu_l3 : oracle := mkO (fun l s =>
  if l =? 0 then amd0 1 else if l =? 0x80000000 then mkR4 0x80000006 0 0 0 else if l =? 0x80000006 then mkR4 0 0 0 (4096 * 262144 + 0x1000) else r0) 0.
Theorem C45_l3_size_refuted : amd_l3 cpu_l3 = Some (2 ^ 31) /\ cpu_info 5 cpu_l3 = Undef.
Proof. split; vm_compute; reflexivity. Qed.
Print Assumptions C45_l3_size_refuted.
