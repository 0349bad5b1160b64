(* Property theorems C29 (CPU feature queries). *)
From Coq Require Import ZArith List Bool Lia.
From Verif Require Import Base Types Cpu SpecCpu CpuProofs.
Import ListNotations.
Open Scope Z_scope.

(* has of a union of features is the conjunction, for every feature word; | and & act on features as on sets *)
Theorem C29_has_all : forall t l, ids_ok l -> cpu_has t (union l) = forallb (fun i => cpu_has t (ty i)) l.
Proof. exact has_union. Qed.
Print Assumptions C29_has_all.
Theorem C29_has_or : forall t a b, cpu_has t (ty_or a b) = cpu_has t a && cpu_has t b.
Proof. exact has_or. Qed.
Print Assumptions C29_has_or.
Theorem C29_sets : forall a b i, 0 <= i < 128 ->
  cpu_has (ty_or a b) (ty i) = cpu_has a (ty i) || cpu_has b (ty i) /\ cpu_has (ty_and a b) (ty i) = cpu_has a (ty i) && cpu_has b (ty i).
Proof. exact sets_ok. Qed.
Print Assumptions C29_sets.

(* for all answers of cpuid and xgetbv: each feature is reported exactly if the manuals say so *)
Theorem C29_features : forall o, Forall (row_ok o) (plain_rows ++ ymm_rows).
Proof. exact feature_rows. Qed.
Print Assumptions C29_features.
Theorem C29_avx512_features : forall o, 7 <= max_basic o -> Forall (row_ok o) zmm_rows.
Proof. exact zmm_ok. Qed.
Print Assumptions C29_avx512_features.
Theorem C29_extended_features : forall o, 0x80000001 <= max_ext o -> Forall (row_ok o) ext_rows.
Proof. exact ext_ok. Qed.
Print Assumptions C29_extended_features.
(* AVX, FMA, AVX2 and AVX-512 are never reported without the register state enabled by the operating system *)
Theorem C29_os_state : forall o, Forall (fun r => reported o (fst r) = true -> os_ymm o = true) ymm_rows
  /\ Forall (fun r => reported o (fst r) = true -> os_zmm o = true) zmm_rows.
Proof. exact os_state. Qed.
Print Assumptions C29_os_state.
(* the remaining features with register state follow the processor's flag alone *)
Theorem C29_flags_partial : forall o, Forall (fun r => row_ok o (fst r)) vex_rows.
Proof. exact vex_flag_ok. Qed.
Print Assumptions C29_flags_partial.
Theorem C29_avx10_version_partial : forall o, avx10_version o < 128 -> avx10version o = avx10_version o.
Proof. exact version_ok. Qed.
Print Assumptions C29_avx10_version_partial.

Definition all1 : regs4 := mkR4 0xFFFFFFFF 0xFFFFFFFF 0xFFFFFFFF 0xFFFFFFFF.
(* a processor with every flag, OSXSAVE set, and an operating system that enabled all state / x87 and SSE only *)
Definition cpu_full : oracle := mkO (fun _ _ => all1) 0xE00E7.
Definition cpu_sse : oracle := mkO (fun _ _ => all1) 3.
Example C29_instance : forallb (fun r => reported cpu_full (fst r) && snd r cpu_full) (ymm_rows ++ zmm_rows) = true
  /\ existsb (fun r => reported cpu_sse (fst r)) (ymm_rows ++ zmm_rows) = false
  /\ 7 <= max_basic cpu_sse /\ 0x80000001 <= max_ext cpu_sse.
Proof. repeat split; vm_compute; try reflexivity; discriminate. Qed.
(* F16C, VAES, VPCLMULQDQ, SHA512, SM3, SM4, AVX_VNNI, AVX_IFMA, AVX_VNNI_INT8/16, AVX_NE_CONVERT, AVX10, AMX and APX_F are
   reported although the operating system has not enabled the state they need *)
Theorem C29_os_state_refuted : exists o, Forall (fun r => reported o (fst (fst r)) = true /\ snd r o = false) vex_rows.
Proof. exists cpu_sse. repeat (apply Forall_cons; [split; vm_compute; reflexivity|]). apply Forall_nil. Qed.
Print Assumptions C29_os_state_refuted.
(* AVX-512 is looked up in leaf 7 even if the processor has no leaf 7; an Intel processor answers with its last leaf *)
Definition cpu_old : oracle := mkO (fun l s => if l =? 0 then mkR4 1 0 0 0 else if l =? 0x80000000 then mkR4 0x80000000 0 0 0 else all1) 0xE7.
Theorem C29_leaf7_refuted : exists o, reported o tAVX512F = true /\ avx512f o = false /\ max_basic o < 7.
Proof. exists cpu_old. vm_compute. repeat split. Qed.
Print Assumptions C29_leaf7_refuted.
(* on AMD leaf 80000001h is used without the check that it exists *)
Definition cpu_amd : oracle := mkO (fun l s => if l =? 0 then mkR4 1 0x68747541 0x444D4163 0x69746E65 else if l =? 0x80000000 then mkR4 0 0 0 0 else all1) 0.
Theorem C29_extended_leaf_refuted : exists o, reported o t3DN = true /\ max_ext o < 0x80000001 /\ amd o = true.
Proof. exists cpu_amd. vm_compute. repeat split. Qed.
Print Assumptions C29_extended_leaf_refuted.
(* KEYLOCKER_WIDE is reported if any of KL, AESKLE and WIDE_KL is, and AVX10 versions are cut to 7 of their 8 bits *)
Definition cpu_kl : oracle := mkO (fun l s => if l =? 0x19 then mkR4 0 1 0 0 else if l =? 0 then mkR4 0x20 0 0 0 else mkR4 0 0 0 0) 0.
Theorem C29_keylocker_wide_refuted : exists o, reported o tKEYLOCKER_WIDE = true /\ wide_kl o = false.
Proof. exists cpu_kl. vm_compute. split; reflexivity. Qed.
Print Assumptions C29_keylocker_wide_refuted.
Theorem C29_avx10_version_refuted : exists o, avx10_version o = 128 /\ avx10version o = 0.
Proof. exists (mkO (fun l s => if l =? 0x24 then mkR4 0 128 0 0 else all1) 0). vm_compute. split; reflexivity. Qed.
Print Assumptions C29_avx10_version_refuted.
