(* Specification of C29: which answers of cpuid and xgetbv make each feature available, written from the processor
   manuals (Intel SDM vol. 1 ch. 13-15 and vol. 2 CPUID, AMD APM vol. 3 app. E). *)
From Coq Require Import ZArith List Bool String Ascii.
From Verif Require Import Base Types Cpu.
Import ListNotations.
Open Scope Z_scope.

Inductive reg := A | B | C | D.
Definition answer (o : oracle) (leaf sub : Z) (r : reg) : Z :=
  let d := cpuid o leaf sub in match r with A => EAX d | B => EBX d | C => ECX d | D => EDX d end.
(* largest basic and extended leaf *)
Definition max_basic (o : oracle) : Z := answer o 0 0 A.
Definition max_ext (o : oracle) : Z := answer o 0x80000000 0 A.
(* the leaf can be asked; leaf 1 always can *)
Definition leaf_ok (o : oracle) (leaf sub : Z) : bool :=
  if 0x80000000 <=? leaf then leaf <=? max_ext o
  else ((leaf <=? 1) || (leaf <=? max_basic o)) && ((sub =? 0) || (sub <=? answer o leaf 0 A)).
Definition flag (o : oracle) (leaf sub : Z) (r : reg) (n : Z) : bool := leaf_ok o leaf sub && Z.testbit (answer o leaf sub r) n.

(* register state enabled by the operating system: XCR0 can be read if OSXSAVE is set *)
Definition xcr0 (o : oracle) (n : Z) : bool := flag o 1 0 C 27 && Z.testbit (xfeature o) n.
Definition os_ymm o := xcr0 o 1 && xcr0 o 2.
Definition os_zmm o := os_ymm o && xcr0 o 5 && xcr0 o 6 && xcr0 o 7.
Definition os_tile o := xcr0 o 17 && xcr0 o 18.
Definition os_egpr o := xcr0 o 19.

Fixpoint le_string (s : string) : list Z :=
  match s with EmptyString => [] | String c r => Z.of_N (N_of_ascii c) :: le_string r end.
Fixpoint le_word (l : list Z) : Z := match l with [] => 0 | b :: r => b + 256 * le_word r end.
(* the vendor string is read from ebx, edx, ecx of leaf 0 *)
Definition vendor_is (o : oracle) (s : string) : bool :=
  let l := le_string s in
  (answer o 0 0 B =? le_word (firstn 4 l)) && (answer o 0 0 D =? le_word (firstn 4 (skipn 4 l))) && (answer o 0 0 C =? le_word (firstn 4 (skipn 8 l))).
Definition amd o := vendor_is o "AuthenticAMD".
Definition intel o := vendor_is o "GenuineIntel" .

Definition avx o := os_ymm o && flag o 1 0 C 28.
Definition f7 o r n := flag o 7 0 r n.
Definition f71 o r n := flag o 7 1 r n.
Definition fx1 o r n := flag o 0x80000001 0 r n.
Definition avx512f o := os_zmm o && f7 o B 16.
Definition avx512 (r : reg) (n : Z) (o : oracle) := avx512f o && f7 o r n.

(* features without register state of their own *)
Definition plain_rows : list (Z * (oracle -> bool)) := [
  (tINTEL, fun o => intel o && negb (amd o)); (tAMD, amd);
  (tMMX, fun o => flag o 1 0 D 23); (tSSE, fun o => flag o 1 0 D 25); (tSSE2, fun o => flag o 1 0 D 26);
  (tMMX2, fun o => flag o 1 0 D 25 || fx1 o D 22); (tCMOV, fun o => flag o 1 0 D 15 || fx1 o D 15);
  (tSSE3, fun o => flag o 1 0 C 0); (tPCLMULQDQ, fun o => flag o 1 0 C 1); (tSSSE3, fun o => flag o 1 0 C 9);
  (tSSE41, fun o => flag o 1 0 C 19); (tSSE42, fun o => flag o 1 0 C 20); (tMOVBE, fun o => flag o 1 0 C 22);
  (tPOPCNT, fun o => flag o 1 0 C 23); (tAESNI, fun o => flag o 1 0 C 25); (tXSAVE, fun o => flag o 1 0 C 26);
  (tOSXSAVE, fun o => flag o 1 0 C 27); (tRDRAND, fun o => flag o 1 0 C 30);
  (tLZCNT, fun o => fx1 o C 5); (tSSE4a, fun o => fx1 o C 6); (tRDTSCP, fun o => fx1 o D 27); (tE3DN, fun o => fx1 o D 30);
  (tCLZERO, fun o => flag o 0x80000008 0 B 0);
  (tBMI1, fun o => f7 o B 3); (tHLE, fun o => f7 o B 4); (tBMI2, fun o => f7 o B 8); (tENHANCED_REP, fun o => f7 o B 9);
  (tRTM, fun o => f7 o B 11); (tMPX, fun o => f7 o B 14); (tRDSEED, fun o => f7 o B 18); (tADX, fun o => f7 o B 19);
  (tSMAP, fun o => f7 o B 20); (tCLFLUSHOPT, fun o => f7 o B 23); (tCLWB, fun o => f7 o B 24); (tSHA, fun o => f7 o B 29);
  (tPREFETCHWT1, fun o => f7 o C 0); (tWAITPKG, fun o => f7 o C 5); (tGFNI, fun o => f7 o C 8); (tKEYLOCKER, fun o => f7 o C 23);
  (tCLDEMOTE, fun o => f7 o C 25); (tMOVDIRI, fun o => f7 o C 27); (tMOVDIR64B, fun o => f7 o C 28);
  (tUINTR, fun o => f7 o D 5); (tSERIALIZE, fun o => f7 o D 14); (tTSXLDTRK, fun o => f7 o D 16);
  (tRAO_INT, fun o => f71 o A 3); (tCMPCCXADD, fun o => f71 o A 7); (tPREFETCHITI, fun o => f71 o D 14);
  (tAESKLE, fun o => flag o 0x19 0 B 0); (tWIDE_KL, fun o => flag o 0x19 0 B 2)].
(* the same, on processors whose extended leaf 80000001h exists: on AMD 3DNow! and long mode imply prefetchw *)
Definition ext_rows : list (Z * (oracle -> bool)) := [
  (t3DN, fun o => fx1 o D 31); (tPREFETCHW, fun o => fx1 o C 8 || amd o && (fx1 o D 31 || fx1 o D 29))].
(* features that need register state which the library checks *)
Definition ymm_rows : list (Z * (oracle -> bool)) := [
  (tAVX, avx); (tFMA, fun o => os_ymm o && flag o 1 0 C 12); (tAVX2, fun o => avx o && f7 o B 5)].
(* on processors with leaf 7 *)
Definition zmm_rows : list (Z * (oracle -> bool)) := [
  (tAVX512F, avx512f); (tAVX512DQ, avx512 B 17); (tAVX512_IFMA, avx512 B 21); (tAVX512PF, avx512 B 26); (tAVX512ER, avx512 B 27);
  (tAVX512CD, avx512 B 28); (tAVX512BW, avx512 B 30); (tAVX512VL, avx512 B 31); (tAVX512_VBMI, avx512 C 1); (tAVX512_VBMI2, avx512 C 6);
  (tAVX512_VNNI, avx512 C 11); (tAVX512_BITALG, avx512 C 12); (tAVX512_VPOPCNTDQ, avx512 C 14); (tAVX512_4VNNIW, avx512 D 2);
  (tAVX512_4FMAPS, avx512 D 3); (tAVX512_VP2INTERSECT, avx512 D 8); (tAVX512_FP16, fun o => avx512 B 30 o && avx512 D 23 o);
  (tAVX512_BF16, fun o => avx512f o && f71 o A 5)].
(* features that need register state which the library does not check: flag, state *)
Definition vex_rows : list (Z * (oracle -> bool) * (oracle -> bool)) := [
  (tF16C, (fun o => flag o 1 0 C 29), os_ymm);
  (tVAES, (fun o => f7 o C 9), os_ymm); (tVPCLMULQDQ, (fun o => f7 o C 10), os_ymm);
  (tSHA512, (fun o => f71 o A 0), os_ymm); (tSM3, (fun o => f71 o A 1), os_ymm); (tSM4, (fun o => f71 o A 2), os_ymm);
  (tAVX_VNNI, (fun o => f71 o A 4), os_ymm); (tAVX_IFMA, (fun o => f71 o A 23), os_ymm); (tAVX_VNNI_INT8, (fun o => f71 o D 4), os_ymm);
  (tAVX_NE_CONVERT, (fun o => f71 o D 5), os_ymm); (tAVX_VNNI_INT16, (fun o => f71 o D 10), os_ymm);
  (tAVX10, (fun o => f71 o D 19), os_zmm);
  (tAMX_TILE, (fun o => f7 o D 24), os_tile); (tAMX_INT8, (fun o => f7 o D 25), os_tile); (tAMX_BF16, (fun o => f7 o D 22), os_tile);
  (tAMX_FP16, (fun o => f71 o A 21), os_tile);
  (tAPX_F, (fun o => f71 o D 21), os_egpr)].
(* the wide key locker instructions need key locker, AESKLE and WIDE_KL *)
Definition wide_kl (o : oracle) : bool := f7 o C 23 && flag o 0x19 0 B 0 && flag o 0x19 0 B 2.
Definition avx10_version (o : oracle) : Z := if f71 o D 19 && leaf_ok o 0x24 0 then answer o 0x24 0 B mod 256 else 0.
