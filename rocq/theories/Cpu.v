(* Model: class Cpu of xbyak_util.h:117-742: the feature word and the queries on it.  cpuid and xgetbv are given
   by an oracle; the topology and cache queries are in CpuTopo.v.  XBYAK_INTEL_CPU_SPECIFIC is defined, __APPLE__ is not. *)
From Coq Require Import ZArith List Bool.
From Verif Require Import Base Types.
Import ListNotations.
Open Scope Z_scope.

(* answers of cpuid (leaf, subleaf) in eax, ebx, ecx, edx, and of xgetbv(0) *)
Record regs4 := mkR4 { EAX : Z; EBX : Z; ECX : Z; EDX : Z }.
Record oracle := mkO { cpuid : Z -> Z -> regs4; xfeature : Z }.

(* xbyak_util.h:119-139 *)
Record Ty := mkTy { t_L : Z; t_H : Z }.
Definition ty_or (a b : Ty) : Ty := mkTy (t_L a ||| t_L b) (t_H a ||| t_H b).
Definition ty_and (a b : Ty) : Ty := mkTy (t_L a &&& t_L b) (t_H a &&& t_H b).
Definition ty_eqb (a b : Ty) : bool := (t_H a =? t_H b) && (t_L a =? t_L b).
Definition ty_bool (a : Ty) : bool := negb ((t_H a ||| t_L a) =? 0).
(* xbyak_util.h:452 XBYAK_SPLIT_ID *)
Definition ty (id : Z) : Ty :=
  mkTy (if (0 <=? id) && (id <? 64) then Z.shiftl 1 (id mod 64) else 0) (if 64 <=? id then Z.shiftl 1 (id mod 64) else 0).
Definition ty0 : Ty := mkTy 0 0.
(* xbyak_util.h:733-736 *)
Definition cpu_has (type_ t : Ty) : bool := ty_eqb (ty_and t type_) t.

(* xbyak_util.h:458-550 *)
Definition tMMX : Z := 0.
Definition tMMX2 : Z := 1.
Definition tCMOV : Z := 2.
Definition tSSE : Z := 3.
Definition tSSE2 : Z := 4.
Definition tSSE3 : Z := 5.
Definition tSSSE3 : Z := 6.
Definition tSSE41 : Z := 7.
Definition tSSE42 : Z := 8.
Definition tPOPCNT : Z := 9.
Definition tAESNI : Z := 10.
Definition tAVX512_FP16 : Z := 11.
Definition tOSXSAVE : Z := 12.
Definition tPCLMULQDQ : Z := 13.
Definition tAVX : Z := 14.
Definition tFMA : Z := 15.
Definition t3DN : Z := 16.
Definition tE3DN : Z := 17.
Definition tWAITPKG : Z := 18.
Definition tRDTSCP : Z := 19.
Definition tAVX2 : Z := 20.
Definition tBMI1 : Z := 21.
Definition tBMI2 : Z := 22.
Definition tLZCNT : Z := 23.
Definition tINTEL : Z := 24.
Definition tAMD : Z := 25.
Definition tENHANCED_REP : Z := 26.
Definition tRDRAND : Z := 27.
Definition tADX : Z := 28.
Definition tRDSEED : Z := 29.
Definition tSMAP : Z := 30.
Definition tHLE : Z := 31.
Definition tRTM : Z := 32.
Definition tF16C : Z := 33.
Definition tMOVBE : Z := 34.
Definition tAVX512F : Z := 35.
Definition tAVX512DQ : Z := 36.
Definition tAVX512_IFMA : Z := 37.
Definition tAVX512IFMA : Z := 37.
Definition tAVX512PF : Z := 38.
Definition tAVX512ER : Z := 39.
Definition tAVX512CD : Z := 40.
Definition tAVX512BW : Z := 41.
Definition tAVX512VL : Z := 42.
Definition tAVX512_VBMI : Z := 43.
Definition tAVX512VBMI : Z := 43.
Definition tAVX512_4VNNIW : Z := 44.
Definition tAVX512_4FMAPS : Z := 45.
Definition tPREFETCHWT1 : Z := 46.
Definition tPREFETCHW : Z := 47.
Definition tSHA : Z := 48.
Definition tMPX : Z := 49.
Definition tAVX512_VBMI2 : Z := 50.
Definition tGFNI : Z := 51.
Definition tVAES : Z := 52.
Definition tVPCLMULQDQ : Z := 53.
Definition tAVX512_VNNI : Z := 54.
Definition tAVX512_BITALG : Z := 55.
Definition tAVX512_VPOPCNTDQ : Z := 56.
Definition tAVX512_BF16 : Z := 57.
Definition tAVX512_VP2INTERSECT : Z := 58.
Definition tAMX_TILE : Z := 59.
Definition tAMX_INT8 : Z := 60.
Definition tAMX_BF16 : Z := 61.
Definition tAVX_VNNI : Z := 62.
Definition tCLFLUSHOPT : Z := 63.
Definition tCLDEMOTE : Z := 64.
Definition tMOVDIRI : Z := 65.
Definition tMOVDIR64B : Z := 66.
Definition tCLZERO : Z := 67.
Definition tAMX_FP16 : Z := 68.
Definition tAVX_VNNI_INT8 : Z := 69.
Definition tAVX_NE_CONVERT : Z := 70.
Definition tAVX_IFMA : Z := 71.
Definition tRAO_INT : Z := 72.
Definition tCMPCCXADD : Z := 73.
Definition tPREFETCHITI : Z := 74.
Definition tSERIALIZE : Z := 75.
Definition tUINTR : Z := 76.
Definition tXSAVE : Z := 77.
Definition tSHA512 : Z := 78.
Definition tSM3 : Z := 79.
Definition tSM4 : Z := 80.
Definition tAVX_VNNI_INT16 : Z := 81.
Definition tAPX_F : Z := 82.
Definition tAVX10 : Z := 83.
Definition tAESKLE : Z := 84.
Definition tWIDE_KL : Z := 85.
Definition tKEYLOCKER : Z := 86.
Definition tKEYLOCKER_WIDE : Z := 87.
Definition tSSE4a : Z := 88.
Definition tCLWB : Z := 89.
Definition tTSXLDTRK : Z := 90.

(* x & (1U << n) as a condition *)
Definition bitof (x n : Z) : bool := negb ((x &&& Z.shiftl 1 n) =? 0).
(* if (c) type_ |= id *)
Definition add (c : bool) (id : Z) (t : Ty) : Ty := if c then ty_or t (ty id) else t.
(* type_ & id as a condition *)
Definition tst (t : Ty) (id : Z) : bool := ty_bool (ty_and t (ty id)).
(* xbyak_util.h:153-168 isEqualStr: the 12 characters of s as three little-endian words *)
Definition vendor (r : regs4) (b d c : Z) : bool := (b =? EBX r) && (d =? EDX r) && (c =? ECX r).

(* xbyak_util.h:593-600 *)
Definition s_ext1 (d : regs4) (t : Ty) : Ty :=
  let t := add (bitof (ECX d) 5) tLZCNT t in
  let t := add (bitof (ECX d) 6) tSSE4a t in
  let t := add (bitof (ECX d) 8) tPREFETCHW t in
  let t := add (bitof (EDX d) 15) tCMOV t in
  let t := add (bitof (EDX d) 22) tMMX2 t in
  let t := add (bitof (EDX d) 27) tRDTSCP t in
  let t := add (bitof (EDX d) 30) tE3DN t in
  let t := add (bitof (EDX d) 31) t3DN t in
  t.
(* xbyak_util.h:609-625 *)
Definition s_leaf1 (d : regs4) (t : Ty) : Ty :=
  let t := add (bitof (ECX d) 0) tSSE3 t in
  let t := add (bitof (ECX d) 1) tPCLMULQDQ t in
  let t := add (bitof (ECX d) 9) tSSSE3 t in
  let t := add (bitof (ECX d) 19) tSSE41 t in
  let t := add (bitof (ECX d) 20) tSSE42 t in
  let t := add (bitof (ECX d) 22) tMOVBE t in
  let t := add (bitof (ECX d) 23) tPOPCNT t in
  let t := add (bitof (ECX d) 25) tAESNI t in
  let t := add (bitof (ECX d) 26) tXSAVE t in
  let t := add (bitof (ECX d) 27) tOSXSAVE t in
  let t := add (bitof (ECX d) 29) tF16C t in
  let t := add (bitof (ECX d) 30) tRDRAND t in
  let t := add (bitof (EDX d) 15) tCMOV t in
  let t := add (bitof (EDX d) 23) tMMX t in
  let t := add (bitof (EDX d) 25) tMMX2 t in let t := add (bitof (EDX d) 25) tSSE t in
  let t := add (bitof (EDX d) 26) tSSE2 t in
  t.
(* xbyak_util.h:641-656 *)
Definition s_avx512 (d : regs4) (t : Ty) : Ty :=
  let t := add (bitof (EBX d) 17) tAVX512DQ t in
  let t := add (bitof (EBX d) 21) tAVX512_IFMA t in
  let t := add (bitof (EBX d) 26) tAVX512PF t in
  let t := add (bitof (EBX d) 27) tAVX512ER t in
  let t := add (bitof (EBX d) 28) tAVX512CD t in
  let t := add (bitof (EBX d) 30) tAVX512BW t in
  let t := add (bitof (EBX d) 31) tAVX512VL t in
  let t := add (bitof (ECX d) 1) tAVX512_VBMI t in
  let t := add (bitof (ECX d) 6) tAVX512_VBMI2 t in
  let t := add (bitof (ECX d) 11) tAVX512_VNNI t in
  let t := add (bitof (ECX d) 12) tAVX512_BITALG t in
  let t := add (bitof (ECX d) 14) tAVX512_VPOPCNTDQ t in
  let t := add (bitof (EDX d) 2) tAVX512_4VNNIW t in
  let t := add (bitof (EDX d) 3) tAVX512_4FMAPS t in
  let t := add (bitof (EDX d) 8) tAVX512_VP2INTERSECT t in
  let t := add (tst t tAVX512BW && bitof (EDX d) 23) tAVX512_FP16 t in
  t.
(* xbyak_util.h:664-691 *)
Definition s_leaf7 (d : regs4) (t : Ty) : Ty :=
  let t := add (tst t tAVX && bitof (EBX d) 5) tAVX2 t in
  let t := add (bitof (EBX d) 3) tBMI1 t in
  let t := add (bitof (EBX d) 4) tHLE t in
  let t := add (bitof (EBX d) 8) tBMI2 t in
  let t := add (bitof (EBX d) 9) tENHANCED_REP t in
  let t := add (bitof (EBX d) 11) tRTM t in
  let t := add (bitof (EBX d) 14) tMPX t in
  let t := add (bitof (EBX d) 18) tRDSEED t in
  let t := add (bitof (EBX d) 19) tADX t in
  let t := add (bitof (EBX d) 20) tSMAP t in
  let t := add (bitof (EBX d) 23) tCLFLUSHOPT t in
  let t := add (bitof (EBX d) 24) tCLWB t in
  let t := add (bitof (EBX d) 29) tSHA t in
  let t := add (bitof (ECX d) 0) tPREFETCHWT1 t in
  let t := add (bitof (ECX d) 5) tWAITPKG t in
  let t := add (bitof (ECX d) 8) tGFNI t in
  let t := add (bitof (ECX d) 9) tVAES t in
  let t := add (bitof (ECX d) 10) tVPCLMULQDQ t in
  let t := add (bitof (ECX d) 23) tKEYLOCKER t in
  let t := add (bitof (ECX d) 25) tCLDEMOTE t in
  let t := add (bitof (ECX d) 27) tMOVDIRI t in
  let t := add (bitof (ECX d) 28) tMOVDIR64B t in
  let t := add (bitof (EDX d) 5) tUINTR t in
  let t := add (bitof (EDX d) 14) tSERIALIZE t in
  let t := add (bitof (EDX d) 16) tTSXLDTRK t in
  let t := add (bitof (EDX d) 22) tAMX_BF16 t in
  let t := add (bitof (EDX d) 24) tAMX_TILE t in
  let t := add (bitof (EDX d) 25) tAMX_INT8 t in
  t.
(* xbyak_util.h:694-698 *)
Definition s_leaf71a (d : regs4) (t : Ty) : Ty :=
  let t := add (bitof (EAX d) 0) tSHA512 t in
  let t := add (bitof (EAX d) 1) tSM3 t in
  let t := add (bitof (EAX d) 2) tSM4 t in
  let t := add (bitof (EAX d) 3) tRAO_INT t in
  let t := add (bitof (EAX d) 4) tAVX_VNNI t in
  t.
(* xbyak_util.h:702-710 *)
Definition s_leaf71b (d : regs4) (t : Ty) : Ty :=
  let t := add (bitof (EAX d) 7) tCMPCCXADD t in
  let t := add (bitof (EAX d) 21) tAMX_FP16 t in
  let t := add (bitof (EAX d) 23) tAVX_IFMA t in
  let t := add (bitof (EDX d) 4) tAVX_VNNI_INT8 t in
  let t := add (bitof (EDX d) 5) tAVX_NE_CONVERT t in
  let t := add (bitof (EDX d) 10) tAVX_VNNI_INT16 t in
  let t := add (bitof (EDX d) 14) tPREFETCHITI t in
  let t := add (bitof (EDX d) 19) tAVX10 t in
  let t := add (bitof (EDX d) 21) tAPX_F t in
  t.

(* "AuthenticAMD", "GenuineIntel" as ebx, edx, ecx *)
Definition isAMD (r : regs4) : bool := vendor r 0x68747541 0x69746E65 0x444D4163.
Definition isIntel (r : regs4) : bool := vendor r 0x756E6547 0x49656E69 0x6C65746E.
(* Cpu::Cpu 564-718: the value of type_ *)
Definition cpu_type (o : oracle) : Ty :=
  let d := cpuid o 0 0 in
  let maxNum := EAX d in
  let t := ty0 in
  let t := if isAMD d then
             let t := ty_or t (ty tAMD) in
             let d := cpuid o 0x80000001 0 in
             let t := if bitof (EDX d) 31 then ty_or (ty_or t (ty t3DN)) (ty tPREFETCHW) else t in
             if bitof (EDX d) 29 then ty_or t (ty tPREFETCHW) else t
           else if isIntel d then ty_or t (ty tINTEL) else t in
  let maxExtendedNum := EAX (cpuid o 0x80000000 0) in
  let t := if 0x80000001 <=? maxExtendedNum then s_ext1 (cpuid o 0x80000001 0) t else t in
  let t := if 0x80000008 <=? maxExtendedNum then add (bitof (EBX (cpuid o 0x80000008 0)) 0) tCLZERO t else t in
  let d := cpuid o 1 0 in
  let t := s_leaf1 d t in
  let t := if tst t tOSXSAVE then
             let bv := xfeature o in
             if (bv &&& 6) =? 6 then
               let t := add (bitof (ECX d) 12) tFMA t in
               let t := add (bitof (ECX d) 28) tAVX t in
               if (Z.shiftr bv 5 &&& 7) =? 7 then
                 let d := cpuid o 7 0 in
                 let t := add (bitof (EBX d) 16) tAVX512F t in
                 if tst t tAVX512F then s_avx512 d t else t
               else t
             else t
           else t in
  let t := if 7 <=? maxNum then
             let d := cpuid o 7 0 in
             let t := s_leaf7 d t in
             if 1 <=? EAX d then
               let d := cpuid o 7 1 in
               let t := s_leaf71a d t in
               let t := if tst t tAVX512F then add (bitof (EAX d) 5) tAVX512_BF16 t else t in
               s_leaf71b d t
             else t
           else t in
  if 0x19 <=? maxNum then
    let d := cpuid o 0x19 0 in
    let t := add (bitof (EBX d) 0) tAESKLE t in
    let t := add (bitof (EBX d) 2) tWIDE_KL t in
    add (ty_bool (ty_and t (ty_or (ty_or (ty tKEYLOCKER) (ty tAESKLE)) (ty tWIDE_KL)))) tKEYLOCKER_WIDE t
  else t.
(* 719-722 *)
Definition avx10version (o : oracle) : Z :=
  if cpu_has (cpu_type o) (ty tAVX10) && (0x24 <=? EAX (cpuid o 0 0)) then EBX (cpuid o 0x24 0) &&& 0x7F else 0.
