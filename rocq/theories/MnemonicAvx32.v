(* The instruction methods of CodeGenerator, xbyak/xbyak_mnemonic.h, one Definition per method.
   Produced by tools/mnemonic.py from the header; the AVX-512 section (xbyak_mnemonic.h:1969-2664).
   Built with XBYAK32 (tools/mnemonic.py --32): only the methods that depend on the build; the others
   are those of Mnemonic.v, MnemonicAvx.v and MnemonicOmit.v.
   Integer arguments are wrapped to their C++ parameter type on entry.  Overloads carry a suffix
   of parameter classes (r Reg, b/w/d/q/e Reg8..Reg64/Reg32e, m Mmx, x y z t, k Opmask, n bound,
   f Fpu, o Operand, a Address, i integer, j LabelType, p PreferredEncoding, s label, v pointer);
   the const char * and Label overloads of jumps have the same body as the std::string one. *)
From Coq Require Import ZArith List Bool String.
From Verif Require Import Base Types Emit Encode Mnemonic MnemonicAvx Encode32 Mnemonic32.
Import ListNotations.
Open Scope Z_scope.

(* xbyak_mnemonic.h:2423 *)
Definition i_vmpsadbw_xxoip (p_x1 : Reg) (p_x2 : Reg) (p_op : Operand) (p_imm : Z) (p_encoding : PreferredEncoding) : E unit :=
  let p_imm := w8 p_imm in opEncoding p_x1 p_x2 p_op (T_0F3A ||| T_YMM) 0x42 p_encoding p_imm ((T_66 ||| T_W0) ||| T_YMM) (((T_F3 ||| T_0F3A) ||| T_EW0) ||| T_B32) 1.
(* xbyak_mnemonic.h:1970 *)
Definition i_kaddb (p_r1 : Reg) (p_r2 : Reg) (p_r3 : Reg) : E unit :=
  opVex p_r1 (Some p_r2) (OReg p_r3) (((T_L1 ||| T_0F) ||| T_66) ||| T_W0) 0x4A NONE.
(* xbyak_mnemonic.h:1971 *)
Definition i_kaddd (p_r1 : Reg) (p_r2 : Reg) (p_r3 : Reg) : E unit :=
  opVex p_r1 (Some p_r2) (OReg p_r3) (((T_L1 ||| T_0F) ||| T_66) ||| T_W1) 0x4A NONE.
(* xbyak_mnemonic.h:1972 *)
Definition i_kaddq (p_r1 : Reg) (p_r2 : Reg) (p_r3 : Reg) : E unit :=
  opVex p_r1 (Some p_r2) (OReg p_r3) ((T_L1 ||| T_0F) ||| T_W1) 0x4A NONE.
(* xbyak_mnemonic.h:1973 *)
Definition i_kaddw (p_r1 : Reg) (p_r2 : Reg) (p_r3 : Reg) : E unit :=
  opVex p_r1 (Some p_r2) (OReg p_r3) ((T_L1 ||| T_0F) ||| T_W0) 0x4A NONE.
(* xbyak_mnemonic.h:1974 *)
Definition i_kandb (p_r1 : Reg) (p_r2 : Reg) (p_r3 : Reg) : E unit :=
  opVex p_r1 (Some p_r2) (OReg p_r3) (((T_L1 ||| T_0F) ||| T_66) ||| T_W0) 0x41 NONE.
(* xbyak_mnemonic.h:1975 *)
Definition i_kandd (p_r1 : Reg) (p_r2 : Reg) (p_r3 : Reg) : E unit :=
  opVex p_r1 (Some p_r2) (OReg p_r3) (((T_L1 ||| T_0F) ||| T_66) ||| T_W1) 0x41 NONE.
(* xbyak_mnemonic.h:1976 *)
Definition i_kandnb (p_r1 : Reg) (p_r2 : Reg) (p_r3 : Reg) : E unit :=
  opVex p_r1 (Some p_r2) (OReg p_r3) (((T_L1 ||| T_0F) ||| T_66) ||| T_W0) 0x42 NONE.
(* xbyak_mnemonic.h:1977 *)
Definition i_kandnd (p_r1 : Reg) (p_r2 : Reg) (p_r3 : Reg) : E unit :=
  opVex p_r1 (Some p_r2) (OReg p_r3) (((T_L1 ||| T_0F) ||| T_66) ||| T_W1) 0x42 NONE.
(* xbyak_mnemonic.h:1978 *)
Definition i_kandnq (p_r1 : Reg) (p_r2 : Reg) (p_r3 : Reg) : E unit :=
  opVex p_r1 (Some p_r2) (OReg p_r3) ((T_L1 ||| T_0F) ||| T_W1) 0x42 NONE.
(* xbyak_mnemonic.h:1979 *)
Definition i_kandnw (p_r1 : Reg) (p_r2 : Reg) (p_r3 : Reg) : E unit :=
  opVex p_r1 (Some p_r2) (OReg p_r3) ((T_L1 ||| T_0F) ||| T_W0) 0x42 NONE.
(* xbyak_mnemonic.h:1980 *)
Definition i_kandq (p_r1 : Reg) (p_r2 : Reg) (p_r3 : Reg) : E unit :=
  opVex p_r1 (Some p_r2) (OReg p_r3) ((T_L1 ||| T_0F) ||| T_W1) 0x41 NONE.
(* xbyak_mnemonic.h:1981 *)
Definition i_kandw (p_r1 : Reg) (p_r2 : Reg) (p_r3 : Reg) : E unit :=
  opVex p_r1 (Some p_r2) (OReg p_r3) ((T_L1 ||| T_0F) ||| T_W0) 0x41 NONE.
(* xbyak_mnemonic.h:1982 *)
Definition i_kmovb_ak (p_addr : Address) (p_k : Reg) : E unit :=
  opKmov p_k (OMem p_addr) true 8.
(* xbyak_mnemonic.h:1983 *)
Definition i_kmovb_ko (p_k : Reg) (p_op : Operand) : E unit :=
  opKmov p_k p_op false 8.
(* xbyak_mnemonic.h:1984 *)
Definition i_kmovb_dk (p_r : Reg) (p_k : Reg) : E unit :=
  opKmov p_k (OReg p_r) true 8.
(* xbyak_mnemonic.h:1985 *)
Definition i_kmovd_ak (p_addr : Address) (p_k : Reg) : E unit :=
  opKmov p_k (OMem p_addr) true 32.
(* xbyak_mnemonic.h:1986 *)
Definition i_kmovd_ko (p_k : Reg) (p_op : Operand) : E unit :=
  opKmov p_k p_op false 32.
(* xbyak_mnemonic.h:1987 *)
Definition i_kmovd_dk (p_r : Reg) (p_k : Reg) : E unit :=
  opKmov p_k (OReg p_r) true 32.
(* xbyak_mnemonic.h:1988 *)
Definition i_kmovq_ak (p_addr : Address) (p_k : Reg) : E unit :=
  opKmov p_k (OMem p_addr) true 64.
(* xbyak_mnemonic.h:1989 *)
Definition i_kmovq_ko (p_k : Reg) (p_op : Operand) : E unit :=
  opKmov p_k p_op false 64.
(* xbyak_mnemonic.h:1990 *)
Definition i_kmovw_ak (p_addr : Address) (p_k : Reg) : E unit :=
  opKmov p_k (OMem p_addr) true 16.
(* xbyak_mnemonic.h:1991 *)
Definition i_kmovw_ko (p_k : Reg) (p_op : Operand) : E unit :=
  opKmov p_k p_op false 16.
(* xbyak_mnemonic.h:1992 *)
Definition i_kmovw_dk (p_r : Reg) (p_k : Reg) : E unit :=
  opKmov p_k (OReg p_r) true 16.
(* xbyak_mnemonic.h:1993 *)
Definition i_knotb (p_r1 : Reg) (p_r2 : Reg) : E unit :=
  opVex p_r1 None (OReg p_r2) ((T_0F ||| T_66) ||| T_W0) 0x44 NONE.
(* xbyak_mnemonic.h:1994 *)
Definition i_knotd (p_r1 : Reg) (p_r2 : Reg) : E unit :=
  opVex p_r1 None (OReg p_r2) ((T_0F ||| T_66) ||| T_W1) 0x44 NONE.
(* xbyak_mnemonic.h:1995 *)
Definition i_knotq (p_r1 : Reg) (p_r2 : Reg) : E unit :=
  opVex p_r1 None (OReg p_r2) (T_0F ||| T_W1) 0x44 NONE.
(* xbyak_mnemonic.h:1996 *)
Definition i_knotw (p_r1 : Reg) (p_r2 : Reg) : E unit :=
  opVex p_r1 None (OReg p_r2) (T_0F ||| T_W0) 0x44 NONE.
(* xbyak_mnemonic.h:1997 *)
Definition i_korb (p_r1 : Reg) (p_r2 : Reg) (p_r3 : Reg) : E unit :=
  opVex p_r1 (Some p_r2) (OReg p_r3) (((T_L1 ||| T_0F) ||| T_66) ||| T_W0) 0x45 NONE.
(* xbyak_mnemonic.h:1998 *)
Definition i_kord (p_r1 : Reg) (p_r2 : Reg) (p_r3 : Reg) : E unit :=
  opVex p_r1 (Some p_r2) (OReg p_r3) (((T_L1 ||| T_0F) ||| T_66) ||| T_W1) 0x45 NONE.
(* xbyak_mnemonic.h:1999 *)
Definition i_korq (p_r1 : Reg) (p_r2 : Reg) (p_r3 : Reg) : E unit :=
  opVex p_r1 (Some p_r2) (OReg p_r3) ((T_L1 ||| T_0F) ||| T_W1) 0x45 NONE.
(* xbyak_mnemonic.h:2000 *)
Definition i_kortestb (p_r1 : Reg) (p_r2 : Reg) : E unit :=
  opVex p_r1 None (OReg p_r2) ((T_0F ||| T_66) ||| T_W0) 0x98 NONE.
(* xbyak_mnemonic.h:2001 *)
Definition i_kortestd (p_r1 : Reg) (p_r2 : Reg) : E unit :=
  opVex p_r1 None (OReg p_r2) ((T_0F ||| T_66) ||| T_W1) 0x98 NONE.
(* xbyak_mnemonic.h:2002 *)
Definition i_kortestq (p_r1 : Reg) (p_r2 : Reg) : E unit :=
  opVex p_r1 None (OReg p_r2) (T_0F ||| T_W1) 0x98 NONE.
(* xbyak_mnemonic.h:2003 *)
Definition i_kortestw (p_r1 : Reg) (p_r2 : Reg) : E unit :=
  opVex p_r1 None (OReg p_r2) (T_0F ||| T_W0) 0x98 NONE.
(* xbyak_mnemonic.h:2004 *)
Definition i_korw (p_r1 : Reg) (p_r2 : Reg) (p_r3 : Reg) : E unit :=
  opVex p_r1 (Some p_r2) (OReg p_r3) ((T_L1 ||| T_0F) ||| T_W0) 0x45 NONE.
(* xbyak_mnemonic.h:2005 *)
Definition i_kshiftlb (p_r1 : Reg) (p_r2 : Reg) (p_imm : Z) : E unit :=
  let p_imm := w8 p_imm in opVex p_r1 None (OReg p_r2) ((T_66 ||| T_0F3A) ||| T_W0) 0x32 p_imm.
(* xbyak_mnemonic.h:2006 *)
Definition i_kshiftld (p_r1 : Reg) (p_r2 : Reg) (p_imm : Z) : E unit :=
  let p_imm := w8 p_imm in opVex p_r1 None (OReg p_r2) ((T_66 ||| T_0F3A) ||| T_W0) 0x33 p_imm.
(* xbyak_mnemonic.h:2007 *)
Definition i_kshiftlq (p_r1 : Reg) (p_r2 : Reg) (p_imm : Z) : E unit :=
  let p_imm := w8 p_imm in opVex p_r1 None (OReg p_r2) ((T_66 ||| T_0F3A) ||| T_W1) 0x33 p_imm.
(* xbyak_mnemonic.h:2008 *)
Definition i_kshiftlw (p_r1 : Reg) (p_r2 : Reg) (p_imm : Z) : E unit :=
  let p_imm := w8 p_imm in opVex p_r1 None (OReg p_r2) ((T_66 ||| T_0F3A) ||| T_W1) 0x32 p_imm.
(* xbyak_mnemonic.h:2009 *)
Definition i_kshiftrb (p_r1 : Reg) (p_r2 : Reg) (p_imm : Z) : E unit :=
  let p_imm := w8 p_imm in opVex p_r1 None (OReg p_r2) ((T_66 ||| T_0F3A) ||| T_W0) 0x30 p_imm.
(* xbyak_mnemonic.h:2010 *)
Definition i_kshiftrd (p_r1 : Reg) (p_r2 : Reg) (p_imm : Z) : E unit :=
  let p_imm := w8 p_imm in opVex p_r1 None (OReg p_r2) ((T_66 ||| T_0F3A) ||| T_W0) 0x31 p_imm.
(* xbyak_mnemonic.h:2011 *)
Definition i_kshiftrq (p_r1 : Reg) (p_r2 : Reg) (p_imm : Z) : E unit :=
  let p_imm := w8 p_imm in opVex p_r1 None (OReg p_r2) ((T_66 ||| T_0F3A) ||| T_W1) 0x31 p_imm.
(* xbyak_mnemonic.h:2012 *)
Definition i_kshiftrw (p_r1 : Reg) (p_r2 : Reg) (p_imm : Z) : E unit :=
  let p_imm := w8 p_imm in opVex p_r1 None (OReg p_r2) ((T_66 ||| T_0F3A) ||| T_W1) 0x30 p_imm.
(* xbyak_mnemonic.h:2013 *)
Definition i_ktestb (p_r1 : Reg) (p_r2 : Reg) : E unit :=
  opVex p_r1 None (OReg p_r2) ((T_0F ||| T_66) ||| T_W0) 0x99 NONE.
(* xbyak_mnemonic.h:2014 *)
Definition i_ktestd (p_r1 : Reg) (p_r2 : Reg) : E unit :=
  opVex p_r1 None (OReg p_r2) ((T_0F ||| T_66) ||| T_W1) 0x99 NONE.
(* xbyak_mnemonic.h:2015 *)
Definition i_ktestq (p_r1 : Reg) (p_r2 : Reg) : E unit :=
  opVex p_r1 None (OReg p_r2) (T_0F ||| T_W1) 0x99 NONE.
(* xbyak_mnemonic.h:2016 *)
Definition i_ktestw (p_r1 : Reg) (p_r2 : Reg) : E unit :=
  opVex p_r1 None (OReg p_r2) (T_0F ||| T_W0) 0x99 NONE.
(* xbyak_mnemonic.h:2017 *)
Definition i_kunpckbw (p_r1 : Reg) (p_r2 : Reg) (p_r3 : Reg) : E unit :=
  opVex p_r1 (Some p_r2) (OReg p_r3) (((T_L1 ||| T_0F) ||| T_66) ||| T_W0) 0x4B NONE.
(* xbyak_mnemonic.h:2018 *)
Definition i_kunpckdq (p_r1 : Reg) (p_r2 : Reg) (p_r3 : Reg) : E unit :=
  opVex p_r1 (Some p_r2) (OReg p_r3) ((T_L1 ||| T_0F) ||| T_W1) 0x4B NONE.
(* xbyak_mnemonic.h:2019 *)
Definition i_kunpckwd (p_r1 : Reg) (p_r2 : Reg) (p_r3 : Reg) : E unit :=
  opVex p_r1 (Some p_r2) (OReg p_r3) ((T_L1 ||| T_0F) ||| T_W0) 0x4B NONE.
(* xbyak_mnemonic.h:2020 *)
Definition i_kxnorb (p_r1 : Reg) (p_r2 : Reg) (p_r3 : Reg) : E unit :=
  opVex p_r1 (Some p_r2) (OReg p_r3) (((T_L1 ||| T_0F) ||| T_66) ||| T_W0) 0x46 NONE.
(* xbyak_mnemonic.h:2021 *)
Definition i_kxnord (p_r1 : Reg) (p_r2 : Reg) (p_r3 : Reg) : E unit :=
  opVex p_r1 (Some p_r2) (OReg p_r3) (((T_L1 ||| T_0F) ||| T_66) ||| T_W1) 0x46 NONE.
(* xbyak_mnemonic.h:2022 *)
Definition i_kxnorq (p_r1 : Reg) (p_r2 : Reg) (p_r3 : Reg) : E unit :=
  opVex p_r1 (Some p_r2) (OReg p_r3) ((T_L1 ||| T_0F) ||| T_W1) 0x46 NONE.
(* xbyak_mnemonic.h:2023 *)
Definition i_kxnorw (p_r1 : Reg) (p_r2 : Reg) (p_r3 : Reg) : E unit :=
  opVex p_r1 (Some p_r2) (OReg p_r3) ((T_L1 ||| T_0F) ||| T_W0) 0x46 NONE.
(* xbyak_mnemonic.h:2024 *)
Definition i_kxorb (p_r1 : Reg) (p_r2 : Reg) (p_r3 : Reg) : E unit :=
  opVex p_r1 (Some p_r2) (OReg p_r3) (((T_L1 ||| T_0F) ||| T_66) ||| T_W0) 0x47 NONE.
(* xbyak_mnemonic.h:2025 *)
Definition i_kxord (p_r1 : Reg) (p_r2 : Reg) (p_r3 : Reg) : E unit :=
  opVex p_r1 (Some p_r2) (OReg p_r3) (((T_L1 ||| T_0F) ||| T_66) ||| T_W1) 0x47 NONE.
(* xbyak_mnemonic.h:2026 *)
Definition i_kxorq (p_r1 : Reg) (p_r2 : Reg) (p_r3 : Reg) : E unit :=
  opVex p_r1 (Some p_r2) (OReg p_r3) ((T_L1 ||| T_0F) ||| T_W1) 0x47 NONE.
(* xbyak_mnemonic.h:2027 *)
Definition i_kxorw (p_r1 : Reg) (p_r2 : Reg) (p_r3 : Reg) : E unit :=
  opVex p_r1 (Some p_r2) (OReg p_r3) ((T_L1 ||| T_0F) ||| T_W0) 0x47 NONE.
(* xbyak_mnemonic.h:2028 *)
Definition i_v4fmaddps (p_z1 : Reg) (p_z2 : Reg) (p_addr : Address) : E unit :=
  opAVX_X_X_XM p_z1 (OReg p_z2) (OMem p_addr) (((((T_0F38 ||| T_F2) ||| T_EW0) ||| T_YMM) ||| T_MUST_EVEX) ||| T_N16) 0x9A NONE.
(* xbyak_mnemonic.h:2029 *)
Definition i_v4fmaddss (p_x1 : Reg) (p_x2 : Reg) (p_addr : Address) : E unit :=
  opAVX_X_X_XM p_x1 (OReg p_x2) (OMem p_addr) ((((T_0F38 ||| T_F2) ||| T_EW0) ||| T_MUST_EVEX) ||| T_N16) 0x9B NONE.
(* xbyak_mnemonic.h:2030 *)
Definition i_v4fnmaddps (p_z1 : Reg) (p_z2 : Reg) (p_addr : Address) : E unit :=
  opAVX_X_X_XM p_z1 (OReg p_z2) (OMem p_addr) (((((T_0F38 ||| T_F2) ||| T_EW0) ||| T_YMM) ||| T_MUST_EVEX) ||| T_N16) 0xAA NONE.
(* xbyak_mnemonic.h:2031 *)
Definition i_v4fnmaddss (p_x1 : Reg) (p_x2 : Reg) (p_addr : Address) : E unit :=
  opAVX_X_X_XM p_x1 (OReg p_x2) (OMem p_addr) ((((T_0F38 ||| T_F2) ||| T_EW0) ||| T_MUST_EVEX) ||| T_N16) 0xAB NONE.
(* xbyak_mnemonic.h:2032 *)
Definition i_vaddnepbf16 (p_x1 : Reg) (p_x2 : Reg) (p_op : Operand) : E unit :=
  opAVX_X_X_XM p_x1 (OReg p_x2) p_op (((((T_66 ||| T_MAP5) ||| T_EW0) ||| T_YMM) ||| T_MUST_EVEX) ||| T_B16) 0x58 NONE.
(* xbyak_mnemonic.h:2033 *)
Definition i_vaddph (p_xmm : Reg) (p_op1 : Operand) (p_op2 : Operand) : E unit :=
  opAVX_X_X_XM p_xmm p_op1 p_op2 (((((T_MAP5 ||| T_EW0) ||| T_YMM) ||| T_MUST_EVEX) ||| T_ER_Z) ||| T_B16) 0x58 NONE.
(* xbyak_mnemonic.h:2034 *)
Definition i_vaddsh (p_xmm : Reg) (p_op1 : Operand) (p_op2 : Operand) : E unit :=
  opAVX_X_X_XM p_xmm p_op1 p_op2 (((((T_MAP5 ||| T_F3) ||| T_EW0) ||| T_MUST_EVEX) ||| T_ER_X) ||| T_N2) 0x58 NONE.
(* xbyak_mnemonic.h:2035 *)
Definition i_valignd (p_x1 : Reg) (p_x2 : Reg) (p_op : Operand) (p_imm : Z) : E unit :=
  let p_imm := w8 p_imm in opAVX_X_X_XM p_x1 (OReg p_x2) p_op ((((T_66 ||| T_0F3A) ||| T_EW0) ||| T_YMM) ||| T_MUST_EVEX) 0x03 p_imm.
(* xbyak_mnemonic.h:2036 *)
Definition i_valignq (p_x1 : Reg) (p_x2 : Reg) (p_op : Operand) (p_imm : Z) : E unit :=
  let p_imm := w8 p_imm in opAVX_X_X_XM p_x1 (OReg p_x2) p_op ((((T_66 ||| T_0F3A) ||| T_EW1) ||| T_YMM) ||| T_MUST_EVEX) 0x03 p_imm.
(* xbyak_mnemonic.h:2037 *)
Definition i_vblendmpd (p_x1 : Reg) (p_x2 : Reg) (p_op : Operand) : E unit :=
  opAVX_X_X_XM p_x1 (OReg p_x2) p_op (((((T_66 ||| T_0F38) ||| T_EW1) ||| T_YMM) ||| T_MUST_EVEX) ||| T_B64) 0x65 NONE.
(* xbyak_mnemonic.h:2038 *)
Definition i_vblendmps (p_x1 : Reg) (p_x2 : Reg) (p_op : Operand) : E unit :=
  opAVX_X_X_XM p_x1 (OReg p_x2) p_op (((((T_66 ||| T_0F38) ||| T_EW0) ||| T_YMM) ||| T_MUST_EVEX) ||| T_B32) 0x65 NONE.
(* xbyak_mnemonic.h:2039 *)
Definition i_vbroadcastf32x2 (p_y : Reg) (p_op : Operand) : E unit :=
  opAVX_X_XM_IMM p_y p_op (((((T_66 ||| T_0F38) ||| T_YMM) ||| T_MUST_EVEX) ||| T_EW0) ||| T_N8) 0x19 NONE.
(* xbyak_mnemonic.h:2040 *)
Definition i_vbroadcastf32x4 (p_y : Reg) (p_addr : Address) : E unit :=
  opAVX_X_XM_IMM p_y (OMem p_addr) (((((T_66 ||| T_0F38) ||| T_YMM) ||| T_MUST_EVEX) ||| T_EW0) ||| T_N16) 0x1A NONE.
(* xbyak_mnemonic.h:2041 *)
Definition i_vbroadcastf32x8 (p_y : Reg) (p_addr : Address) : E unit :=
  opAVX_X_XM_IMM p_y (OMem p_addr) (((((T_66 ||| T_0F38) ||| T_YMM) ||| T_MUST_EVEX) ||| T_EW0) ||| T_N32) 0x1B NONE.
(* xbyak_mnemonic.h:2042 *)
Definition i_vbroadcastf64x2 (p_y : Reg) (p_addr : Address) : E unit :=
  opAVX_X_XM_IMM p_y (OMem p_addr) (((((T_66 ||| T_0F38) ||| T_YMM) ||| T_MUST_EVEX) ||| T_EW1) ||| T_N16) 0x1A NONE.
(* xbyak_mnemonic.h:2043 *)
Definition i_vbroadcastf64x4 (p_y : Reg) (p_addr : Address) : E unit :=
  opAVX_X_XM_IMM p_y (OMem p_addr) (((((T_66 ||| T_0F38) ||| T_YMM) ||| T_MUST_EVEX) ||| T_EW1) ||| T_N32) 0x1B NONE.
(* xbyak_mnemonic.h:2044 *)
Definition i_vbroadcasti32x2 (p_x : Reg) (p_op : Operand) : E unit :=
  opAVX_X_XM_IMM p_x p_op (((((T_66 ||| T_0F38) ||| T_YMM) ||| T_MUST_EVEX) ||| T_EW0) ||| T_N8) 0x59 NONE.
(* xbyak_mnemonic.h:2045 *)
Definition i_vbroadcasti32x4 (p_y : Reg) (p_op : Operand) : E unit :=
  opAVX_X_XM_IMM p_y p_op (((((T_66 ||| T_0F38) ||| T_YMM) ||| T_MUST_EVEX) ||| T_EW0) ||| T_N16) 0x5A NONE.
(* xbyak_mnemonic.h:2046 *)
Definition i_vbroadcasti32x8 (p_z : Reg) (p_op : Operand) : E unit :=
  opAVX_X_XM_IMM p_z p_op (((((T_66 ||| T_0F38) ||| T_YMM) ||| T_MUST_EVEX) ||| T_EW0) ||| T_N32) 0x5B NONE.
(* xbyak_mnemonic.h:2047 *)
Definition i_vbroadcasti64x2 (p_y : Reg) (p_op : Operand) : E unit :=
  opAVX_X_XM_IMM p_y p_op (((((T_66 ||| T_0F38) ||| T_YMM) ||| T_MUST_EVEX) ||| T_EW1) ||| T_N16) 0x5A NONE.
(* xbyak_mnemonic.h:2048 *)
Definition i_vbroadcasti64x4 (p_z : Reg) (p_op : Operand) : E unit :=
  opAVX_X_XM_IMM p_z p_op (((((T_66 ||| T_0F38) ||| T_YMM) ||| T_MUST_EVEX) ||| T_EW1) ||| T_N32) 0x5B NONE.
(* xbyak_mnemonic.h:2162 *)
Definition i_vcmppd_kxoi (p_k : Reg) (p_x : Reg) (p_op : Operand) (p_imm : Z) : E unit :=
  let p_imm := w8 p_imm in opAVX_K_X_XM p_k p_x p_op ((((((T_66 ||| T_0F) ||| T_EW1) ||| T_YMM) ||| T_SAE_Z) ||| T_MUST_EVEX) ||| T_B64) 0xC2 p_imm.
(* xbyak_mnemonic.h:2049 *)
Definition i_vcmpeq_ospd_kxo (p_k : Reg) (p_x : Reg) (p_op : Operand) : E unit :=
  i_vcmppd_kxoi p_k p_x p_op 16.
(* xbyak_mnemonic.h:2164 *)
Definition i_vcmpps_kxoi (p_k : Reg) (p_x : Reg) (p_op : Operand) (p_imm : Z) : E unit :=
  let p_imm := w8 p_imm in opAVX_K_X_XM p_k p_x p_op (((((T_0F ||| T_EW0) ||| T_YMM) ||| T_SAE_Z) ||| T_MUST_EVEX) ||| T_B32) 0xC2 p_imm.
(* xbyak_mnemonic.h:2050 *)
Definition i_vcmpeq_osps_kxo (p_k : Reg) (p_x : Reg) (p_op : Operand) : E unit :=
  i_vcmpps_kxoi p_k p_x p_op 16.
(* xbyak_mnemonic.h:2165 *)
Definition i_vcmpsd_kxoi (p_k : Reg) (p_x : Reg) (p_op : Operand) (p_imm : Z) : E unit :=
  let p_imm := w8 p_imm in opAVX_K_X_XM p_k p_x p_op (((((T_N8 ||| T_F2) ||| T_0F) ||| T_EW1) ||| T_SAE_Z) ||| T_MUST_EVEX) 0xC2 p_imm.
(* xbyak_mnemonic.h:2051 *)
Definition i_vcmpeq_ossd_kxo (p_k : Reg) (p_x : Reg) (p_op : Operand) : E unit :=
  i_vcmpsd_kxoi p_k p_x p_op 16.
(* xbyak_mnemonic.h:2167 *)
Definition i_vcmpss_kxoi (p_k : Reg) (p_x : Reg) (p_op : Operand) (p_imm : Z) : E unit :=
  let p_imm := w8 p_imm in opAVX_K_X_XM p_k p_x p_op (((((T_N4 ||| T_F3) ||| T_0F) ||| T_EW0) ||| T_SAE_Z) ||| T_MUST_EVEX) 0xC2 p_imm.
(* xbyak_mnemonic.h:2052 *)
Definition i_vcmpeq_osss_kxo (p_k : Reg) (p_x : Reg) (p_op : Operand) : E unit :=
  i_vcmpss_kxoi p_k p_x p_op 16.
(* xbyak_mnemonic.h:2053 *)
Definition i_vcmpeq_uqpd_kxo (p_k : Reg) (p_x : Reg) (p_op : Operand) : E unit :=
  i_vcmppd_kxoi p_k p_x p_op 8.
(* xbyak_mnemonic.h:2054 *)
Definition i_vcmpeq_uqps_kxo (p_k : Reg) (p_x : Reg) (p_op : Operand) : E unit :=
  i_vcmpps_kxoi p_k p_x p_op 8.
(* xbyak_mnemonic.h:2055 *)
Definition i_vcmpeq_uqsd_kxo (p_k : Reg) (p_x : Reg) (p_op : Operand) : E unit :=
  i_vcmpsd_kxoi p_k p_x p_op 8.
(* xbyak_mnemonic.h:2056 *)
Definition i_vcmpeq_uqss_kxo (p_k : Reg) (p_x : Reg) (p_op : Operand) : E unit :=
  i_vcmpss_kxoi p_k p_x p_op 8.
(* xbyak_mnemonic.h:2057 *)
Definition i_vcmpeq_uspd_kxo (p_k : Reg) (p_x : Reg) (p_op : Operand) : E unit :=
  i_vcmppd_kxoi p_k p_x p_op 24.
(* xbyak_mnemonic.h:2058 *)
Definition i_vcmpeq_usps_kxo (p_k : Reg) (p_x : Reg) (p_op : Operand) : E unit :=
  i_vcmpps_kxoi p_k p_x p_op 24.
(* xbyak_mnemonic.h:2059 *)
Definition i_vcmpeq_ussd_kxo (p_k : Reg) (p_x : Reg) (p_op : Operand) : E unit :=
  i_vcmpsd_kxoi p_k p_x p_op 24.
(* xbyak_mnemonic.h:2060 *)
Definition i_vcmpeq_usss_kxo (p_k : Reg) (p_x : Reg) (p_op : Operand) : E unit :=
  i_vcmpss_kxoi p_k p_x p_op 24.
(* xbyak_mnemonic.h:2061 *)
Definition i_vcmpeqpd_kxo (p_k : Reg) (p_x : Reg) (p_op : Operand) : E unit :=
  i_vcmppd_kxoi p_k p_x p_op 0.
(* xbyak_mnemonic.h:2062 *)
Definition i_vcmpeqps_kxo (p_k : Reg) (p_x : Reg) (p_op : Operand) : E unit :=
  i_vcmpps_kxoi p_k p_x p_op 0.
(* xbyak_mnemonic.h:2063 *)
Definition i_vcmpeqsd_kxo (p_k : Reg) (p_x : Reg) (p_op : Operand) : E unit :=
  i_vcmpsd_kxoi p_k p_x p_op 0.
(* xbyak_mnemonic.h:2064 *)
Definition i_vcmpeqss_kxo (p_k : Reg) (p_x : Reg) (p_op : Operand) : E unit :=
  i_vcmpss_kxoi p_k p_x p_op 0.
(* xbyak_mnemonic.h:2065 *)
Definition i_vcmpfalse_ospd_kxo (p_k : Reg) (p_x : Reg) (p_op : Operand) : E unit :=
  i_vcmppd_kxoi p_k p_x p_op 27.
(* xbyak_mnemonic.h:2066 *)
Definition i_vcmpfalse_osps_kxo (p_k : Reg) (p_x : Reg) (p_op : Operand) : E unit :=
  i_vcmpps_kxoi p_k p_x p_op 27.
(* xbyak_mnemonic.h:2067 *)
Definition i_vcmpfalse_ossd_kxo (p_k : Reg) (p_x : Reg) (p_op : Operand) : E unit :=
  i_vcmpsd_kxoi p_k p_x p_op 27.
(* xbyak_mnemonic.h:2068 *)
Definition i_vcmpfalse_osss_kxo (p_k : Reg) (p_x : Reg) (p_op : Operand) : E unit :=
  i_vcmpss_kxoi p_k p_x p_op 27.
(* xbyak_mnemonic.h:2069 *)
Definition i_vcmpfalsepd_kxo (p_k : Reg) (p_x : Reg) (p_op : Operand) : E unit :=
  i_vcmppd_kxoi p_k p_x p_op 11.
(* xbyak_mnemonic.h:2070 *)
Definition i_vcmpfalseps_kxo (p_k : Reg) (p_x : Reg) (p_op : Operand) : E unit :=
  i_vcmpps_kxoi p_k p_x p_op 11.
(* xbyak_mnemonic.h:2071 *)
Definition i_vcmpfalsesd_kxo (p_k : Reg) (p_x : Reg) (p_op : Operand) : E unit :=
  i_vcmpsd_kxoi p_k p_x p_op 11.
(* xbyak_mnemonic.h:2072 *)
Definition i_vcmpfalsess_kxo (p_k : Reg) (p_x : Reg) (p_op : Operand) : E unit :=
  i_vcmpss_kxoi p_k p_x p_op 11.
(* xbyak_mnemonic.h:2073 *)
Definition i_vcmpge_oqpd_kxo (p_k : Reg) (p_x : Reg) (p_op : Operand) : E unit :=
  i_vcmppd_kxoi p_k p_x p_op 29.
(* xbyak_mnemonic.h:2074 *)
Definition i_vcmpge_oqps_kxo (p_k : Reg) (p_x : Reg) (p_op : Operand) : E unit :=
  i_vcmpps_kxoi p_k p_x p_op 29.
(* xbyak_mnemonic.h:2075 *)
Definition i_vcmpge_oqsd_kxo (p_k : Reg) (p_x : Reg) (p_op : Operand) : E unit :=
  i_vcmpsd_kxoi p_k p_x p_op 29.
(* xbyak_mnemonic.h:2076 *)
Definition i_vcmpge_oqss_kxo (p_k : Reg) (p_x : Reg) (p_op : Operand) : E unit :=
  i_vcmpss_kxoi p_k p_x p_op 29.
(* xbyak_mnemonic.h:2077 *)
Definition i_vcmpgepd_kxo (p_k : Reg) (p_x : Reg) (p_op : Operand) : E unit :=
  i_vcmppd_kxoi p_k p_x p_op 13.
(* xbyak_mnemonic.h:2078 *)
Definition i_vcmpgeps_kxo (p_k : Reg) (p_x : Reg) (p_op : Operand) : E unit :=
  i_vcmpps_kxoi p_k p_x p_op 13.
(* xbyak_mnemonic.h:2079 *)
Definition i_vcmpgesd_kxo (p_k : Reg) (p_x : Reg) (p_op : Operand) : E unit :=
  i_vcmpsd_kxoi p_k p_x p_op 13.
(* xbyak_mnemonic.h:2080 *)
Definition i_vcmpgess_kxo (p_k : Reg) (p_x : Reg) (p_op : Operand) : E unit :=
  i_vcmpss_kxoi p_k p_x p_op 13.
(* xbyak_mnemonic.h:2081 *)
Definition i_vcmpgt_oqpd_kxo (p_k : Reg) (p_x : Reg) (p_op : Operand) : E unit :=
  i_vcmppd_kxoi p_k p_x p_op 30.
(* xbyak_mnemonic.h:2082 *)
Definition i_vcmpgt_oqps_kxo (p_k : Reg) (p_x : Reg) (p_op : Operand) : E unit :=
  i_vcmpps_kxoi p_k p_x p_op 30.
(* xbyak_mnemonic.h:2083 *)
Definition i_vcmpgt_oqsd_kxo (p_k : Reg) (p_x : Reg) (p_op : Operand) : E unit :=
  i_vcmpsd_kxoi p_k p_x p_op 30.
(* xbyak_mnemonic.h:2084 *)
Definition i_vcmpgt_oqss_kxo (p_k : Reg) (p_x : Reg) (p_op : Operand) : E unit :=
  i_vcmpss_kxoi p_k p_x p_op 30.
(* xbyak_mnemonic.h:2085 *)
Definition i_vcmpgtpd_kxo (p_k : Reg) (p_x : Reg) (p_op : Operand) : E unit :=
  i_vcmppd_kxoi p_k p_x p_op 14.
(* xbyak_mnemonic.h:2086 *)
Definition i_vcmpgtps_kxo (p_k : Reg) (p_x : Reg) (p_op : Operand) : E unit :=
  i_vcmpps_kxoi p_k p_x p_op 14.
(* xbyak_mnemonic.h:2087 *)
Definition i_vcmpgtsd_kxo (p_k : Reg) (p_x : Reg) (p_op : Operand) : E unit :=
  i_vcmpsd_kxoi p_k p_x p_op 14.
(* xbyak_mnemonic.h:2088 *)
Definition i_vcmpgtss_kxo (p_k : Reg) (p_x : Reg) (p_op : Operand) : E unit :=
  i_vcmpss_kxoi p_k p_x p_op 14.
(* xbyak_mnemonic.h:2089 *)
Definition i_vcmple_oqpd_kxo (p_k : Reg) (p_x : Reg) (p_op : Operand) : E unit :=
  i_vcmppd_kxoi p_k p_x p_op 18.
(* xbyak_mnemonic.h:2090 *)
Definition i_vcmple_oqps_kxo (p_k : Reg) (p_x : Reg) (p_op : Operand) : E unit :=
  i_vcmpps_kxoi p_k p_x p_op 18.
(* xbyak_mnemonic.h:2091 *)
Definition i_vcmple_oqsd_kxo (p_k : Reg) (p_x : Reg) (p_op : Operand) : E unit :=
  i_vcmpsd_kxoi p_k p_x p_op 18.
(* xbyak_mnemonic.h:2092 *)
Definition i_vcmple_oqss_kxo (p_k : Reg) (p_x : Reg) (p_op : Operand) : E unit :=
  i_vcmpss_kxoi p_k p_x p_op 18.
(* xbyak_mnemonic.h:2093 *)
Definition i_vcmplepd_kxo (p_k : Reg) (p_x : Reg) (p_op : Operand) : E unit :=
  i_vcmppd_kxoi p_k p_x p_op 2.
(* xbyak_mnemonic.h:2094 *)
Definition i_vcmpleps_kxo (p_k : Reg) (p_x : Reg) (p_op : Operand) : E unit :=
  i_vcmpps_kxoi p_k p_x p_op 2.
(* xbyak_mnemonic.h:2095 *)
Definition i_vcmplesd_kxo (p_k : Reg) (p_x : Reg) (p_op : Operand) : E unit :=
  i_vcmpsd_kxoi p_k p_x p_op 2.
(* xbyak_mnemonic.h:2096 *)
Definition i_vcmpless_kxo (p_k : Reg) (p_x : Reg) (p_op : Operand) : E unit :=
  i_vcmpss_kxoi p_k p_x p_op 2.
(* xbyak_mnemonic.h:2097 *)
Definition i_vcmplt_oqpd_kxo (p_k : Reg) (p_x : Reg) (p_op : Operand) : E unit :=
  i_vcmppd_kxoi p_k p_x p_op 17.
(* xbyak_mnemonic.h:2098 *)
Definition i_vcmplt_oqps_kxo (p_k : Reg) (p_x : Reg) (p_op : Operand) : E unit :=
  i_vcmpps_kxoi p_k p_x p_op 17.
(* xbyak_mnemonic.h:2099 *)
Definition i_vcmplt_oqsd_kxo (p_k : Reg) (p_x : Reg) (p_op : Operand) : E unit :=
  i_vcmpsd_kxoi p_k p_x p_op 17.
(* xbyak_mnemonic.h:2100 *)
Definition i_vcmplt_oqss_kxo (p_k : Reg) (p_x : Reg) (p_op : Operand) : E unit :=
  i_vcmpss_kxoi p_k p_x p_op 17.
(* xbyak_mnemonic.h:2101 *)
Definition i_vcmpltpd_kxo (p_k : Reg) (p_x : Reg) (p_op : Operand) : E unit :=
  i_vcmppd_kxoi p_k p_x p_op 1.
(* xbyak_mnemonic.h:2102 *)
Definition i_vcmpltps_kxo (p_k : Reg) (p_x : Reg) (p_op : Operand) : E unit :=
  i_vcmpps_kxoi p_k p_x p_op 1.
(* xbyak_mnemonic.h:2103 *)
Definition i_vcmpltsd_kxo (p_k : Reg) (p_x : Reg) (p_op : Operand) : E unit :=
  i_vcmpsd_kxoi p_k p_x p_op 1.
(* xbyak_mnemonic.h:2104 *)
Definition i_vcmpltss_kxo (p_k : Reg) (p_x : Reg) (p_op : Operand) : E unit :=
  i_vcmpss_kxoi p_k p_x p_op 1.
(* xbyak_mnemonic.h:2105 *)
Definition i_vcmpneq_oqpd_kxo (p_k : Reg) (p_x : Reg) (p_op : Operand) : E unit :=
  i_vcmppd_kxoi p_k p_x p_op 12.
(* xbyak_mnemonic.h:2106 *)
Definition i_vcmpneq_oqps_kxo (p_k : Reg) (p_x : Reg) (p_op : Operand) : E unit :=
  i_vcmpps_kxoi p_k p_x p_op 12.
(* xbyak_mnemonic.h:2107 *)
Definition i_vcmpneq_oqsd_kxo (p_k : Reg) (p_x : Reg) (p_op : Operand) : E unit :=
  i_vcmpsd_kxoi p_k p_x p_op 12.
(* xbyak_mnemonic.h:2108 *)
Definition i_vcmpneq_oqss_kxo (p_k : Reg) (p_x : Reg) (p_op : Operand) : E unit :=
  i_vcmpss_kxoi p_k p_x p_op 12.
(* xbyak_mnemonic.h:2109 *)
Definition i_vcmpneq_ospd_kxo (p_k : Reg) (p_x : Reg) (p_op : Operand) : E unit :=
  i_vcmppd_kxoi p_k p_x p_op 28.
(* xbyak_mnemonic.h:2110 *)
Definition i_vcmpneq_osps_kxo (p_k : Reg) (p_x : Reg) (p_op : Operand) : E unit :=
  i_vcmpps_kxoi p_k p_x p_op 28.
(* xbyak_mnemonic.h:2111 *)
Definition i_vcmpneq_ossd_kxo (p_k : Reg) (p_x : Reg) (p_op : Operand) : E unit :=
  i_vcmpsd_kxoi p_k p_x p_op 28.
(* xbyak_mnemonic.h:2112 *)
Definition i_vcmpneq_osss_kxo (p_k : Reg) (p_x : Reg) (p_op : Operand) : E unit :=
  i_vcmpss_kxoi p_k p_x p_op 28.
(* xbyak_mnemonic.h:2113 *)
Definition i_vcmpneq_uspd_kxo (p_k : Reg) (p_x : Reg) (p_op : Operand) : E unit :=
  i_vcmppd_kxoi p_k p_x p_op 20.
(* xbyak_mnemonic.h:2114 *)
Definition i_vcmpneq_usps_kxo (p_k : Reg) (p_x : Reg) (p_op : Operand) : E unit :=
  i_vcmpps_kxoi p_k p_x p_op 20.
(* xbyak_mnemonic.h:2115 *)
Definition i_vcmpneq_ussd_kxo (p_k : Reg) (p_x : Reg) (p_op : Operand) : E unit :=
  i_vcmpsd_kxoi p_k p_x p_op 20.
(* xbyak_mnemonic.h:2116 *)
Definition i_vcmpneq_usss_kxo (p_k : Reg) (p_x : Reg) (p_op : Operand) : E unit :=
  i_vcmpss_kxoi p_k p_x p_op 20.
(* xbyak_mnemonic.h:2117 *)
Definition i_vcmpneqpd_kxo (p_k : Reg) (p_x : Reg) (p_op : Operand) : E unit :=
  i_vcmppd_kxoi p_k p_x p_op 4.
(* xbyak_mnemonic.h:2118 *)
Definition i_vcmpneqps_kxo (p_k : Reg) (p_x : Reg) (p_op : Operand) : E unit :=
  i_vcmpps_kxoi p_k p_x p_op 4.
(* xbyak_mnemonic.h:2119 *)
Definition i_vcmpneqsd_kxo (p_k : Reg) (p_x : Reg) (p_op : Operand) : E unit :=
  i_vcmpsd_kxoi p_k p_x p_op 4.
(* xbyak_mnemonic.h:2120 *)
Definition i_vcmpneqss_kxo (p_k : Reg) (p_x : Reg) (p_op : Operand) : E unit :=
  i_vcmpss_kxoi p_k p_x p_op 4.
(* xbyak_mnemonic.h:2121 *)
Definition i_vcmpnge_uqpd_kxo (p_k : Reg) (p_x : Reg) (p_op : Operand) : E unit :=
  i_vcmppd_kxoi p_k p_x p_op 25.
(* xbyak_mnemonic.h:2122 *)
Definition i_vcmpnge_uqps_kxo (p_k : Reg) (p_x : Reg) (p_op : Operand) : E unit :=
  i_vcmpps_kxoi p_k p_x p_op 25.
(* xbyak_mnemonic.h:2123 *)
Definition i_vcmpnge_uqsd_kxo (p_k : Reg) (p_x : Reg) (p_op : Operand) : E unit :=
  i_vcmpsd_kxoi p_k p_x p_op 25.
(* xbyak_mnemonic.h:2124 *)
Definition i_vcmpnge_uqss_kxo (p_k : Reg) (p_x : Reg) (p_op : Operand) : E unit :=
  i_vcmpss_kxoi p_k p_x p_op 25.
(* xbyak_mnemonic.h:2125 *)
Definition i_vcmpngepd_kxo (p_k : Reg) (p_x : Reg) (p_op : Operand) : E unit :=
  i_vcmppd_kxoi p_k p_x p_op 9.
(* xbyak_mnemonic.h:2126 *)
Definition i_vcmpngeps_kxo (p_k : Reg) (p_x : Reg) (p_op : Operand) : E unit :=
  i_vcmpps_kxoi p_k p_x p_op 9.
(* xbyak_mnemonic.h:2127 *)
Definition i_vcmpngesd_kxo (p_k : Reg) (p_x : Reg) (p_op : Operand) : E unit :=
  i_vcmpsd_kxoi p_k p_x p_op 9.
(* xbyak_mnemonic.h:2128 *)
Definition i_vcmpngess_kxo (p_k : Reg) (p_x : Reg) (p_op : Operand) : E unit :=
  i_vcmpss_kxoi p_k p_x p_op 9.
(* xbyak_mnemonic.h:2129 *)
Definition i_vcmpngt_uqpd_kxo (p_k : Reg) (p_x : Reg) (p_op : Operand) : E unit :=
  i_vcmppd_kxoi p_k p_x p_op 26.
(* xbyak_mnemonic.h:2130 *)
Definition i_vcmpngt_uqps_kxo (p_k : Reg) (p_x : Reg) (p_op : Operand) : E unit :=
  i_vcmpps_kxoi p_k p_x p_op 26.
(* xbyak_mnemonic.h:2131 *)
Definition i_vcmpngt_uqsd_kxo (p_k : Reg) (p_x : Reg) (p_op : Operand) : E unit :=
  i_vcmpsd_kxoi p_k p_x p_op 26.
(* xbyak_mnemonic.h:2132 *)
Definition i_vcmpngt_uqss_kxo (p_k : Reg) (p_x : Reg) (p_op : Operand) : E unit :=
  i_vcmpss_kxoi p_k p_x p_op 26.
(* xbyak_mnemonic.h:2133 *)
Definition i_vcmpngtpd_kxo (p_k : Reg) (p_x : Reg) (p_op : Operand) : E unit :=
  i_vcmppd_kxoi p_k p_x p_op 10.
(* xbyak_mnemonic.h:2134 *)
Definition i_vcmpngtps_kxo (p_k : Reg) (p_x : Reg) (p_op : Operand) : E unit :=
  i_vcmpps_kxoi p_k p_x p_op 10.
(* xbyak_mnemonic.h:2135 *)
Definition i_vcmpngtsd_kxo (p_k : Reg) (p_x : Reg) (p_op : Operand) : E unit :=
  i_vcmpsd_kxoi p_k p_x p_op 10.
(* xbyak_mnemonic.h:2136 *)
Definition i_vcmpngtss_kxo (p_k : Reg) (p_x : Reg) (p_op : Operand) : E unit :=
  i_vcmpss_kxoi p_k p_x p_op 10.
(* xbyak_mnemonic.h:2137 *)
Definition i_vcmpnle_uqpd_kxo (p_k : Reg) (p_x : Reg) (p_op : Operand) : E unit :=
  i_vcmppd_kxoi p_k p_x p_op 22.
(* xbyak_mnemonic.h:2138 *)
Definition i_vcmpnle_uqps_kxo (p_k : Reg) (p_x : Reg) (p_op : Operand) : E unit :=
  i_vcmpps_kxoi p_k p_x p_op 22.
(* xbyak_mnemonic.h:2139 *)
Definition i_vcmpnle_uqsd_kxo (p_k : Reg) (p_x : Reg) (p_op : Operand) : E unit :=
  i_vcmpsd_kxoi p_k p_x p_op 22.
(* xbyak_mnemonic.h:2140 *)
Definition i_vcmpnle_uqss_kxo (p_k : Reg) (p_x : Reg) (p_op : Operand) : E unit :=
  i_vcmpss_kxoi p_k p_x p_op 22.
(* xbyak_mnemonic.h:2141 *)
Definition i_vcmpnlepd_kxo (p_k : Reg) (p_x : Reg) (p_op : Operand) : E unit :=
  i_vcmppd_kxoi p_k p_x p_op 6.
(* xbyak_mnemonic.h:2142 *)
Definition i_vcmpnleps_kxo (p_k : Reg) (p_x : Reg) (p_op : Operand) : E unit :=
  i_vcmpps_kxoi p_k p_x p_op 6.
(* xbyak_mnemonic.h:2143 *)
Definition i_vcmpnlesd_kxo (p_k : Reg) (p_x : Reg) (p_op : Operand) : E unit :=
  i_vcmpsd_kxoi p_k p_x p_op 6.
(* xbyak_mnemonic.h:2144 *)
Definition i_vcmpnless_kxo (p_k : Reg) (p_x : Reg) (p_op : Operand) : E unit :=
  i_vcmpss_kxoi p_k p_x p_op 6.
(* xbyak_mnemonic.h:2145 *)
Definition i_vcmpnlt_uqpd_kxo (p_k : Reg) (p_x : Reg) (p_op : Operand) : E unit :=
  i_vcmppd_kxoi p_k p_x p_op 21.
(* xbyak_mnemonic.h:2146 *)
Definition i_vcmpnlt_uqps_kxo (p_k : Reg) (p_x : Reg) (p_op : Operand) : E unit :=
  i_vcmpps_kxoi p_k p_x p_op 21.
(* xbyak_mnemonic.h:2147 *)
Definition i_vcmpnlt_uqsd_kxo (p_k : Reg) (p_x : Reg) (p_op : Operand) : E unit :=
  i_vcmpsd_kxoi p_k p_x p_op 21.
(* xbyak_mnemonic.h:2148 *)
Definition i_vcmpnlt_uqss_kxo (p_k : Reg) (p_x : Reg) (p_op : Operand) : E unit :=
  i_vcmpss_kxoi p_k p_x p_op 21.
(* xbyak_mnemonic.h:2149 *)
Definition i_vcmpnltpd_kxo (p_k : Reg) (p_x : Reg) (p_op : Operand) : E unit :=
  i_vcmppd_kxoi p_k p_x p_op 5.
(* xbyak_mnemonic.h:2150 *)
Definition i_vcmpnltps_kxo (p_k : Reg) (p_x : Reg) (p_op : Operand) : E unit :=
  i_vcmpps_kxoi p_k p_x p_op 5.
(* xbyak_mnemonic.h:2151 *)
Definition i_vcmpnltsd_kxo (p_k : Reg) (p_x : Reg) (p_op : Operand) : E unit :=
  i_vcmpsd_kxoi p_k p_x p_op 5.
(* xbyak_mnemonic.h:2152 *)
Definition i_vcmpnltss_kxo (p_k : Reg) (p_x : Reg) (p_op : Operand) : E unit :=
  i_vcmpss_kxoi p_k p_x p_op 5.
(* xbyak_mnemonic.h:2153 *)
Definition i_vcmpord_spd_kxo (p_k : Reg) (p_x : Reg) (p_op : Operand) : E unit :=
  i_vcmppd_kxoi p_k p_x p_op 23.
(* xbyak_mnemonic.h:2154 *)
Definition i_vcmpord_sps_kxo (p_k : Reg) (p_x : Reg) (p_op : Operand) : E unit :=
  i_vcmpps_kxoi p_k p_x p_op 23.
(* xbyak_mnemonic.h:2155 *)
Definition i_vcmpord_ssd_kxo (p_k : Reg) (p_x : Reg) (p_op : Operand) : E unit :=
  i_vcmpsd_kxoi p_k p_x p_op 23.
(* xbyak_mnemonic.h:2156 *)
Definition i_vcmpord_sss_kxo (p_k : Reg) (p_x : Reg) (p_op : Operand) : E unit :=
  i_vcmpss_kxoi p_k p_x p_op 23.
(* xbyak_mnemonic.h:2157 *)
Definition i_vcmpordpd_kxo (p_k : Reg) (p_x : Reg) (p_op : Operand) : E unit :=
  i_vcmppd_kxoi p_k p_x p_op 7.
(* xbyak_mnemonic.h:2158 *)
Definition i_vcmpordps_kxo (p_k : Reg) (p_x : Reg) (p_op : Operand) : E unit :=
  i_vcmpps_kxoi p_k p_x p_op 7.
(* xbyak_mnemonic.h:2159 *)
Definition i_vcmpordsd_kxo (p_k : Reg) (p_x : Reg) (p_op : Operand) : E unit :=
  i_vcmpsd_kxoi p_k p_x p_op 7.
(* xbyak_mnemonic.h:2160 *)
Definition i_vcmpordss_kxo (p_k : Reg) (p_x : Reg) (p_op : Operand) : E unit :=
  i_vcmpss_kxoi p_k p_x p_op 7.
(* xbyak_mnemonic.h:2161 *)
Definition i_vcmppbf16 (p_k : Reg) (p_x : Reg) (p_op : Operand) (p_imm : Z) : E unit :=
  let p_imm := w8 p_imm in opVex p_k (Some p_x) p_op (((((T_MUST_EVEX ||| T_F2) ||| T_0F3A) ||| T_EW0) ||| T_YMM) ||| T_B16) 0xC2 p_imm.
(* xbyak_mnemonic.h:2163 *)
Definition i_vcmpph (p_k : Reg) (p_x : Reg) (p_op : Operand) (p_imm : Z) : E unit :=
  let p_imm := w8 p_imm in opAVX_K_X_XM p_k p_x p_op (((((T_0F3A ||| T_EW0) ||| T_YMM) ||| T_SAE_Z) ||| T_MUST_EVEX) ||| T_B16) 0xC2 p_imm.
(* xbyak_mnemonic.h:2166 *)
Definition i_vcmpsh (p_k : Reg) (p_x : Reg) (p_op : Operand) (p_imm : Z) : E unit :=
  let p_imm := w8 p_imm in opAVX_K_X_XM p_k p_x p_op (((((T_N2 ||| T_F3) ||| T_0F3A) ||| T_EW0) ||| T_SAE_X) ||| T_MUST_EVEX) 0xC2 p_imm.
(* xbyak_mnemonic.h:2168 *)
Definition i_vcmptrue_uspd_kxo (p_k : Reg) (p_x : Reg) (p_op : Operand) : E unit :=
  i_vcmppd_kxoi p_k p_x p_op 31.
(* xbyak_mnemonic.h:2169 *)
Definition i_vcmptrue_usps_kxo (p_k : Reg) (p_x : Reg) (p_op : Operand) : E unit :=
  i_vcmpps_kxoi p_k p_x p_op 31.
(* xbyak_mnemonic.h:2170 *)
Definition i_vcmptrue_ussd_kxo (p_k : Reg) (p_x : Reg) (p_op : Operand) : E unit :=
  i_vcmpsd_kxoi p_k p_x p_op 31.
(* xbyak_mnemonic.h:2171 *)
Definition i_vcmptrue_usss_kxo (p_k : Reg) (p_x : Reg) (p_op : Operand) : E unit :=
  i_vcmpss_kxoi p_k p_x p_op 31.
(* xbyak_mnemonic.h:2172 *)
Definition i_vcmptruepd_kxo (p_k : Reg) (p_x : Reg) (p_op : Operand) : E unit :=
  i_vcmppd_kxoi p_k p_x p_op 15.
(* xbyak_mnemonic.h:2173 *)
Definition i_vcmptrueps_kxo (p_k : Reg) (p_x : Reg) (p_op : Operand) : E unit :=
  i_vcmpps_kxoi p_k p_x p_op 15.
(* xbyak_mnemonic.h:2174 *)
Definition i_vcmptruesd_kxo (p_k : Reg) (p_x : Reg) (p_op : Operand) : E unit :=
  i_vcmpsd_kxoi p_k p_x p_op 15.
(* xbyak_mnemonic.h:2175 *)
Definition i_vcmptruess_kxo (p_k : Reg) (p_x : Reg) (p_op : Operand) : E unit :=
  i_vcmpss_kxoi p_k p_x p_op 15.
(* xbyak_mnemonic.h:2176 *)
Definition i_vcmpunord_spd_kxo (p_k : Reg) (p_x : Reg) (p_op : Operand) : E unit :=
  i_vcmppd_kxoi p_k p_x p_op 19.
(* xbyak_mnemonic.h:2177 *)
Definition i_vcmpunord_sps_kxo (p_k : Reg) (p_x : Reg) (p_op : Operand) : E unit :=
  i_vcmpps_kxoi p_k p_x p_op 19.
(* xbyak_mnemonic.h:2178 *)
Definition i_vcmpunord_ssd_kxo (p_k : Reg) (p_x : Reg) (p_op : Operand) : E unit :=
  i_vcmpsd_kxoi p_k p_x p_op 19.
(* xbyak_mnemonic.h:2179 *)
Definition i_vcmpunord_sss_kxo (p_k : Reg) (p_x : Reg) (p_op : Operand) : E unit :=
  i_vcmpss_kxoi p_k p_x p_op 19.
(* xbyak_mnemonic.h:2180 *)
Definition i_vcmpunordpd_kxo (p_k : Reg) (p_x : Reg) (p_op : Operand) : E unit :=
  i_vcmppd_kxoi p_k p_x p_op 3.
(* xbyak_mnemonic.h:2181 *)
Definition i_vcmpunordps_kxo (p_k : Reg) (p_x : Reg) (p_op : Operand) : E unit :=
  i_vcmpps_kxoi p_k p_x p_op 3.
(* xbyak_mnemonic.h:2182 *)
Definition i_vcmpunordsd_kxo (p_k : Reg) (p_x : Reg) (p_op : Operand) : E unit :=
  i_vcmpsd_kxoi p_k p_x p_op 3.
(* xbyak_mnemonic.h:2183 *)
Definition i_vcmpunordss_kxo (p_k : Reg) (p_x : Reg) (p_op : Operand) : E unit :=
  i_vcmpss_kxoi p_k p_x p_op 3.
(* xbyak_mnemonic.h:2184 *)
Definition i_vcomish (p_x : Reg) (p_op : Operand) : E unit :=
  opAVX_X_XM_IMM p_x p_op ((((T_N2 ||| T_MAP5) ||| T_EW0) ||| T_SAE_X) ||| T_MUST_EVEX) 0x2F NONE.
(* xbyak_mnemonic.h:2185 *)
Definition i_vcompresspd (p_op : Operand) (p_x : Reg) : E unit :=
  opAVX_X_XM_IMM p_x p_op (((((T_N8 ||| T_66) ||| T_0F38) ||| T_EW1) ||| T_YMM) ||| T_MUST_EVEX) 0x8A NONE.
(* xbyak_mnemonic.h:2186 *)
Definition i_vcompressps (p_op : Operand) (p_x : Reg) : E unit :=
  opAVX_X_XM_IMM p_x p_op (((((T_N4 ||| T_66) ||| T_0F38) ||| T_EW0) ||| T_YMM) ||| T_MUST_EVEX) 0x8A NONE.
(* xbyak_mnemonic.h:2187 *)
Definition i_vcomsbf16 (p_x : Reg) (p_op : Operand) : E unit :=
  opAVX_X_XM_IMM p_x p_op ((((T_N2 ||| T_66) ||| T_MAP5) ||| T_EW0) ||| T_MUST_EVEX) 0x2F NONE.
(* xbyak_mnemonic.h:2188 *)
Definition i_vcomxsd (p_x : Reg) (p_op : Operand) : E unit :=
  opAVX_X_XM_IMM p_x p_op (((((T_N8 ||| T_F2) ||| T_0F) ||| T_EW1) ||| T_SAE_X) ||| T_MUST_EVEX) 0x2F NONE.
(* xbyak_mnemonic.h:2189 *)
Definition i_vcomxsh (p_x : Reg) (p_op : Operand) : E unit :=
  opAVX_X_XM_IMM p_x p_op (((((T_N2 ||| T_F3) ||| T_MAP5) ||| T_EW0) ||| T_SAE_X) ||| T_MUST_EVEX) 0x2F NONE.
(* xbyak_mnemonic.h:2190 *)
Definition i_vcomxss (p_x : Reg) (p_op : Operand) : E unit :=
  opAVX_X_XM_IMM p_x p_op (((((T_N4 ||| T_F3) ||| T_0F) ||| T_EW0) ||| T_SAE_X) ||| T_MUST_EVEX) 0x2F NONE.
(* xbyak_mnemonic.h:2191 *)
Definition i_vcvt2ps2phx (p_x1 : Reg) (p_x2 : Reg) (p_op : Operand) : E unit :=
  opAVX_X_X_XM p_x1 (OReg p_x2) p_op (((((((T_66 ||| T_0F38) ||| T_EW0) ||| T_YMM) ||| T_ER_Y) ||| T_ER_Z) ||| T_MUST_EVEX) ||| T_B32) 0x67 NONE.
(* xbyak_mnemonic.h:2192 *)
Definition i_vcvtbiasph2bf8 (p_x1 : Reg) (p_x2 : Reg) (p_op : Operand) : E unit :=
  opCvt6 p_x1 p_x2 p_op ((((T_0F38 ||| T_EW0) ||| T_YMM) ||| T_MUST_EVEX) ||| T_B16) 0x74.
(* xbyak_mnemonic.h:2193 *)
Definition i_vcvtbiasph2bf8s (p_x1 : Reg) (p_x2 : Reg) (p_op : Operand) : E unit :=
  opCvt6 p_x1 p_x2 p_op ((((T_MAP5 ||| T_EW0) ||| T_YMM) ||| T_MUST_EVEX) ||| T_B16) 0x74.
(* xbyak_mnemonic.h:2194 *)
Definition i_vcvtbiasph2hf8 (p_x1 : Reg) (p_x2 : Reg) (p_op : Operand) : E unit :=
  opCvt6 p_x1 p_x2 p_op ((((T_MAP5 ||| T_EW0) ||| T_YMM) ||| T_MUST_EVEX) ||| T_B16) 0x18.
(* xbyak_mnemonic.h:2195 *)
Definition i_vcvtbiasph2hf8s (p_x1 : Reg) (p_x2 : Reg) (p_op : Operand) : E unit :=
  opCvt6 p_x1 p_x2 p_op ((((T_MAP5 ||| T_EW0) ||| T_YMM) ||| T_MUST_EVEX) ||| T_B16) 0x1B.
(* xbyak_mnemonic.h:2196 *)
Definition i_vcvtdq2ph (p_x : Reg) (p_op : Operand) : E unit :=
  checkCvt4 p_x p_op ;;; opCvt p_x p_op (((((((T_N16 ||| T_N_VL) ||| T_MAP5) ||| T_EW0) ||| T_YMM) ||| T_ER_Z) ||| T_MUST_EVEX) ||| T_B32) 0x5B.
(* xbyak_mnemonic.h:2197 *)
Definition i_vcvthf82ph (p_x : Reg) (p_op : Operand) : E unit :=
  checkCvt1 (OReg p_x) p_op ;;; opVex p_x None p_op (((((T_MUST_EVEX ||| T_F2) ||| T_MAP5) ||| T_EW0) ||| T_YMM) ||| T_N1) 0x1E NONE.
(* xbyak_mnemonic.h:2198 *)
Definition i_vcvtne2ph2bf8 (p_x1 : Reg) (p_x2 : Reg) (p_op : Operand) : E unit :=
  opAVX_X_X_XM p_x1 (OReg p_x2) p_op ((((((T_N1 ||| T_F2) ||| T_0F38) ||| T_EW0) ||| T_YMM) ||| T_MUST_EVEX) ||| T_B16) 0x74 NONE.
(* xbyak_mnemonic.h:2199 *)
Definition i_vcvtne2ph2bf8s (p_x1 : Reg) (p_x2 : Reg) (p_op : Operand) : E unit :=
  opAVX_X_X_XM p_x1 (OReg p_x2) p_op ((((((T_N1 ||| T_F2) ||| T_MAP5) ||| T_EW0) ||| T_YMM) ||| T_MUST_EVEX) ||| T_B16) 0x74 NONE.
(* xbyak_mnemonic.h:2200 *)
Definition i_vcvtne2ph2hf8 (p_x1 : Reg) (p_x2 : Reg) (p_op : Operand) : E unit :=
  opAVX_X_X_XM p_x1 (OReg p_x2) p_op ((((((T_N1 ||| T_F2) ||| T_MAP5) ||| T_EW0) ||| T_YMM) ||| T_MUST_EVEX) ||| T_B16) 0x18 NONE.
(* xbyak_mnemonic.h:2201 *)
Definition i_vcvtne2ph2hf8s (p_x1 : Reg) (p_x2 : Reg) (p_op : Operand) : E unit :=
  opAVX_X_X_XM p_x1 (OReg p_x2) p_op ((((((T_N1 ||| T_F2) ||| T_MAP5) ||| T_EW0) ||| T_YMM) ||| T_MUST_EVEX) ||| T_B16) 0x1B NONE.
(* xbyak_mnemonic.h:2202 *)
Definition i_vcvtne2ps2bf16 (p_x1 : Reg) (p_x2 : Reg) (p_op : Operand) : E unit :=
  opAVX_X_X_XM p_x1 (OReg p_x2) p_op ((((((T_F2 ||| T_0F38) ||| T_EW0) ||| T_YMM) ||| T_SAE_Z) ||| T_MUST_EVEX) ||| T_B32) 0x72 NONE.
(* xbyak_mnemonic.h:2203 *)
Definition i_vcvtnebf162ibs (p_x : Reg) (p_op : Operand) : E unit :=
  opAVX_X_XM_IMM p_x p_op (((((T_F2 ||| T_MAP5) ||| T_EW0) ||| T_YMM) ||| T_MUST_EVEX) ||| T_B16) 0x69 NONE.
(* xbyak_mnemonic.h:2204 *)
Definition i_vcvtnebf162iubs (p_x : Reg) (p_op : Operand) : E unit :=
  opAVX_X_XM_IMM p_x p_op (((((T_F2 ||| T_MAP5) ||| T_EW0) ||| T_YMM) ||| T_MUST_EVEX) ||| T_B16) 0x6B NONE.
(* xbyak_mnemonic.h:2205 *)
Definition i_vcvtneph2bf8 (p_x : Reg) (p_op : Operand) : E unit :=
  opCvt2 p_x p_op (((((T_F3 ||| T_0F38) ||| T_EW0) ||| T_YMM) ||| T_MUST_EVEX) ||| T_B16) 0x74.
(* xbyak_mnemonic.h:2206 *)
Definition i_vcvtneph2bf8s (p_x : Reg) (p_op : Operand) : E unit :=
  opCvt2 p_x p_op (((((T_F3 ||| T_MAP5) ||| T_EW0) ||| T_YMM) ||| T_MUST_EVEX) ||| T_B16) 0x74.
(* xbyak_mnemonic.h:2207 *)
Definition i_vcvtneph2hf8 (p_x : Reg) (p_op : Operand) : E unit :=
  opCvt2 p_x p_op (((((T_F3 ||| T_MAP5) ||| T_EW0) ||| T_YMM) ||| T_MUST_EVEX) ||| T_B16) 0x18.
(* xbyak_mnemonic.h:2208 *)
Definition i_vcvtneph2hf8s (p_x : Reg) (p_op : Operand) : E unit :=
  opCvt2 p_x p_op (((((T_F3 ||| T_MAP5) ||| T_EW0) ||| T_YMM) ||| T_MUST_EVEX) ||| T_B16) 0x1B.
(* xbyak_mnemonic.h:2209 *)
Definition i_vcvtpd2ph (p_x : Reg) (p_op : Operand) : E unit :=
  opCvt5 p_x p_op (((((((T_N16 ||| T_N_VL) ||| T_66) ||| T_MAP5) ||| T_EW1) ||| T_ER_Z) ||| T_MUST_EVEX) ||| T_B64) 0x5A.
(* xbyak_mnemonic.h:2210 *)
Definition i_vcvtpd2qq (p_x : Reg) (p_op : Operand) : E unit :=
  opAVX_X_XM_IMM p_x p_op ((((((T_66 ||| T_0F) ||| T_EW1) ||| T_YMM) ||| T_ER_Z) ||| T_MUST_EVEX) ||| T_B64) 0x7B NONE.
(* xbyak_mnemonic.h:2211 *)
Definition i_vcvtpd2udq (p_x : Reg) (p_op : Operand) : E unit :=
  opCvt2 p_x p_op (((((T_0F ||| T_EW1) ||| T_YMM) ||| T_ER_Z) ||| T_MUST_EVEX) ||| T_B64) 0x79.
(* xbyak_mnemonic.h:2212 *)
Definition i_vcvtpd2uqq (p_x : Reg) (p_op : Operand) : E unit :=
  opAVX_X_XM_IMM p_x p_op ((((((T_66 ||| T_0F) ||| T_EW1) ||| T_YMM) ||| T_ER_Z) ||| T_MUST_EVEX) ||| T_B64) 0x79 NONE.
(* xbyak_mnemonic.h:2213 *)
Definition i_vcvtph2dq (p_x : Reg) (p_op : Operand) : E unit :=
  checkCvt1 (OReg p_x) p_op ;;; opVex p_x None p_op ((((((((T_N8 ||| T_N_VL) ||| T_66) ||| T_MAP5) ||| T_EW0) ||| T_YMM) ||| T_ER_Y) ||| T_MUST_EVEX) ||| T_B16) 0x5B NONE.
(* xbyak_mnemonic.h:2214 *)
Definition i_vcvtph2ibs (p_x : Reg) (p_op : Operand) : E unit :=
  opAVX_X_XM_IMM p_x p_op ((((((T_MAP5 ||| T_EW0) ||| T_YMM) ||| T_ER_Y) ||| T_ER_Z) ||| T_MUST_EVEX) ||| T_B16) 0x69 NONE.
(* xbyak_mnemonic.h:2215 *)
Definition i_vcvtph2iubs (p_x : Reg) (p_op : Operand) : E unit :=
  opAVX_X_XM_IMM p_x p_op ((((((T_MAP5 ||| T_EW0) ||| T_YMM) ||| T_ER_Y) ||| T_ER_Z) ||| T_MUST_EVEX) ||| T_B16) 0x6B NONE.
(* xbyak_mnemonic.h:2216 *)
Definition i_vcvtph2pd (p_x : Reg) (p_op : Operand) : E unit :=
  fn tt (if ((negb (isXMM (ob p_op))) && (negb (isMEM p_op))) then throw ERR_BAD_MEM_SIZE else opVex p_x None p_op (((((((T_N4 ||| T_N_VL) ||| T_MAP5) ||| T_EW0) ||| T_YMM) ||| T_SAE_X) ||| T_MUST_EVEX) ||| T_B16) 0x5A NONE).
(* xbyak_mnemonic.h:2217 *)
Definition i_vcvtph2psx (p_x : Reg) (p_op : Operand) : E unit :=
  checkCvt1 (OReg p_x) p_op ;;; opVex p_x None p_op ((((((((T_N8 ||| T_N_VL) ||| T_66) ||| T_MAP6) ||| T_EW0) ||| T_YMM) ||| T_SAE_Y) ||| T_MUST_EVEX) ||| T_B16) 0x13 NONE.
(* xbyak_mnemonic.h:2218 *)
Definition i_vcvtph2qq (p_x : Reg) (p_op : Operand) : E unit :=
  fn tt (if ((negb (isXMM (ob p_op))) && (negb (isMEM p_op))) then throw ERR_BAD_MEM_SIZE else opVex p_x None p_op ((((((((T_N4 ||| T_N_VL) ||| T_66) ||| T_MAP5) ||| T_EW0) ||| T_YMM) ||| T_ER_X) ||| T_MUST_EVEX) ||| T_B16) 0x7B NONE).
(* xbyak_mnemonic.h:2219 *)
Definition i_vcvtph2udq (p_x : Reg) (p_op : Operand) : E unit :=
  checkCvt1 (OReg p_x) p_op ;;; opVex p_x None p_op (((((((T_N8 ||| T_N_VL) ||| T_MAP5) ||| T_EW0) ||| T_YMM) ||| T_ER_Y) ||| T_MUST_EVEX) ||| T_B16) 0x79 NONE.
(* xbyak_mnemonic.h:2220 *)
Definition i_vcvtph2uqq (p_x : Reg) (p_op : Operand) : E unit :=
  fn tt (if ((negb (isXMM (ob p_op))) && (negb (isMEM p_op))) then throw ERR_BAD_MEM_SIZE else opVex p_x None p_op ((((((((T_N4 ||| T_N_VL) ||| T_66) ||| T_MAP5) ||| T_EW0) ||| T_YMM) ||| T_ER_X) ||| T_MUST_EVEX) ||| T_B16) 0x79 NONE).
(* xbyak_mnemonic.h:2221 *)
Definition i_vcvtph2uw (p_x : Reg) (p_op : Operand) : E unit :=
  opAVX_X_XM_IMM p_x p_op (((((T_MAP5 ||| T_EW0) ||| T_YMM) ||| T_ER_Z) ||| T_MUST_EVEX) ||| T_B16) 0x7D NONE.
(* xbyak_mnemonic.h:2222 *)
Definition i_vcvtph2w (p_x : Reg) (p_op : Operand) : E unit :=
  opAVX_X_XM_IMM p_x p_op ((((((T_66 ||| T_MAP5) ||| T_EW0) ||| T_YMM) ||| T_ER_Z) ||| T_MUST_EVEX) ||| T_B16) 0x7D NONE.
(* xbyak_mnemonic.h:2223 *)
Definition i_vcvtps2ibs (p_x : Reg) (p_op : Operand) : E unit :=
  opAVX_X_XM_IMM p_x p_op (((((((T_66 ||| T_MAP5) ||| T_EW0) ||| T_YMM) ||| T_ER_Y) ||| T_ER_Z) ||| T_MUST_EVEX) ||| T_B32) 0x69 NONE.
(* xbyak_mnemonic.h:2224 *)
Definition i_vcvtps2iubs (p_x : Reg) (p_op : Operand) : E unit :=
  opAVX_X_XM_IMM p_x p_op (((((((T_66 ||| T_MAP5) ||| T_EW0) ||| T_YMM) ||| T_ER_Y) ||| T_ER_Z) ||| T_MUST_EVEX) ||| T_B32) 0x6B NONE.
(* xbyak_mnemonic.h:2225 *)
Definition i_vcvtps2phx (p_x : Reg) (p_op : Operand) : E unit :=
  checkCvt4 p_x p_op ;;; opCvt p_x p_op (((((((T_N16 ||| T_N_VL) ||| T_66) ||| T_MAP5) ||| T_EW0) ||| T_ER_Z) ||| T_MUST_EVEX) ||| T_B32) 0x1D.
(* xbyak_mnemonic.h:2226 *)
Definition i_vcvtps2qq (p_x : Reg) (p_op : Operand) : E unit :=
  checkCvt1 (OReg p_x) p_op ;;; opVex p_x None p_op ((((((((T_N8 ||| T_N_VL) ||| T_66) ||| T_0F) ||| T_EW0) ||| T_YMM) ||| T_ER_Y) ||| T_MUST_EVEX) ||| T_B32) 0x7B NONE.
(* xbyak_mnemonic.h:2227 *)
Definition i_vcvtps2udq (p_x : Reg) (p_op : Operand) : E unit :=
  opAVX_X_XM_IMM p_x p_op (((((T_0F ||| T_EW0) ||| T_YMM) ||| T_ER_Z) ||| T_MUST_EVEX) ||| T_B32) 0x79 NONE.
(* xbyak_mnemonic.h:2228 *)
Definition i_vcvtps2uqq (p_x : Reg) (p_op : Operand) : E unit :=
  checkCvt1 (OReg p_x) p_op ;;; opVex p_x None p_op ((((((((T_N8 ||| T_N_VL) ||| T_66) ||| T_0F) ||| T_EW0) ||| T_YMM) ||| T_ER_Y) ||| T_MUST_EVEX) ||| T_B32) 0x79 NONE.
(* xbyak_mnemonic.h:2229 *)
Definition i_vcvtqq2pd (p_x : Reg) (p_op : Operand) : E unit :=
  opAVX_X_XM_IMM p_x p_op ((((((T_F3 ||| T_0F) ||| T_EW1) ||| T_YMM) ||| T_ER_Z) ||| T_MUST_EVEX) ||| T_B64) 0xE6 NONE.
(* xbyak_mnemonic.h:2230 *)
Definition i_vcvtqq2ph (p_x : Reg) (p_op : Operand) : E unit :=
  opCvt5 p_x p_op ((((((T_N16 ||| T_N_VL) ||| T_MAP5) ||| T_EW1) ||| T_ER_Z) ||| T_MUST_EVEX) ||| T_B64) 0x5B.
(* xbyak_mnemonic.h:2231 *)
Definition i_vcvtqq2ps (p_x : Reg) (p_op : Operand) : E unit :=
  opCvt2 p_x p_op (((((T_0F ||| T_EW1) ||| T_YMM) ||| T_ER_Z) ||| T_MUST_EVEX) ||| T_B64) 0x5B.
(* xbyak_mnemonic.h:2232 *)
Definition i_vcvtsd2sh (p_x1 : Reg) (p_x2 : Reg) (p_op : Operand) : E unit :=
  opAVX_X_X_XM p_x1 (OReg p_x2) p_op (((((T_N8 ||| T_F2) ||| T_MAP5) ||| T_EW1) ||| T_ER_X) ||| T_MUST_EVEX) 0x5A NONE.
(* xbyak_mnemonic.h:2233 *)
Definition i_vcvtsd2usi (p_r : Reg) (p_op : Operand) : E unit :=
  let v_type := (((((T_N8 ||| T_F2) ||| T_0F) ||| T_ER_X) ||| T_MUST_EVEX) ||| (if (isREGb p_r 64) then T_EW1 else T_EW0)) in opVex p_r (Some (Xmm 0)) p_op v_type 0x79 NONE.
(* xbyak_mnemonic.h:2234 *)
Definition i_vcvtsh2sd (p_x1 : Reg) (p_x2 : Reg) (p_op : Operand) : E unit :=
  opAVX_X_X_XM p_x1 (OReg p_x2) p_op (((((T_N2 ||| T_F3) ||| T_MAP5) ||| T_EW0) ||| T_SAE_X) ||| T_MUST_EVEX) 0x5A NONE.
(* xbyak_mnemonic.h:2235 *)
Definition i_vcvtsh2si (p_r : Reg) (p_op : Operand) : E unit :=
  let v_type := (((((T_N2 ||| T_F3) ||| T_MAP5) ||| T_ER_X) ||| T_MUST_EVEX) ||| (if (isREGb p_r 64) then T_EW1 else T_EW0)) in opVex p_r (Some (Xmm 0)) p_op v_type 0x2D NONE.
(* xbyak_mnemonic.h:2236 *)
Definition i_vcvtsh2ss (p_x1 : Reg) (p_x2 : Reg) (p_op : Operand) : E unit :=
  opAVX_X_X_XM p_x1 (OReg p_x2) p_op ((((T_N2 ||| T_MAP6) ||| T_EW0) ||| T_SAE_X) ||| T_MUST_EVEX) 0x13 NONE.
(* xbyak_mnemonic.h:2237 *)
Definition i_vcvtsh2usi (p_r : Reg) (p_op : Operand) : E unit :=
  let v_type := (((((T_N2 ||| T_F3) ||| T_MAP5) ||| T_ER_X) ||| T_MUST_EVEX) ||| (if (isREGb p_r 64) then T_EW1 else T_EW0)) in opVex p_r (Some (Xmm 0)) p_op v_type 0x79 NONE.
(* xbyak_mnemonic.h:2238 *)
Definition i_vcvtsi2sh (p_x1 : Reg) (p_x2 : Reg) (p_op : Operand) : E unit :=
  fn tt (if (negb (((isXMM p_x1) && (isXMM p_x2)) && (isBit (ob p_op) (32 ||| 64)))) then throw ERR_BAD_COMBINATION else let v_type := (((((T_F3 ||| T_MAP5) ||| T_ER_R) ||| T_MUST_EVEX) ||| T_M_K) ||| (if (isBit (ob p_op) 32) then (T_EW0 ||| T_N4) else (T_EW1 ||| T_N8))) in opVex p_x1 (Some p_x2) p_op v_type 0x2A NONE).
(* xbyak_mnemonic.h:2239 *)
Definition i_vcvtss2sh (p_x1 : Reg) (p_x2 : Reg) (p_op : Operand) : E unit :=
  opAVX_X_X_XM p_x1 (OReg p_x2) p_op ((((T_N4 ||| T_MAP5) ||| T_EW0) ||| T_ER_X) ||| T_MUST_EVEX) 0x1D NONE.
(* xbyak_mnemonic.h:2240 *)
Definition i_vcvtss2usi (p_r : Reg) (p_op : Operand) : E unit :=
  let v_type := (((((T_N4 ||| T_F3) ||| T_0F) ||| T_ER_X) ||| T_MUST_EVEX) ||| (if (isREGb p_r 64) then T_EW1 else T_EW0)) in opVex p_r (Some (Xmm 0)) p_op v_type 0x79 NONE.
(* xbyak_mnemonic.h:2241 *)
Definition i_vcvttnebf162ibs (p_x : Reg) (p_op : Operand) : E unit :=
  opAVX_X_XM_IMM p_x p_op (((((T_F2 ||| T_MAP5) ||| T_EW0) ||| T_YMM) ||| T_MUST_EVEX) ||| T_B16) 0x68 NONE.
(* xbyak_mnemonic.h:2242 *)
Definition i_vcvttnebf162iubs (p_x : Reg) (p_op : Operand) : E unit :=
  opAVX_X_XM_IMM p_x p_op (((((T_F2 ||| T_MAP5) ||| T_EW0) ||| T_YMM) ||| T_MUST_EVEX) ||| T_B16) 0x6A NONE.
(* xbyak_mnemonic.h:2243 *)
Definition i_vcvttpd2dqs (p_x : Reg) (p_op : Operand) : E unit :=
  opCvt2 p_x p_op ((((((T_MAP5 ||| T_EW1) ||| T_YMM) ||| T_SAE_Y) ||| T_SAE_Z) ||| T_MUST_EVEX) ||| T_B64) 0x6D.
(* xbyak_mnemonic.h:2244 *)
Definition i_vcvttpd2qq (p_x : Reg) (p_op : Operand) : E unit :=
  opAVX_X_XM_IMM p_x p_op ((((((T_66 ||| T_0F) ||| T_EW1) ||| T_YMM) ||| T_SAE_Z) ||| T_MUST_EVEX) ||| T_B64) 0x7A NONE.
(* xbyak_mnemonic.h:2245 *)
Definition i_vcvttpd2qqs (p_x : Reg) (p_op : Operand) : E unit :=
  opAVX_X_XM_IMM p_x p_op (((((((T_66 ||| T_MAP5) ||| T_EW1) ||| T_YMM) ||| T_SAE_Y) ||| T_SAE_Z) ||| T_MUST_EVEX) ||| T_B64) 0x6D NONE.
(* xbyak_mnemonic.h:2246 *)
Definition i_vcvttpd2udq (p_x : Reg) (p_op : Operand) : E unit :=
  opCvt2 p_x p_op (((((T_0F ||| T_EW1) ||| T_YMM) ||| T_SAE_Z) ||| T_MUST_EVEX) ||| T_B64) 0x78.
(* xbyak_mnemonic.h:2247 *)
Definition i_vcvttpd2udqs (p_x : Reg) (p_op : Operand) : E unit :=
  opCvt2 p_x p_op ((((((T_MAP5 ||| T_EW1) ||| T_YMM) ||| T_SAE_Y) ||| T_SAE_Z) ||| T_MUST_EVEX) ||| T_B64) 0x6C.
(* xbyak_mnemonic.h:2248 *)
Definition i_vcvttpd2uqq (p_x : Reg) (p_op : Operand) : E unit :=
  opAVX_X_XM_IMM p_x p_op ((((((T_66 ||| T_0F) ||| T_EW1) ||| T_YMM) ||| T_SAE_Z) ||| T_MUST_EVEX) ||| T_B64) 0x78 NONE.
(* xbyak_mnemonic.h:2249 *)
Definition i_vcvttpd2uqqs (p_x : Reg) (p_op : Operand) : E unit :=
  opAVX_X_XM_IMM p_x p_op (((((((T_66 ||| T_MAP5) ||| T_EW1) ||| T_YMM) ||| T_SAE_Y) ||| T_SAE_Z) ||| T_MUST_EVEX) ||| T_B64) 0x6C NONE.
(* xbyak_mnemonic.h:2250 *)
Definition i_vcvttph2dq (p_x : Reg) (p_op : Operand) : E unit :=
  checkCvt1 (OReg p_x) p_op ;;; opVex p_x None p_op ((((((((T_N8 ||| T_N_VL) ||| T_F3) ||| T_MAP5) ||| T_EW0) ||| T_YMM) ||| T_SAE_Y) ||| T_MUST_EVEX) ||| T_B16) 0x5B NONE.
(* xbyak_mnemonic.h:2251 *)
Definition i_vcvttph2ibs (p_x : Reg) (p_op : Operand) : E unit :=
  opAVX_X_XM_IMM p_x p_op ((((((T_MAP5 ||| T_EW0) ||| T_YMM) ||| T_ER_Y) ||| T_ER_Z) ||| T_MUST_EVEX) ||| T_B16) 0x68 NONE.
(* xbyak_mnemonic.h:2252 *)
Definition i_vcvttph2iubs (p_x : Reg) (p_op : Operand) : E unit :=
  opAVX_X_XM_IMM p_x p_op ((((((T_MAP5 ||| T_EW0) ||| T_YMM) ||| T_ER_Y) ||| T_ER_Z) ||| T_MUST_EVEX) ||| T_B16) 0x6A NONE.
(* xbyak_mnemonic.h:2253 *)
Definition i_vcvttph2qq (p_x : Reg) (p_op : Operand) : E unit :=
  fn tt (if ((negb (isXMM (ob p_op))) && (negb (isMEM p_op))) then throw ERR_BAD_MEM_SIZE else opVex p_x None p_op ((((((((T_N4 ||| T_N_VL) ||| T_66) ||| T_MAP5) ||| T_EW0) ||| T_YMM) ||| T_SAE_X) ||| T_MUST_EVEX) ||| T_B16) 0x7A NONE).
(* xbyak_mnemonic.h:2254 *)
Definition i_vcvttph2udq (p_x : Reg) (p_op : Operand) : E unit :=
  checkCvt1 (OReg p_x) p_op ;;; opVex p_x None p_op (((((((T_N8 ||| T_N_VL) ||| T_MAP5) ||| T_EW0) ||| T_YMM) ||| T_SAE_Y) ||| T_MUST_EVEX) ||| T_B16) 0x78 NONE.
(* xbyak_mnemonic.h:2255 *)
Definition i_vcvttph2uqq (p_x : Reg) (p_op : Operand) : E unit :=
  fn tt (if ((negb (isXMM (ob p_op))) && (negb (isMEM p_op))) then throw ERR_BAD_MEM_SIZE else opVex p_x None p_op ((((((((T_N4 ||| T_N_VL) ||| T_66) ||| T_MAP5) ||| T_EW0) ||| T_YMM) ||| T_SAE_X) ||| T_MUST_EVEX) ||| T_B16) 0x78 NONE).
(* xbyak_mnemonic.h:2256 *)
Definition i_vcvttph2uw (p_x : Reg) (p_op : Operand) : E unit :=
  opAVX_X_XM_IMM p_x p_op (((((T_MAP5 ||| T_EW0) ||| T_YMM) ||| T_SAE_Z) ||| T_MUST_EVEX) ||| T_B16) 0x7C NONE.
(* xbyak_mnemonic.h:2257 *)
Definition i_vcvttph2w (p_x : Reg) (p_op : Operand) : E unit :=
  opAVX_X_XM_IMM p_x p_op ((((((T_66 ||| T_MAP5) ||| T_EW0) ||| T_YMM) ||| T_SAE_Z) ||| T_MUST_EVEX) ||| T_B16) 0x7C NONE.
(* xbyak_mnemonic.h:2258 *)
Definition i_vcvttps2dqs (p_x : Reg) (p_op : Operand) : E unit :=
  opAVX_X_XM_IMM p_x p_op ((((((T_MAP5 ||| T_EW0) ||| T_YMM) ||| T_SAE_Y) ||| T_SAE_Z) ||| T_MUST_EVEX) ||| T_B32) 0x6D NONE.
(* xbyak_mnemonic.h:2259 *)
Definition i_vcvttps2ibs (p_x : Reg) (p_op : Operand) : E unit :=
  opAVX_X_XM_IMM p_x p_op (((((((T_66 ||| T_MAP5) ||| T_EW0) ||| T_YMM) ||| T_ER_Y) ||| T_ER_Z) ||| T_MUST_EVEX) ||| T_B32) 0x68 NONE.
(* xbyak_mnemonic.h:2260 *)
Definition i_vcvttps2iubs (p_x : Reg) (p_op : Operand) : E unit :=
  opAVX_X_XM_IMM p_x p_op (((((((T_66 ||| T_MAP5) ||| T_EW0) ||| T_YMM) ||| T_ER_Y) ||| T_ER_Z) ||| T_MUST_EVEX) ||| T_B32) 0x6A NONE.
(* xbyak_mnemonic.h:2261 *)
Definition i_vcvttps2qq (p_x : Reg) (p_op : Operand) : E unit :=
  checkCvt1 (OReg p_x) p_op ;;; opVex p_x None p_op ((((((((T_N8 ||| T_N_VL) ||| T_66) ||| T_0F) ||| T_EW0) ||| T_YMM) ||| T_SAE_Y) ||| T_MUST_EVEX) ||| T_B32) 0x7A NONE.
(* xbyak_mnemonic.h:2262 *)
Definition i_vcvttps2qqs (p_x : Reg) (p_op : Operand) : E unit :=
  checkCvt1 (OReg p_x) p_op ;;; opVex p_x None p_op (((((((((T_N8 ||| T_N_VL) ||| T_66) ||| T_MAP5) ||| T_EW0) ||| T_YMM) ||| T_SAE_X) ||| T_SAE_Y) ||| T_MUST_EVEX) ||| T_B32) 0x6D NONE.
(* xbyak_mnemonic.h:2263 *)
Definition i_vcvttps2udq (p_x : Reg) (p_op : Operand) : E unit :=
  opAVX_X_XM_IMM p_x p_op (((((T_0F ||| T_EW0) ||| T_YMM) ||| T_SAE_Z) ||| T_MUST_EVEX) ||| T_B32) 0x78 NONE.
(* xbyak_mnemonic.h:2264 *)
Definition i_vcvttps2udqs (p_x : Reg) (p_op : Operand) : E unit :=
  opAVX_X_XM_IMM p_x p_op ((((((T_MAP5 ||| T_EW0) ||| T_YMM) ||| T_SAE_Y) ||| T_SAE_Z) ||| T_MUST_EVEX) ||| T_B32) 0x6C NONE.
(* xbyak_mnemonic.h:2265 *)
Definition i_vcvttps2uqq (p_x : Reg) (p_op : Operand) : E unit :=
  checkCvt1 (OReg p_x) p_op ;;; opVex p_x None p_op ((((((((T_N8 ||| T_N_VL) ||| T_66) ||| T_0F) ||| T_EW0) ||| T_YMM) ||| T_SAE_Y) ||| T_MUST_EVEX) ||| T_B32) 0x78 NONE.
(* xbyak_mnemonic.h:2266 *)
Definition i_vcvttps2uqqs (p_x : Reg) (p_op : Operand) : E unit :=
  checkCvt1 (OReg p_x) p_op ;;; opVex p_x None p_op (((((((((T_N8 ||| T_N_VL) ||| T_66) ||| T_MAP5) ||| T_EW0) ||| T_YMM) ||| T_SAE_X) ||| T_SAE_Y) ||| T_MUST_EVEX) ||| T_B32) 0x6C NONE.
(* xbyak_mnemonic.h:2267 *)
Definition i_vcvttsd2sis (p_r : Reg) (p_op : Operand) : E unit :=
  let v_type := ((((((T_N8 ||| T_F2) ||| T_MAP5) ||| T_EW0) ||| T_SAE_X) ||| T_MUST_EVEX) ||| (if (isREGb p_r 64) then T_EW1 else T_EW0)) in opVex p_r (Some (Xmm 0)) p_op v_type 0x6D NONE.
(* xbyak_mnemonic.h:2268 *)
Definition i_vcvttsd2usi (p_r : Reg) (p_op : Operand) : E unit :=
  let v_type := (((((T_N8 ||| T_F2) ||| T_0F) ||| T_SAE_X) ||| T_MUST_EVEX) ||| (if (isREGb p_r 64) then T_EW1 else T_EW0)) in opVex p_r (Some (Xmm 0)) p_op v_type 0x78 NONE.
(* xbyak_mnemonic.h:2269 *)
Definition i_vcvttsd2usis (p_r : Reg) (p_op : Operand) : E unit :=
  let v_type := ((((((T_N8 ||| T_F2) ||| T_MAP5) ||| T_EW0) ||| T_SAE_X) ||| T_MUST_EVEX) ||| (if (isREGb p_r 64) then T_EW1 else T_EW0)) in opVex p_r (Some (Xmm 0)) p_op v_type 0x6C NONE.
(* xbyak_mnemonic.h:2270 *)
Definition i_vcvttsh2si (p_r : Reg) (p_op : Operand) : E unit :=
  let v_type := ((((((T_N2 ||| T_F3) ||| T_MAP5) ||| T_EW0) ||| T_SAE_X) ||| T_MUST_EVEX) ||| (if (isREGb p_r 64) then T_EW1 else T_EW0)) in opVex p_r (Some (Xmm 0)) p_op v_type 0x2C NONE.
(* xbyak_mnemonic.h:2271 *)
Definition i_vcvttsh2usi (p_r : Reg) (p_op : Operand) : E unit :=
  let v_type := ((((((T_N2 ||| T_F3) ||| T_MAP5) ||| T_EW0) ||| T_SAE_X) ||| T_MUST_EVEX) ||| (if (isREGb p_r 64) then T_EW1 else T_EW0)) in opVex p_r (Some (Xmm 0)) p_op v_type 0x78 NONE.
(* xbyak_mnemonic.h:2272 *)
Definition i_vcvttss2sis (p_r : Reg) (p_op : Operand) : E unit :=
  let v_type := ((((((T_N4 ||| T_F3) ||| T_MAP5) ||| T_EW0) ||| T_SAE_X) ||| T_MUST_EVEX) ||| (if (isREGb p_r 64) then T_EW1 else T_EW0)) in opVex p_r (Some (Xmm 0)) p_op v_type 0x6D NONE.
(* xbyak_mnemonic.h:2273 *)
Definition i_vcvttss2usi (p_r : Reg) (p_op : Operand) : E unit :=
  let v_type := (((((T_N4 ||| T_F3) ||| T_0F) ||| T_SAE_X) ||| T_MUST_EVEX) ||| (if (isREGb p_r 64) then T_EW1 else T_EW0)) in opVex p_r (Some (Xmm 0)) p_op v_type 0x78 NONE.
(* xbyak_mnemonic.h:2274 *)
Definition i_vcvttss2usis (p_r : Reg) (p_op : Operand) : E unit :=
  let v_type := ((((((T_N4 ||| T_F3) ||| T_MAP5) ||| T_EW0) ||| T_SAE_X) ||| T_MUST_EVEX) ||| (if (isREGb p_r 64) then T_EW1 else T_EW0)) in opVex p_r (Some (Xmm 0)) p_op v_type 0x6C NONE.
(* xbyak_mnemonic.h:2275 *)
Definition i_vcvtudq2pd (p_x : Reg) (p_op : Operand) : E unit :=
  checkCvt1 (OReg p_x) p_op ;;; opVex p_x None p_op (((((((T_N8 ||| T_N_VL) ||| T_F3) ||| T_0F) ||| T_EW0) ||| T_YMM) ||| T_MUST_EVEX) ||| T_B32) 0x7A NONE.
(* xbyak_mnemonic.h:2276 *)
Definition i_vcvtudq2ph (p_x : Reg) (p_op : Operand) : E unit :=
  checkCvt4 p_x p_op ;;; opCvt p_x p_op (((((((T_N16 ||| T_N_VL) ||| T_F2) ||| T_MAP5) ||| T_EW0) ||| T_ER_Z) ||| T_MUST_EVEX) ||| T_B32) 0x7A.
(* xbyak_mnemonic.h:2277 *)
Definition i_vcvtudq2ps (p_x : Reg) (p_op : Operand) : E unit :=
  opAVX_X_XM_IMM p_x p_op ((((((T_F2 ||| T_0F) ||| T_EW0) ||| T_YMM) ||| T_ER_Z) ||| T_MUST_EVEX) ||| T_B32) 0x7A NONE.
(* xbyak_mnemonic.h:2278 *)
Definition i_vcvtuqq2pd (p_x : Reg) (p_op : Operand) : E unit :=
  opAVX_X_XM_IMM p_x p_op ((((((T_F3 ||| T_0F) ||| T_EW1) ||| T_YMM) ||| T_ER_Z) ||| T_MUST_EVEX) ||| T_B64) 0x7A NONE.
(* xbyak_mnemonic.h:2279 *)
Definition i_vcvtuqq2ph (p_x : Reg) (p_op : Operand) : E unit :=
  opCvt5 p_x p_op (((((((T_N16 ||| T_N_VL) ||| T_F2) ||| T_MAP5) ||| T_EW1) ||| T_ER_Z) ||| T_MUST_EVEX) ||| T_B64) 0x7A.
(* xbyak_mnemonic.h:2280 *)
Definition i_vcvtuqq2ps (p_x : Reg) (p_op : Operand) : E unit :=
  opCvt2 p_x p_op ((((((T_F2 ||| T_0F) ||| T_EW1) ||| T_YMM) ||| T_ER_Z) ||| T_MUST_EVEX) ||| T_B64) 0x7A.
(* xbyak_mnemonic.h:2281 *)
Definition i_vcvtusi2sd (p_x1 : Reg) (p_x2 : Reg) (p_op : Operand) : E unit :=
  opCvt3 p_x1 p_x2 p_op ((T_F2 ||| T_0F) ||| T_MUST_EVEX) (((T_W1 ||| T_EW1) ||| T_ER_X) ||| T_N8) ((T_W0 ||| T_EW0) ||| T_N4) 0x7B.
(* xbyak_mnemonic.h:2282 *)
Definition i_vcvtusi2sh (p_x1 : Reg) (p_x2 : Reg) (p_op : Operand) : E unit :=
  fn tt (if (negb (((isXMM p_x1) && (isXMM p_x2)) && (isBit (ob p_op) (32 ||| 64)))) then throw ERR_BAD_COMBINATION else let v_type := (((((T_F3 ||| T_MAP5) ||| T_ER_R) ||| T_MUST_EVEX) ||| T_M_K) ||| (if (isBit (ob p_op) 32) then (T_EW0 ||| T_N4) else (T_EW1 ||| T_N8))) in opVex p_x1 (Some p_x2) p_op v_type 0x7B NONE).
(* xbyak_mnemonic.h:2283 *)
Definition i_vcvtusi2ss (p_x1 : Reg) (p_x2 : Reg) (p_op : Operand) : E unit :=
  opCvt3 p_x1 p_x2 p_op (((T_F3 ||| T_0F) ||| T_MUST_EVEX) ||| T_ER_X) ((T_W1 ||| T_EW1) ||| T_N8) ((T_W0 ||| T_EW0) ||| T_N4) 0x7B.
(* xbyak_mnemonic.h:2284 *)
Definition i_vcvtuw2ph (p_x : Reg) (p_op : Operand) : E unit :=
  opAVX_X_XM_IMM p_x p_op ((((((T_F2 ||| T_MAP5) ||| T_EW0) ||| T_YMM) ||| T_ER_Z) ||| T_MUST_EVEX) ||| T_B16) 0x7D NONE.
(* xbyak_mnemonic.h:2285 *)
Definition i_vcvtw2ph (p_x : Reg) (p_op : Operand) : E unit :=
  opAVX_X_XM_IMM p_x p_op ((((((T_F3 ||| T_MAP5) ||| T_EW0) ||| T_YMM) ||| T_ER_Z) ||| T_MUST_EVEX) ||| T_B16) 0x7D NONE.
(* xbyak_mnemonic.h:2286 *)
Definition i_vdbpsadbw (p_x1 : Reg) (p_x2 : Reg) (p_op : Operand) (p_imm : Z) : E unit :=
  let p_imm := w8 p_imm in opAVX_X_X_XM p_x1 (OReg p_x2) p_op ((((T_66 ||| T_0F3A) ||| T_EW0) ||| T_YMM) ||| T_MUST_EVEX) 0x42 p_imm.
(* xbyak_mnemonic.h:2287 *)
Definition i_vdivnepbf16 (p_x1 : Reg) (p_x2 : Reg) (p_op : Operand) : E unit :=
  opAVX_X_X_XM p_x1 (OReg p_x2) p_op (((((T_66 ||| T_MAP5) ||| T_EW0) ||| T_YMM) ||| T_MUST_EVEX) ||| T_B16) 0x5E NONE.
(* xbyak_mnemonic.h:2288 *)
Definition i_vdivph (p_xmm : Reg) (p_op1 : Operand) (p_op2 : Operand) : E unit :=
  opAVX_X_X_XM p_xmm p_op1 p_op2 (((((T_MAP5 ||| T_EW0) ||| T_YMM) ||| T_MUST_EVEX) ||| T_ER_Z) ||| T_B16) 0x5E NONE.
(* xbyak_mnemonic.h:2289 *)
Definition i_vdivsh (p_xmm : Reg) (p_op1 : Operand) (p_op2 : Operand) : E unit :=
  opAVX_X_X_XM p_xmm p_op1 p_op2 (((((T_MAP5 ||| T_F3) ||| T_EW0) ||| T_MUST_EVEX) ||| T_ER_X) ||| T_N2) 0x5E NONE.
(* xbyak_mnemonic.h:2290 *)
Definition i_vdpbf16ps (p_x1 : Reg) (p_x2 : Reg) (p_op : Operand) : E unit :=
  opAVX_X_X_XM p_x1 (OReg p_x2) p_op ((((((T_F3 ||| T_0F38) ||| T_EW0) ||| T_YMM) ||| T_SAE_Z) ||| T_MUST_EVEX) ||| T_B32) 0x52 NONE.
(* xbyak_mnemonic.h:2291 *)
Definition i_vdpphps (p_x1 : Reg) (p_x2 : Reg) (p_op : Operand) : E unit :=
  opAVX_X_X_XM p_x1 (OReg p_x2) p_op ((((T_0F38 ||| T_EW0) ||| T_YMM) ||| T_MUST_EVEX) ||| T_B32) 0x52 NONE.
(* xbyak_mnemonic.h:2292 *)
Definition i_vexp2pd (p_z : Reg) (p_op : Operand) : E unit :=
  opAVX_X_XM_IMM p_z p_op ((((((T_66 ||| T_0F38) ||| T_MUST_EVEX) ||| T_YMM) ||| T_EW1) ||| T_B64) ||| T_SAE_Z) 0xC8 NONE.
(* xbyak_mnemonic.h:2293 *)
Definition i_vexp2ps (p_z : Reg) (p_op : Operand) : E unit :=
  opAVX_X_XM_IMM p_z p_op ((((((T_66 ||| T_0F38) ||| T_MUST_EVEX) ||| T_YMM) ||| T_EW0) ||| T_B32) ||| T_SAE_Z) 0xC8 NONE.
(* xbyak_mnemonic.h:2294 *)
Definition i_vexpandpd (p_x : Reg) (p_op : Operand) : E unit :=
  opAVX_X_XM_IMM p_x p_op (((((T_N8 ||| T_66) ||| T_0F38) ||| T_EW1) ||| T_YMM) ||| T_MUST_EVEX) 0x88 NONE.
(* xbyak_mnemonic.h:2295 *)
Definition i_vexpandps (p_x : Reg) (p_op : Operand) : E unit :=
  opAVX_X_XM_IMM p_x p_op (((((T_N4 ||| T_66) ||| T_0F38) ||| T_EW0) ||| T_YMM) ||| T_MUST_EVEX) 0x88 NONE.
(* xbyak_mnemonic.h:2296 *)
Definition i_vextractf32x4 (p_op : Operand) (p_r : Reg) (p_imm : Z) : E unit :=
  fn tt (let p_imm := w8 p_imm in if (negb (is_ (ob p_op) (MEM ||| XMM) 0)) then throw ERR_BAD_COMBINATION else opVex p_r None p_op (((((T_N16 ||| T_66) ||| T_0F3A) ||| T_EW0) ||| T_YMM) ||| T_MUST_EVEX) 0x19 p_imm).
(* xbyak_mnemonic.h:2297 *)
Definition i_vextractf32x8 (p_op : Operand) (p_r : Reg) (p_imm : Z) : E unit :=
  fn tt (let p_imm := w8 p_imm in if (negb (is_ (ob p_op) (MEM ||| YMM) 0)) then throw ERR_BAD_COMBINATION else opVex p_r None p_op (((((T_N32 ||| T_66) ||| T_0F3A) ||| T_EW0) ||| T_YMM) ||| T_MUST_EVEX) 0x1B p_imm).
(* xbyak_mnemonic.h:2298 *)
Definition i_vextractf64x2 (p_op : Operand) (p_r : Reg) (p_imm : Z) : E unit :=
  fn tt (let p_imm := w8 p_imm in if (negb (is_ (ob p_op) (MEM ||| XMM) 0)) then throw ERR_BAD_COMBINATION else opVex p_r None p_op (((((T_N16 ||| T_66) ||| T_0F3A) ||| T_EW1) ||| T_YMM) ||| T_MUST_EVEX) 0x19 p_imm).
(* xbyak_mnemonic.h:2299 *)
Definition i_vextractf64x4 (p_op : Operand) (p_r : Reg) (p_imm : Z) : E unit :=
  fn tt (let p_imm := w8 p_imm in if (negb (is_ (ob p_op) (MEM ||| YMM) 0)) then throw ERR_BAD_COMBINATION else opVex p_r None p_op (((((T_N32 ||| T_66) ||| T_0F3A) ||| T_EW1) ||| T_YMM) ||| T_MUST_EVEX) 0x1B p_imm).
(* xbyak_mnemonic.h:2300 *)
Definition i_vextracti32x4 (p_op : Operand) (p_r : Reg) (p_imm : Z) : E unit :=
  fn tt (let p_imm := w8 p_imm in if (negb (is_ (ob p_op) (MEM ||| XMM) 0)) then throw ERR_BAD_COMBINATION else opVex p_r None p_op (((((T_N16 ||| T_66) ||| T_0F3A) ||| T_EW0) ||| T_YMM) ||| T_MUST_EVEX) 0x39 p_imm).
(* xbyak_mnemonic.h:2301 *)
Definition i_vextracti32x8 (p_op : Operand) (p_r : Reg) (p_imm : Z) : E unit :=
  fn tt (let p_imm := w8 p_imm in if (negb (is_ (ob p_op) (MEM ||| YMM) 0)) then throw ERR_BAD_COMBINATION else opVex p_r None p_op (((((T_N32 ||| T_66) ||| T_0F3A) ||| T_EW0) ||| T_YMM) ||| T_MUST_EVEX) 0x3B p_imm).
(* xbyak_mnemonic.h:2302 *)
Definition i_vextracti64x2 (p_op : Operand) (p_r : Reg) (p_imm : Z) : E unit :=
  fn tt (let p_imm := w8 p_imm in if (negb (is_ (ob p_op) (MEM ||| XMM) 0)) then throw ERR_BAD_COMBINATION else opVex p_r None p_op (((((T_N16 ||| T_66) ||| T_0F3A) ||| T_EW1) ||| T_YMM) ||| T_MUST_EVEX) 0x39 p_imm).
(* xbyak_mnemonic.h:2303 *)
Definition i_vextracti64x4 (p_op : Operand) (p_r : Reg) (p_imm : Z) : E unit :=
  fn tt (let p_imm := w8 p_imm in if (negb (is_ (ob p_op) (MEM ||| YMM) 0)) then throw ERR_BAD_COMBINATION else opVex p_r None p_op (((((T_N32 ||| T_66) ||| T_0F3A) ||| T_EW1) ||| T_YMM) ||| T_MUST_EVEX) 0x3B p_imm).
(* xbyak_mnemonic.h:2304 *)
Definition i_vfcmaddcph (p_x1 : Reg) (p_x2 : Reg) (p_op : Operand) : E unit :=
  opAVX_X_X_XM p_x1 (OReg p_x2) p_op ((((((T_F2 ||| T_MAP6) ||| T_EW0) ||| T_YMM) ||| T_ER_Z) ||| T_MUST_EVEX) ||| T_B32) 0x56 NONE.
(* xbyak_mnemonic.h:2305 *)
Definition i_vfcmulcph (p_x1 : Reg) (p_x2 : Reg) (p_op : Operand) : E unit :=
  opAVX_X_X_XM p_x1 (OReg p_x2) p_op ((((((T_F2 ||| T_MAP6) ||| T_EW0) ||| T_YMM) ||| T_ER_Z) ||| T_MUST_EVEX) ||| T_B32) 0xD6 NONE.
(* xbyak_mnemonic.h:2306 *)
Definition i_vfixupimmpd (p_x1 : Reg) (p_x2 : Reg) (p_op : Operand) (p_imm : Z) : E unit :=
  let p_imm := w8 p_imm in opAVX_X_X_XM p_x1 (OReg p_x2) p_op ((((((T_66 ||| T_0F3A) ||| T_EW1) ||| T_YMM) ||| T_SAE_Z) ||| T_MUST_EVEX) ||| T_B64) 0x54 p_imm.
(* xbyak_mnemonic.h:2307 *)
Definition i_vfixupimmps (p_x1 : Reg) (p_x2 : Reg) (p_op : Operand) (p_imm : Z) : E unit :=
  let p_imm := w8 p_imm in opAVX_X_X_XM p_x1 (OReg p_x2) p_op ((((((T_66 ||| T_0F3A) ||| T_EW0) ||| T_YMM) ||| T_SAE_Z) ||| T_MUST_EVEX) ||| T_B32) 0x54 p_imm.
(* xbyak_mnemonic.h:2308 *)
Definition i_vfixupimmsd (p_x1 : Reg) (p_x2 : Reg) (p_op : Operand) (p_imm : Z) : E unit :=
  let p_imm := w8 p_imm in opAVX_X_X_XM p_x1 (OReg p_x2) p_op (((((T_N8 ||| T_66) ||| T_0F3A) ||| T_EW1) ||| T_SAE_Z) ||| T_MUST_EVEX) 0x55 p_imm.
(* xbyak_mnemonic.h:2309 *)
Definition i_vfixupimmss (p_x1 : Reg) (p_x2 : Reg) (p_op : Operand) (p_imm : Z) : E unit :=
  let p_imm := w8 p_imm in opAVX_X_X_XM p_x1 (OReg p_x2) p_op (((((T_N4 ||| T_66) ||| T_0F3A) ||| T_EW0) ||| T_SAE_Z) ||| T_MUST_EVEX) 0x55 p_imm.
(* xbyak_mnemonic.h:2310 *)
Definition i_vfmadd132nepbf16 (p_x1 : Reg) (p_x2 : Reg) (p_op : Operand) : E unit :=
  opAVX_X_X_XM p_x1 (OReg p_x2) p_op ((((T_MAP6 ||| T_EW0) ||| T_YMM) ||| T_MUST_EVEX) ||| T_B16) 0x98 NONE.
(* xbyak_mnemonic.h:2311 *)
Definition i_vfmadd132ph (p_x1 : Reg) (p_x2 : Reg) (p_op : Operand) : E unit :=
  opAVX_X_X_XM p_x1 (OReg p_x2) p_op ((((((T_66 ||| T_MAP6) ||| T_EW0) ||| T_YMM) ||| T_ER_Z) ||| T_MUST_EVEX) ||| T_B16) 0x98 NONE.
(* xbyak_mnemonic.h:2312 *)
Definition i_vfmadd132sh (p_x1 : Reg) (p_x2 : Reg) (p_op : Operand) : E unit :=
  opAVX_X_X_XM p_x1 (OReg p_x2) p_op (((((T_N2 ||| T_66) ||| T_MAP6) ||| T_EW0) ||| T_ER_X) ||| T_MUST_EVEX) 0x99 NONE.
(* xbyak_mnemonic.h:2313 *)
Definition i_vfmadd213nepbf16 (p_x1 : Reg) (p_x2 : Reg) (p_op : Operand) : E unit :=
  opAVX_X_X_XM p_x1 (OReg p_x2) p_op ((((T_MAP6 ||| T_EW0) ||| T_YMM) ||| T_MUST_EVEX) ||| T_B16) 0xA8 NONE.
(* xbyak_mnemonic.h:2314 *)
Definition i_vfmadd213ph (p_x1 : Reg) (p_x2 : Reg) (p_op : Operand) : E unit :=
  opAVX_X_X_XM p_x1 (OReg p_x2) p_op ((((((T_66 ||| T_MAP6) ||| T_EW0) ||| T_YMM) ||| T_ER_Z) ||| T_MUST_EVEX) ||| T_B16) 0xA8 NONE.
(* xbyak_mnemonic.h:2315 *)
Definition i_vfmadd213sh (p_x1 : Reg) (p_x2 : Reg) (p_op : Operand) : E unit :=
  opAVX_X_X_XM p_x1 (OReg p_x2) p_op (((((T_N2 ||| T_66) ||| T_MAP6) ||| T_EW0) ||| T_ER_X) ||| T_MUST_EVEX) 0xA9 NONE.
(* xbyak_mnemonic.h:2316 *)
Definition i_vfmadd231nepbf16 (p_x1 : Reg) (p_x2 : Reg) (p_op : Operand) : E unit :=
  opAVX_X_X_XM p_x1 (OReg p_x2) p_op ((((T_MAP6 ||| T_EW0) ||| T_YMM) ||| T_MUST_EVEX) ||| T_B16) 0xB8 NONE.
(* xbyak_mnemonic.h:2317 *)
Definition i_vfmadd231ph (p_x1 : Reg) (p_x2 : Reg) (p_op : Operand) : E unit :=
  opAVX_X_X_XM p_x1 (OReg p_x2) p_op ((((((T_66 ||| T_MAP6) ||| T_EW0) ||| T_YMM) ||| T_ER_Z) ||| T_MUST_EVEX) ||| T_B16) 0xB8 NONE.
(* xbyak_mnemonic.h:2318 *)
Definition i_vfmadd231sh (p_x1 : Reg) (p_x2 : Reg) (p_op : Operand) : E unit :=
  opAVX_X_X_XM p_x1 (OReg p_x2) p_op (((((T_N2 ||| T_66) ||| T_MAP6) ||| T_EW0) ||| T_ER_X) ||| T_MUST_EVEX) 0xB9 NONE.
(* xbyak_mnemonic.h:2319 *)
Definition i_vfmaddcph (p_x1 : Reg) (p_x2 : Reg) (p_op : Operand) : E unit :=
  opAVX_X_X_XM p_x1 (OReg p_x2) p_op ((((((T_F3 ||| T_MAP6) ||| T_EW0) ||| T_YMM) ||| T_ER_Z) ||| T_MUST_EVEX) ||| T_B32) 0x56 NONE.
(* xbyak_mnemonic.h:2320 *)
Definition i_vfmaddsub132ph (p_x1 : Reg) (p_x2 : Reg) (p_op : Operand) : E unit :=
  opAVX_X_X_XM p_x1 (OReg p_x2) p_op ((((((T_66 ||| T_MAP6) ||| T_EW0) ||| T_YMM) ||| T_ER_Z) ||| T_MUST_EVEX) ||| T_B16) 0x96 NONE.
(* xbyak_mnemonic.h:2321 *)
Definition i_vfmaddsub213ph (p_x1 : Reg) (p_x2 : Reg) (p_op : Operand) : E unit :=
  opAVX_X_X_XM p_x1 (OReg p_x2) p_op ((((((T_66 ||| T_MAP6) ||| T_EW0) ||| T_YMM) ||| T_ER_Z) ||| T_MUST_EVEX) ||| T_B16) 0xA6 NONE.
(* xbyak_mnemonic.h:2322 *)
Definition i_vfmaddsub231ph (p_x1 : Reg) (p_x2 : Reg) (p_op : Operand) : E unit :=
  opAVX_X_X_XM p_x1 (OReg p_x2) p_op ((((((T_66 ||| T_MAP6) ||| T_EW0) ||| T_YMM) ||| T_ER_Z) ||| T_MUST_EVEX) ||| T_B16) 0xB6 NONE.
(* xbyak_mnemonic.h:2323 *)
Definition i_vfmsub132nepbf16 (p_x1 : Reg) (p_x2 : Reg) (p_op : Operand) : E unit :=
  opAVX_X_X_XM p_x1 (OReg p_x2) p_op ((((T_MAP6 ||| T_EW0) ||| T_YMM) ||| T_MUST_EVEX) ||| T_B16) 0x9A NONE.
(* xbyak_mnemonic.h:2324 *)
Definition i_vfmsub132ph (p_x1 : Reg) (p_x2 : Reg) (p_op : Operand) : E unit :=
  opAVX_X_X_XM p_x1 (OReg p_x2) p_op ((((((T_66 ||| T_MAP6) ||| T_EW0) ||| T_YMM) ||| T_ER_Z) ||| T_MUST_EVEX) ||| T_B16) 0x9A NONE.
(* xbyak_mnemonic.h:2325 *)
Definition i_vfmsub132sh (p_x1 : Reg) (p_x2 : Reg) (p_op : Operand) : E unit :=
  opAVX_X_X_XM p_x1 (OReg p_x2) p_op (((((T_N2 ||| T_66) ||| T_MAP6) ||| T_EW0) ||| T_ER_X) ||| T_MUST_EVEX) 0x9B NONE.
(* xbyak_mnemonic.h:2326 *)
Definition i_vfmsub213nepbf16 (p_x1 : Reg) (p_x2 : Reg) (p_op : Operand) : E unit :=
  opAVX_X_X_XM p_x1 (OReg p_x2) p_op ((((T_MAP6 ||| T_EW0) ||| T_YMM) ||| T_MUST_EVEX) ||| T_B16) 0xAA NONE.
(* xbyak_mnemonic.h:2327 *)
Definition i_vfmsub213ph (p_x1 : Reg) (p_x2 : Reg) (p_op : Operand) : E unit :=
  opAVX_X_X_XM p_x1 (OReg p_x2) p_op ((((((T_66 ||| T_MAP6) ||| T_EW0) ||| T_YMM) ||| T_ER_Z) ||| T_MUST_EVEX) ||| T_B16) 0xAA NONE.
(* xbyak_mnemonic.h:2328 *)
Definition i_vfmsub213sh (p_x1 : Reg) (p_x2 : Reg) (p_op : Operand) : E unit :=
  opAVX_X_X_XM p_x1 (OReg p_x2) p_op (((((T_N2 ||| T_66) ||| T_MAP6) ||| T_EW0) ||| T_ER_X) ||| T_MUST_EVEX) 0xAB NONE.
(* xbyak_mnemonic.h:2329 *)
Definition i_vfmsub231nepbf16 (p_x1 : Reg) (p_x2 : Reg) (p_op : Operand) : E unit :=
  opAVX_X_X_XM p_x1 (OReg p_x2) p_op ((((T_MAP6 ||| T_EW0) ||| T_YMM) ||| T_MUST_EVEX) ||| T_B16) 0xBA NONE.
(* xbyak_mnemonic.h:2330 *)
Definition i_vfmsub231ph (p_x1 : Reg) (p_x2 : Reg) (p_op : Operand) : E unit :=
  opAVX_X_X_XM p_x1 (OReg p_x2) p_op ((((((T_66 ||| T_MAP6) ||| T_EW0) ||| T_YMM) ||| T_ER_Z) ||| T_MUST_EVEX) ||| T_B16) 0xBA NONE.
(* xbyak_mnemonic.h:2331 *)
Definition i_vfmsub231sh (p_x1 : Reg) (p_x2 : Reg) (p_op : Operand) : E unit :=
  opAVX_X_X_XM p_x1 (OReg p_x2) p_op (((((T_N2 ||| T_66) ||| T_MAP6) ||| T_EW0) ||| T_ER_X) ||| T_MUST_EVEX) 0xBB NONE.
(* xbyak_mnemonic.h:2332 *)
Definition i_vfmsubadd132ph (p_x1 : Reg) (p_x2 : Reg) (p_op : Operand) : E unit :=
  opAVX_X_X_XM p_x1 (OReg p_x2) p_op ((((((T_66 ||| T_MAP6) ||| T_EW0) ||| T_YMM) ||| T_ER_Z) ||| T_MUST_EVEX) ||| T_B16) 0x97 NONE.
(* xbyak_mnemonic.h:2333 *)
Definition i_vfmsubadd213ph (p_x1 : Reg) (p_x2 : Reg) (p_op : Operand) : E unit :=
  opAVX_X_X_XM p_x1 (OReg p_x2) p_op ((((((T_66 ||| T_MAP6) ||| T_EW0) ||| T_YMM) ||| T_ER_Z) ||| T_MUST_EVEX) ||| T_B16) 0xA7 NONE.
(* xbyak_mnemonic.h:2334 *)
Definition i_vfmsubadd231ph (p_x1 : Reg) (p_x2 : Reg) (p_op : Operand) : E unit :=
  opAVX_X_X_XM p_x1 (OReg p_x2) p_op ((((((T_66 ||| T_MAP6) ||| T_EW0) ||| T_YMM) ||| T_ER_Z) ||| T_MUST_EVEX) ||| T_B16) 0xB7 NONE.
(* xbyak_mnemonic.h:2335 *)
Definition i_vfmulcph (p_x1 : Reg) (p_x2 : Reg) (p_op : Operand) : E unit :=
  opAVX_X_X_XM p_x1 (OReg p_x2) p_op ((((((T_F3 ||| T_MAP6) ||| T_EW0) ||| T_YMM) ||| T_ER_Z) ||| T_MUST_EVEX) ||| T_B32) 0xD6 NONE.
(* xbyak_mnemonic.h:2336 *)
Definition i_vfnmadd132nepbf16 (p_x1 : Reg) (p_x2 : Reg) (p_op : Operand) : E unit :=
  opAVX_X_X_XM p_x1 (OReg p_x2) p_op ((((T_MAP6 ||| T_EW0) ||| T_YMM) ||| T_MUST_EVEX) ||| T_B16) 0x9C NONE.
(* xbyak_mnemonic.h:2337 *)
Definition i_vfnmadd132ph (p_x1 : Reg) (p_x2 : Reg) (p_op : Operand) : E unit :=
  opAVX_X_X_XM p_x1 (OReg p_x2) p_op ((((((T_66 ||| T_MAP6) ||| T_EW0) ||| T_YMM) ||| T_ER_Z) ||| T_MUST_EVEX) ||| T_B16) 0x9C NONE.
(* xbyak_mnemonic.h:2338 *)
Definition i_vfnmadd132sh (p_x1 : Reg) (p_x2 : Reg) (p_op : Operand) : E unit :=
  opAVX_X_X_XM p_x1 (OReg p_x2) p_op (((((T_N2 ||| T_66) ||| T_MAP6) ||| T_EW0) ||| T_ER_X) ||| T_MUST_EVEX) 0x9D NONE.
(* xbyak_mnemonic.h:2339 *)
Definition i_vfnmadd213nepbf16 (p_x1 : Reg) (p_x2 : Reg) (p_op : Operand) : E unit :=
  opAVX_X_X_XM p_x1 (OReg p_x2) p_op ((((T_MAP6 ||| T_EW0) ||| T_YMM) ||| T_MUST_EVEX) ||| T_B16) 0xAC NONE.
(* xbyak_mnemonic.h:2340 *)
Definition i_vfnmadd213ph (p_x1 : Reg) (p_x2 : Reg) (p_op : Operand) : E unit :=
  opAVX_X_X_XM p_x1 (OReg p_x2) p_op ((((((T_66 ||| T_MAP6) ||| T_EW0) ||| T_YMM) ||| T_ER_Z) ||| T_MUST_EVEX) ||| T_B16) 0xAC NONE.
(* xbyak_mnemonic.h:2341 *)
Definition i_vfnmadd213sh (p_x1 : Reg) (p_x2 : Reg) (p_op : Operand) : E unit :=
  opAVX_X_X_XM p_x1 (OReg p_x2) p_op (((((T_N2 ||| T_66) ||| T_MAP6) ||| T_EW0) ||| T_ER_X) ||| T_MUST_EVEX) 0xAD NONE.
(* xbyak_mnemonic.h:2342 *)
Definition i_vfnmadd231nepbf16 (p_x1 : Reg) (p_x2 : Reg) (p_op : Operand) : E unit :=
  opAVX_X_X_XM p_x1 (OReg p_x2) p_op ((((T_MAP6 ||| T_EW0) ||| T_YMM) ||| T_MUST_EVEX) ||| T_B16) 0xBC NONE.
(* xbyak_mnemonic.h:2343 *)
Definition i_vfnmadd231ph (p_x1 : Reg) (p_x2 : Reg) (p_op : Operand) : E unit :=
  opAVX_X_X_XM p_x1 (OReg p_x2) p_op ((((((T_66 ||| T_MAP6) ||| T_EW0) ||| T_YMM) ||| T_ER_Z) ||| T_MUST_EVEX) ||| T_B16) 0xBC NONE.
(* xbyak_mnemonic.h:2344 *)
Definition i_vfnmadd231sh (p_x1 : Reg) (p_x2 : Reg) (p_op : Operand) : E unit :=
  opAVX_X_X_XM p_x1 (OReg p_x2) p_op (((((T_N2 ||| T_66) ||| T_MAP6) ||| T_EW0) ||| T_ER_X) ||| T_MUST_EVEX) 0xBD NONE.
(* xbyak_mnemonic.h:2345 *)
Definition i_vfnmsub132nepbf16 (p_x1 : Reg) (p_x2 : Reg) (p_op : Operand) : E unit :=
  opAVX_X_X_XM p_x1 (OReg p_x2) p_op ((((T_MAP6 ||| T_EW0) ||| T_YMM) ||| T_MUST_EVEX) ||| T_B16) 0x9E NONE.
(* xbyak_mnemonic.h:2346 *)
Definition i_vfnmsub132ph (p_x1 : Reg) (p_x2 : Reg) (p_op : Operand) : E unit :=
  opAVX_X_X_XM p_x1 (OReg p_x2) p_op ((((((T_66 ||| T_MAP6) ||| T_EW0) ||| T_YMM) ||| T_ER_Z) ||| T_MUST_EVEX) ||| T_B16) 0x9E NONE.
(* xbyak_mnemonic.h:2347 *)
Definition i_vfnmsub132sh (p_x1 : Reg) (p_x2 : Reg) (p_op : Operand) : E unit :=
  opAVX_X_X_XM p_x1 (OReg p_x2) p_op (((((T_N2 ||| T_66) ||| T_MAP6) ||| T_EW0) ||| T_ER_X) ||| T_MUST_EVEX) 0x9F NONE.
(* xbyak_mnemonic.h:2348 *)
Definition i_vfnmsub213nepbf16 (p_x1 : Reg) (p_x2 : Reg) (p_op : Operand) : E unit :=
  opAVX_X_X_XM p_x1 (OReg p_x2) p_op ((((T_MAP6 ||| T_EW0) ||| T_YMM) ||| T_MUST_EVEX) ||| T_B16) 0xAE NONE.
(* xbyak_mnemonic.h:2349 *)
Definition i_vfnmsub213ph (p_x1 : Reg) (p_x2 : Reg) (p_op : Operand) : E unit :=
  opAVX_X_X_XM p_x1 (OReg p_x2) p_op ((((((T_66 ||| T_MAP6) ||| T_EW0) ||| T_YMM) ||| T_ER_Z) ||| T_MUST_EVEX) ||| T_B16) 0xAE NONE.
(* xbyak_mnemonic.h:2350 *)
Definition i_vfnmsub213sh (p_x1 : Reg) (p_x2 : Reg) (p_op : Operand) : E unit :=
  opAVX_X_X_XM p_x1 (OReg p_x2) p_op (((((T_N2 ||| T_66) ||| T_MAP6) ||| T_EW0) ||| T_ER_X) ||| T_MUST_EVEX) 0xAF NONE.
(* xbyak_mnemonic.h:2351 *)
Definition i_vfnmsub231nepbf16 (p_x1 : Reg) (p_x2 : Reg) (p_op : Operand) : E unit :=
  opAVX_X_X_XM p_x1 (OReg p_x2) p_op ((((T_MAP6 ||| T_EW0) ||| T_YMM) ||| T_MUST_EVEX) ||| T_B16) 0xBE NONE.
(* xbyak_mnemonic.h:2352 *)
Definition i_vfnmsub231ph (p_x1 : Reg) (p_x2 : Reg) (p_op : Operand) : E unit :=
  opAVX_X_X_XM p_x1 (OReg p_x2) p_op ((((((T_66 ||| T_MAP6) ||| T_EW0) ||| T_YMM) ||| T_ER_Z) ||| T_MUST_EVEX) ||| T_B16) 0xBE NONE.
(* xbyak_mnemonic.h:2353 *)
Definition i_vfnmsub231sh (p_x1 : Reg) (p_x2 : Reg) (p_op : Operand) : E unit :=
  opAVX_X_X_XM p_x1 (OReg p_x2) p_op (((((T_N2 ||| T_66) ||| T_MAP6) ||| T_EW0) ||| T_ER_X) ||| T_MUST_EVEX) 0xBF NONE.
(* xbyak_mnemonic.h:2354 *)
Definition i_vfpclasspbf16 (p_k : Reg) (p_op : Operand) (p_imm : Z) : E unit :=
  let p_imm := w8 p_imm in t0 <- changeBit p_k (getBit (ob p_op)) ;; opVex t0 None p_op (((((T_MUST_EVEX ||| T_F2) ||| T_0F3A) ||| T_EW0) ||| T_YMM) ||| T_B16) 0x66 p_imm.
(* xbyak_mnemonic.h:2355 *)
Definition i_vfpclasspd (p_k : Reg) (p_op : Operand) (p_imm : Z) : E unit :=
  fn tt (let p_imm := w8 p_imm in if (negb (isBit (ob p_op) ((128 ||| 256) ||| 512))) then throw ERR_BAD_MEM_SIZE else t0 <- changeBit p_k (getBit (ob p_op)) ;; opVex t0 None p_op (((((T_66 ||| T_0F3A) ||| T_MUST_EVEX) ||| T_YMM) ||| T_EW1) ||| T_B64) 0x66 p_imm).
(* xbyak_mnemonic.h:2356 *)
Definition i_vfpclassph (p_k : Reg) (p_op : Operand) (p_imm : Z) : E unit :=
  fn tt (let p_imm := w8 p_imm in if (negb (isBit (ob p_op) ((128 ||| 256) ||| 512))) then throw ERR_BAD_MEM_SIZE else t0 <- changeBit p_k (getBit (ob p_op)) ;; opVex t0 None p_op ((((T_0F3A ||| T_MUST_EVEX) ||| T_YMM) ||| T_EW0) ||| T_B16) 0x66 p_imm).
(* xbyak_mnemonic.h:2357 *)
Definition i_vfpclassps (p_k : Reg) (p_op : Operand) (p_imm : Z) : E unit :=
  fn tt (let p_imm := w8 p_imm in if (negb (isBit (ob p_op) ((128 ||| 256) ||| 512))) then throw ERR_BAD_MEM_SIZE else t0 <- changeBit p_k (getBit (ob p_op)) ;; opVex t0 None p_op (((((T_66 ||| T_0F3A) ||| T_MUST_EVEX) ||| T_YMM) ||| T_EW0) ||| T_B32) 0x66 p_imm).
(* xbyak_mnemonic.h:2358 *)
Definition i_vfpclasssd (p_k : Reg) (p_op : Operand) (p_imm : Z) : E unit :=
  fn tt (let p_imm := w8 p_imm in if (negb (isXMEM (ob p_op))) then throw ERR_BAD_MEM_SIZE else opVex p_k None p_op ((((T_66 ||| T_0F3A) ||| T_MUST_EVEX) ||| T_EW1) ||| T_N8) 0x67 p_imm).
(* xbyak_mnemonic.h:2359 *)
Definition i_vfpclasssh (p_k : Reg) (p_op : Operand) (p_imm : Z) : E unit :=
  fn tt (let p_imm := w8 p_imm in if (negb (isXMEM (ob p_op))) then throw ERR_BAD_MEM_SIZE else opVex p_k None p_op (((T_0F3A ||| T_MUST_EVEX) ||| T_EW0) ||| T_N2) 0x67 p_imm).
(* xbyak_mnemonic.h:2360 *)
Definition i_vfpclassss (p_k : Reg) (p_op : Operand) (p_imm : Z) : E unit :=
  fn tt (let p_imm := w8 p_imm in if (negb (isXMEM (ob p_op))) then throw ERR_BAD_MEM_SIZE else opVex p_k None p_op ((((T_66 ||| T_0F3A) ||| T_MUST_EVEX) ||| T_EW0) ||| T_N4) 0x67 p_imm).
(* xbyak_mnemonic.h:2361 *)
Definition i_vgatherdpd_xa (p_x : Reg) (p_addr : Address) : E unit :=
  opGather2 p_x p_addr ((((((T_N8 ||| T_66) ||| T_0F38) ||| T_EW1) ||| T_YMM) ||| T_MUST_EVEX) ||| T_VSIB) 0x92 1.
(* xbyak_mnemonic.h:2362 *)
Definition i_vgatherdps_xa (p_x : Reg) (p_addr : Address) : E unit :=
  opGather2 p_x p_addr ((((((T_N4 ||| T_66) ||| T_0F38) ||| T_EW0) ||| T_YMM) ||| T_MUST_EVEX) ||| T_VSIB) 0x92 0.
(* xbyak_mnemonic.h:2363 *)
Definition i_vgatherpf0dpd (p_addr : Address) : E unit :=
  opGatherFetch p_addr (Zmm 1) ((((((T_N8 ||| T_66) ||| T_0F38) ||| T_EW1) ||| T_MUST_EVEX) ||| T_M_K) ||| T_VSIB) 0xC6 YMM.
(* xbyak_mnemonic.h:2364 *)
Definition i_vgatherpf0dps (p_addr : Address) : E unit :=
  opGatherFetch p_addr (Zmm 1) ((((((T_N4 ||| T_66) ||| T_0F38) ||| T_EW0) ||| T_MUST_EVEX) ||| T_M_K) ||| T_VSIB) 0xC6 ZMM.
(* xbyak_mnemonic.h:2365 *)
Definition i_vgatherpf0qpd (p_addr : Address) : E unit :=
  opGatherFetch p_addr (Zmm 1) ((((((T_N8 ||| T_66) ||| T_0F38) ||| T_EW1) ||| T_MUST_EVEX) ||| T_M_K) ||| T_VSIB) 0xC7 ZMM.
(* xbyak_mnemonic.h:2366 *)
Definition i_vgatherpf0qps (p_addr : Address) : E unit :=
  opGatherFetch p_addr (Zmm 1) ((((((T_N4 ||| T_66) ||| T_0F38) ||| T_EW0) ||| T_MUST_EVEX) ||| T_M_K) ||| T_VSIB) 0xC7 ZMM.
(* xbyak_mnemonic.h:2367 *)
Definition i_vgatherpf1dpd (p_addr : Address) : E unit :=
  opGatherFetch p_addr (Zmm 2) ((((((T_N8 ||| T_66) ||| T_0F38) ||| T_EW1) ||| T_MUST_EVEX) ||| T_M_K) ||| T_VSIB) 0xC6 YMM.
(* xbyak_mnemonic.h:2368 *)
Definition i_vgatherpf1dps (p_addr : Address) : E unit :=
  opGatherFetch p_addr (Zmm 2) ((((((T_N4 ||| T_66) ||| T_0F38) ||| T_EW0) ||| T_MUST_EVEX) ||| T_M_K) ||| T_VSIB) 0xC6 ZMM.
(* xbyak_mnemonic.h:2369 *)
Definition i_vgatherpf1qpd (p_addr : Address) : E unit :=
  opGatherFetch p_addr (Zmm 2) ((((((T_N8 ||| T_66) ||| T_0F38) ||| T_EW1) ||| T_MUST_EVEX) ||| T_M_K) ||| T_VSIB) 0xC7 ZMM.
(* xbyak_mnemonic.h:2370 *)
Definition i_vgatherpf1qps (p_addr : Address) : E unit :=
  opGatherFetch p_addr (Zmm 2) ((((((T_N4 ||| T_66) ||| T_0F38) ||| T_EW0) ||| T_MUST_EVEX) ||| T_M_K) ||| T_VSIB) 0xC7 ZMM.
(* xbyak_mnemonic.h:2371 *)
Definition i_vgatherqpd_xa (p_x : Reg) (p_addr : Address) : E unit :=
  opGather2 p_x p_addr ((((((T_N8 ||| T_66) ||| T_0F38) ||| T_EW1) ||| T_YMM) ||| T_MUST_EVEX) ||| T_VSIB) 0x93 0.
(* xbyak_mnemonic.h:2372 *)
Definition i_vgatherqps_xa (p_x : Reg) (p_addr : Address) : E unit :=
  opGather2 p_x p_addr ((((((T_N4 ||| T_66) ||| T_0F38) ||| T_EW0) ||| T_YMM) ||| T_MUST_EVEX) ||| T_VSIB) 0x93 2.
(* xbyak_mnemonic.h:2373 *)
Definition i_vgetexppbf16 (p_x : Reg) (p_op : Operand) : E unit :=
  opAVX_X_XM_IMM p_x p_op ((((T_MAP6 ||| T_EW0) ||| T_YMM) ||| T_MUST_EVEX) ||| T_B16) 0x42 NONE.
(* xbyak_mnemonic.h:2374 *)
Definition i_vgetexppd (p_x : Reg) (p_op : Operand) : E unit :=
  opAVX_X_XM_IMM p_x p_op ((((((T_66 ||| T_0F38) ||| T_EW1) ||| T_YMM) ||| T_SAE_Z) ||| T_MUST_EVEX) ||| T_B64) 0x42 NONE.
(* xbyak_mnemonic.h:2375 *)
Definition i_vgetexpph (p_x : Reg) (p_op : Operand) : E unit :=
  opAVX_X_XM_IMM p_x p_op ((((((T_66 ||| T_MAP6) ||| T_EW0) ||| T_YMM) ||| T_SAE_Z) ||| T_MUST_EVEX) ||| T_B16) 0x42 NONE.
(* xbyak_mnemonic.h:2376 *)
Definition i_vgetexpps (p_x : Reg) (p_op : Operand) : E unit :=
  opAVX_X_XM_IMM p_x p_op ((((((T_66 ||| T_0F38) ||| T_EW0) ||| T_YMM) ||| T_SAE_Z) ||| T_MUST_EVEX) ||| T_B32) 0x42 NONE.
(* xbyak_mnemonic.h:2377 *)
Definition i_vgetexpsd (p_x1 : Reg) (p_x2 : Reg) (p_op : Operand) : E unit :=
  opAVX_X_X_XM p_x1 (OReg p_x2) p_op (((((T_N8 ||| T_66) ||| T_0F38) ||| T_EW1) ||| T_SAE_X) ||| T_MUST_EVEX) 0x43 NONE.
(* xbyak_mnemonic.h:2378 *)
Definition i_vgetexpsh (p_x1 : Reg) (p_x2 : Reg) (p_op : Operand) : E unit :=
  opAVX_X_X_XM p_x1 (OReg p_x2) p_op (((((T_N2 ||| T_66) ||| T_MAP6) ||| T_EW0) ||| T_SAE_X) ||| T_MUST_EVEX) 0x43 NONE.
(* xbyak_mnemonic.h:2379 *)
Definition i_vgetexpss (p_x1 : Reg) (p_x2 : Reg) (p_op : Operand) : E unit :=
  opAVX_X_X_XM p_x1 (OReg p_x2) p_op (((((T_N4 ||| T_66) ||| T_0F38) ||| T_EW0) ||| T_SAE_X) ||| T_MUST_EVEX) 0x43 NONE.
(* xbyak_mnemonic.h:2380 *)
Definition i_vgetmantpbf16 (p_x : Reg) (p_op : Operand) (p_imm : Z) : E unit :=
  let p_imm := w8 p_imm in opAVX_X_XM_IMM p_x p_op (((((T_F2 ||| T_0F3A) ||| T_EW0) ||| T_YMM) ||| T_MUST_EVEX) ||| T_B16) 0x26 p_imm.
(* xbyak_mnemonic.h:2381 *)
Definition i_vgetmantpd (p_x : Reg) (p_op : Operand) (p_imm : Z) : E unit :=
  let p_imm := w8 p_imm in opAVX_X_XM_IMM p_x p_op ((((((T_66 ||| T_0F3A) ||| T_EW1) ||| T_YMM) ||| T_SAE_Z) ||| T_MUST_EVEX) ||| T_B64) 0x26 p_imm.
(* xbyak_mnemonic.h:2382 *)
Definition i_vgetmantph (p_x : Reg) (p_op : Operand) (p_imm : Z) : E unit :=
  let p_imm := w8 p_imm in opAVX_X_XM_IMM p_x p_op (((((T_0F3A ||| T_EW0) ||| T_YMM) ||| T_SAE_Z) ||| T_MUST_EVEX) ||| T_B16) 0x26 p_imm.
(* xbyak_mnemonic.h:2383 *)
Definition i_vgetmantps (p_x : Reg) (p_op : Operand) (p_imm : Z) : E unit :=
  let p_imm := w8 p_imm in opAVX_X_XM_IMM p_x p_op ((((((T_66 ||| T_0F3A) ||| T_EW0) ||| T_YMM) ||| T_SAE_Z) ||| T_MUST_EVEX) ||| T_B32) 0x26 p_imm.
(* xbyak_mnemonic.h:2384 *)
Definition i_vgetmantsd (p_x1 : Reg) (p_x2 : Reg) (p_op : Operand) (p_imm : Z) : E unit :=
  let p_imm := w8 p_imm in opAVX_X_X_XM p_x1 (OReg p_x2) p_op (((((T_N8 ||| T_66) ||| T_0F3A) ||| T_EW1) ||| T_SAE_X) ||| T_MUST_EVEX) 0x27 p_imm.
(* xbyak_mnemonic.h:2385 *)
Definition i_vgetmantsh (p_x1 : Reg) (p_x2 : Reg) (p_op : Operand) (p_imm : Z) : E unit :=
  let p_imm := w8 p_imm in opAVX_X_X_XM p_x1 (OReg p_x2) p_op ((((T_N2 ||| T_0F3A) ||| T_EW0) ||| T_SAE_X) ||| T_MUST_EVEX) 0x27 p_imm.
(* xbyak_mnemonic.h:2386 *)
Definition i_vgetmantss (p_x1 : Reg) (p_x2 : Reg) (p_op : Operand) (p_imm : Z) : E unit :=
  let p_imm := w8 p_imm in opAVX_X_X_XM p_x1 (OReg p_x2) p_op (((((T_N4 ||| T_66) ||| T_0F3A) ||| T_EW0) ||| T_SAE_X) ||| T_MUST_EVEX) 0x27 p_imm.
(* xbyak_mnemonic.h:2387 *)
Definition i_vinsertf32x4 (p_r1 : Reg) (p_r2 : Reg) (p_op : Operand) (p_imm : Z) : E unit :=
  fn tt (let p_imm := w8 p_imm in if (negb (((kind_ p_r1) =? (kind_ p_r2)) && (is_ (ob p_op) (MEM ||| XMM) 0))) then throw ERR_BAD_COMBINATION else opVex p_r1 (Some p_r2) p_op (((((T_N16 ||| T_66) ||| T_0F3A) ||| T_EW0) ||| T_YMM) ||| T_MUST_EVEX) 0x18 p_imm).
(* xbyak_mnemonic.h:2388 *)
Definition i_vinsertf32x8 (p_r1 : Reg) (p_r2 : Reg) (p_op : Operand) (p_imm : Z) : E unit :=
  fn tt (let p_imm := w8 p_imm in if (negb (is_ (ob p_op) (MEM ||| YMM) 0)) then throw ERR_BAD_COMBINATION else opVex p_r1 (Some p_r2) p_op (((((T_N32 ||| T_66) ||| T_0F3A) ||| T_EW0) ||| T_YMM) ||| T_MUST_EVEX) 0x1A p_imm).
(* xbyak_mnemonic.h:2389 *)
Definition i_vinsertf64x2 (p_r1 : Reg) (p_r2 : Reg) (p_op : Operand) (p_imm : Z) : E unit :=
  fn tt (let p_imm := w8 p_imm in if (negb (((kind_ p_r1) =? (kind_ p_r2)) && (is_ (ob p_op) (MEM ||| XMM) 0))) then throw ERR_BAD_COMBINATION else opVex p_r1 (Some p_r2) p_op (((((T_N16 ||| T_66) ||| T_0F3A) ||| T_EW1) ||| T_YMM) ||| T_MUST_EVEX) 0x18 p_imm).
(* xbyak_mnemonic.h:2390 *)
Definition i_vinsertf64x4 (p_r1 : Reg) (p_r2 : Reg) (p_op : Operand) (p_imm : Z) : E unit :=
  fn tt (let p_imm := w8 p_imm in if (negb (is_ (ob p_op) (MEM ||| YMM) 0)) then throw ERR_BAD_COMBINATION else opVex p_r1 (Some p_r2) p_op (((((T_N32 ||| T_66) ||| T_0F3A) ||| T_EW1) ||| T_YMM) ||| T_MUST_EVEX) 0x1A p_imm).
(* xbyak_mnemonic.h:2391 *)
Definition i_vinserti32x4 (p_r1 : Reg) (p_r2 : Reg) (p_op : Operand) (p_imm : Z) : E unit :=
  fn tt (let p_imm := w8 p_imm in if (negb (((kind_ p_r1) =? (kind_ p_r2)) && (is_ (ob p_op) (MEM ||| XMM) 0))) then throw ERR_BAD_COMBINATION else opVex p_r1 (Some p_r2) p_op (((((T_N16 ||| T_66) ||| T_0F3A) ||| T_EW0) ||| T_YMM) ||| T_MUST_EVEX) 0x38 p_imm).
(* xbyak_mnemonic.h:2392 *)
Definition i_vinserti32x8 (p_r1 : Reg) (p_r2 : Reg) (p_op : Operand) (p_imm : Z) : E unit :=
  fn tt (let p_imm := w8 p_imm in if (negb (is_ (ob p_op) (MEM ||| YMM) 0)) then throw ERR_BAD_COMBINATION else opVex p_r1 (Some p_r2) p_op (((((T_N32 ||| T_66) ||| T_0F3A) ||| T_EW0) ||| T_YMM) ||| T_MUST_EVEX) 0x3A p_imm).
(* xbyak_mnemonic.h:2393 *)
Definition i_vinserti64x2 (p_r1 : Reg) (p_r2 : Reg) (p_op : Operand) (p_imm : Z) : E unit :=
  fn tt (let p_imm := w8 p_imm in if (negb (((kind_ p_r1) =? (kind_ p_r2)) && (is_ (ob p_op) (MEM ||| XMM) 0))) then throw ERR_BAD_COMBINATION else opVex p_r1 (Some p_r2) p_op (((((T_N16 ||| T_66) ||| T_0F3A) ||| T_EW1) ||| T_YMM) ||| T_MUST_EVEX) 0x38 p_imm).
(* xbyak_mnemonic.h:2394 *)
Definition i_vinserti64x4 (p_r1 : Reg) (p_r2 : Reg) (p_op : Operand) (p_imm : Z) : E unit :=
  fn tt (let p_imm := w8 p_imm in if (negb (is_ (ob p_op) (MEM ||| YMM) 0)) then throw ERR_BAD_COMBINATION else opVex p_r1 (Some p_r2) p_op (((((T_N32 ||| T_66) ||| T_0F3A) ||| T_EW1) ||| T_YMM) ||| T_MUST_EVEX) 0x3A p_imm).
(* xbyak_mnemonic.h:2395 *)
Definition i_vmaxpbf16 (p_x1 : Reg) (p_x2 : Reg) (p_op : Operand) : E unit :=
  opAVX_X_X_XM p_x1 (OReg p_x2) p_op (((((T_66 ||| T_MAP5) ||| T_EW0) ||| T_YMM) ||| T_MUST_EVEX) ||| T_B16) 0x5F NONE.
(* xbyak_mnemonic.h:2396 *)
Definition i_vmaxph (p_xmm : Reg) (p_op1 : Operand) (p_op2 : Operand) : E unit :=
  opAVX_X_X_XM p_xmm p_op1 p_op2 (((((T_MAP5 ||| T_EW0) ||| T_YMM) ||| T_MUST_EVEX) ||| T_SAE_Z) ||| T_B16) 0x5F NONE.
(* xbyak_mnemonic.h:2397 *)
Definition i_vmaxsh (p_xmm : Reg) (p_op1 : Operand) (p_op2 : Operand) : E unit :=
  opAVX_X_X_XM p_xmm p_op1 p_op2 (((((T_MAP5 ||| T_F3) ||| T_EW0) ||| T_MUST_EVEX) ||| T_SAE_X) ||| T_N2) 0x5F NONE.
(* xbyak_mnemonic.h:2398 *)
Definition i_vminmaxnepbf16 (p_x1 : Reg) (p_x2 : Reg) (p_op : Operand) (p_imm : Z) : E unit :=
  let p_imm := w8 p_imm in opAVX_X_X_XM p_x1 (OReg p_x2) p_op (((((T_F2 ||| T_0F3A) ||| T_EW0) ||| T_YMM) ||| T_MUST_EVEX) ||| T_B16) 0x52 p_imm.
(* xbyak_mnemonic.h:2399 *)
Definition i_vminmaxpd (p_x1 : Reg) (p_x2 : Reg) (p_op : Operand) (p_imm : Z) : E unit :=
  let p_imm := w8 p_imm in opAVX_X_X_XM p_x1 (OReg p_x2) p_op (((((((T_66 ||| T_0F3A) ||| T_EW1) ||| T_YMM) ||| T_SAE_Y) ||| T_SAE_Z) ||| T_MUST_EVEX) ||| T_B64) 0x52 p_imm.
(* xbyak_mnemonic.h:2400 *)
Definition i_vminmaxph (p_x1 : Reg) (p_x2 : Reg) (p_op : Operand) (p_imm : Z) : E unit :=
  let p_imm := w8 p_imm in opAVX_X_X_XM p_x1 (OReg p_x2) p_op ((((((T_0F3A ||| T_EW0) ||| T_YMM) ||| T_SAE_Y) ||| T_SAE_Z) ||| T_MUST_EVEX) ||| T_B16) 0x52 p_imm.
(* xbyak_mnemonic.h:2401 *)
Definition i_vminmaxps (p_x1 : Reg) (p_x2 : Reg) (p_op : Operand) (p_imm : Z) : E unit :=
  let p_imm := w8 p_imm in opAVX_X_X_XM p_x1 (OReg p_x2) p_op (((((((T_66 ||| T_0F3A) ||| T_EW0) ||| T_YMM) ||| T_SAE_Y) ||| T_SAE_Z) ||| T_MUST_EVEX) ||| T_B32) 0x52 p_imm.
(* xbyak_mnemonic.h:2402 *)
Definition i_vminmaxsd (p_x1 : Reg) (p_x2 : Reg) (p_op : Operand) (p_imm : Z) : E unit :=
  let p_imm := w8 p_imm in opAVX_X_X_XM p_x1 (OReg p_x2) p_op (((((T_N8 ||| T_66) ||| T_0F3A) ||| T_EW1) ||| T_SAE_X) ||| T_MUST_EVEX) 0x53 p_imm.
(* xbyak_mnemonic.h:2403 *)
Definition i_vminmaxsh (p_x1 : Reg) (p_x2 : Reg) (p_op : Operand) (p_imm : Z) : E unit :=
  let p_imm := w8 p_imm in opAVX_X_X_XM p_x1 (OReg p_x2) p_op ((((T_N2 ||| T_0F3A) ||| T_EW0) ||| T_SAE_X) ||| T_MUST_EVEX) 0x53 p_imm.
(* xbyak_mnemonic.h:2404 *)
Definition i_vminmaxss (p_x1 : Reg) (p_x2 : Reg) (p_op : Operand) (p_imm : Z) : E unit :=
  let p_imm := w8 p_imm in opAVX_X_X_XM p_x1 (OReg p_x2) p_op (((((T_N4 ||| T_66) ||| T_0F3A) ||| T_EW0) ||| T_SAE_X) ||| T_MUST_EVEX) 0x53 p_imm.
(* xbyak_mnemonic.h:2405 *)
Definition i_vminpbf16 (p_x1 : Reg) (p_x2 : Reg) (p_op : Operand) : E unit :=
  opAVX_X_X_XM p_x1 (OReg p_x2) p_op (((((T_66 ||| T_MAP5) ||| T_EW0) ||| T_YMM) ||| T_MUST_EVEX) ||| T_B16) 0x5D NONE.
(* xbyak_mnemonic.h:2406 *)
Definition i_vminph (p_xmm : Reg) (p_op1 : Operand) (p_op2 : Operand) : E unit :=
  opAVX_X_X_XM p_xmm p_op1 p_op2 (((((T_MAP5 ||| T_EW0) ||| T_YMM) ||| T_MUST_EVEX) ||| T_SAE_Z) ||| T_B16) 0x5D NONE.
(* xbyak_mnemonic.h:2407 *)
Definition i_vminsh (p_xmm : Reg) (p_op1 : Operand) (p_op2 : Operand) : E unit :=
  opAVX_X_X_XM p_xmm p_op1 p_op2 (((((T_MAP5 ||| T_F3) ||| T_EW0) ||| T_MUST_EVEX) ||| T_SAE_X) ||| T_N2) 0x5D NONE.
(* xbyak_mnemonic.h:2408 *)
Definition i_vmovdqa32_ax (p_addr : Address) (p_x : Reg) : E unit :=
  opAVX_X_XM_IMM p_x (OMem p_addr) ((((((((T_66 ||| T_0F) ||| T_EW0) ||| T_YMM) ||| T_ER_X) ||| T_ER_Y) ||| T_ER_Z) ||| T_MUST_EVEX) ||| T_M_K) 0x7F NONE.
(* xbyak_mnemonic.h:2409 *)
Definition i_vmovdqa32_xo (p_x : Reg) (p_op : Operand) : E unit :=
  opAVX_X_XM_IMM p_x p_op (((((((T_66 ||| T_0F) ||| T_EW0) ||| T_YMM) ||| T_ER_X) ||| T_ER_Y) ||| T_ER_Z) ||| T_MUST_EVEX) 0x6F NONE.
(* xbyak_mnemonic.h:2410 *)
Definition i_vmovdqa64_ax (p_addr : Address) (p_x : Reg) : E unit :=
  opAVX_X_XM_IMM p_x (OMem p_addr) ((((((((T_66 ||| T_0F) ||| T_EW1) ||| T_YMM) ||| T_ER_X) ||| T_ER_Y) ||| T_ER_Z) ||| T_MUST_EVEX) ||| T_M_K) 0x7F NONE.
(* xbyak_mnemonic.h:2411 *)
Definition i_vmovdqa64_xo (p_x : Reg) (p_op : Operand) : E unit :=
  opAVX_X_XM_IMM p_x p_op (((((((T_66 ||| T_0F) ||| T_EW1) ||| T_YMM) ||| T_ER_X) ||| T_ER_Y) ||| T_ER_Z) ||| T_MUST_EVEX) 0x6F NONE.
(* xbyak_mnemonic.h:2412 *)
Definition i_vmovdqu16_ax (p_addr : Address) (p_x : Reg) : E unit :=
  opAVX_X_XM_IMM p_x (OMem p_addr) ((((((((T_F2 ||| T_0F) ||| T_EW1) ||| T_YMM) ||| T_ER_X) ||| T_ER_Y) ||| T_ER_Z) ||| T_MUST_EVEX) ||| T_M_K) 0x7F NONE.
(* xbyak_mnemonic.h:2413 *)
Definition i_vmovdqu16_xo (p_x : Reg) (p_op : Operand) : E unit :=
  opAVX_X_XM_IMM p_x p_op (((((((T_F2 ||| T_0F) ||| T_EW1) ||| T_YMM) ||| T_ER_X) ||| T_ER_Y) ||| T_ER_Z) ||| T_MUST_EVEX) 0x6F NONE.
(* xbyak_mnemonic.h:2414 *)
Definition i_vmovdqu32_ax (p_addr : Address) (p_x : Reg) : E unit :=
  opAVX_X_XM_IMM p_x (OMem p_addr) ((((((((T_F3 ||| T_0F) ||| T_EW0) ||| T_YMM) ||| T_ER_X) ||| T_ER_Y) ||| T_ER_Z) ||| T_MUST_EVEX) ||| T_M_K) 0x7F NONE.
(* xbyak_mnemonic.h:2415 *)
Definition i_vmovdqu32_xo (p_x : Reg) (p_op : Operand) : E unit :=
  opAVX_X_XM_IMM p_x p_op (((((((T_F3 ||| T_0F) ||| T_EW0) ||| T_YMM) ||| T_ER_X) ||| T_ER_Y) ||| T_ER_Z) ||| T_MUST_EVEX) 0x6F NONE.
(* xbyak_mnemonic.h:2416 *)
Definition i_vmovdqu64_ax (p_addr : Address) (p_x : Reg) : E unit :=
  opAVX_X_XM_IMM p_x (OMem p_addr) ((((((((T_F3 ||| T_0F) ||| T_EW1) ||| T_YMM) ||| T_ER_X) ||| T_ER_Y) ||| T_ER_Z) ||| T_MUST_EVEX) ||| T_M_K) 0x7F NONE.
(* xbyak_mnemonic.h:2417 *)
Definition i_vmovdqu64_xo (p_x : Reg) (p_op : Operand) : E unit :=
  opAVX_X_XM_IMM p_x p_op (((((((T_F3 ||| T_0F) ||| T_EW1) ||| T_YMM) ||| T_ER_X) ||| T_ER_Y) ||| T_ER_Z) ||| T_MUST_EVEX) 0x6F NONE.
(* xbyak_mnemonic.h:2418 *)
Definition i_vmovdqu8_ax (p_addr : Address) (p_x : Reg) : E unit :=
  opAVX_X_XM_IMM p_x (OMem p_addr) ((((((((T_F2 ||| T_0F) ||| T_EW0) ||| T_YMM) ||| T_ER_X) ||| T_ER_Y) ||| T_ER_Z) ||| T_MUST_EVEX) ||| T_M_K) 0x7F NONE.
(* xbyak_mnemonic.h:2419 *)
Definition i_vmovdqu8_xo (p_x : Reg) (p_op : Operand) : E unit :=
  opAVX_X_XM_IMM p_x p_op (((((((T_F2 ||| T_0F) ||| T_EW0) ||| T_YMM) ||| T_ER_X) ||| T_ER_Y) ||| T_ER_Z) ||| T_MUST_EVEX) 0x6F NONE.
(* xbyak_mnemonic.h:2420 *)
Definition i_vmovsh_ax (p_addr : Address) (p_x : Reg) : E unit :=
  opAVX_X_XM_IMM p_x (OMem p_addr) (((((T_N2 ||| T_F3) ||| T_MAP5) ||| T_EW0) ||| T_MUST_EVEX) ||| T_M_K) 0x11 NONE.
(* xbyak_mnemonic.h:2421 *)
Definition i_vmovsh_xa (p_x : Reg) (p_addr : Address) : E unit :=
  opAVX_X_X_XM p_x (OReg (Xmm 0)) (OMem p_addr) ((((T_N2 ||| T_F3) ||| T_MAP5) ||| T_EW0) ||| T_MUST_EVEX) 0x10 NONE.
(* xbyak_mnemonic.h:2422 *)
Definition i_vmovsh_xxx (p_x1 : Reg) (p_x2 : Reg) (p_x3 : Reg) : E unit :=
  opAVX_X_X_XM p_x1 (OReg p_x2) (OReg p_x3) ((((T_N2 ||| T_F3) ||| T_MAP5) ||| T_EW0) ||| T_MUST_EVEX) 0x10 NONE.
(* xbyak_mnemonic.h:2424 *)
Definition i_vmulnepbf16 (p_x1 : Reg) (p_x2 : Reg) (p_op : Operand) : E unit :=
  opAVX_X_X_XM p_x1 (OReg p_x2) p_op (((((T_66 ||| T_MAP5) ||| T_EW0) ||| T_YMM) ||| T_MUST_EVEX) ||| T_B16) 0x59 NONE.
(* xbyak_mnemonic.h:2425 *)
Definition i_vmulph (p_xmm : Reg) (p_op1 : Operand) (p_op2 : Operand) : E unit :=
  opAVX_X_X_XM p_xmm p_op1 p_op2 (((((T_MAP5 ||| T_EW0) ||| T_YMM) ||| T_MUST_EVEX) ||| T_ER_Z) ||| T_B16) 0x59 NONE.
(* xbyak_mnemonic.h:2426 *)
Definition i_vmulsh (p_xmm : Reg) (p_op1 : Operand) (p_op2 : Operand) : E unit :=
  opAVX_X_X_XM p_xmm p_op1 p_op2 (((((T_MAP5 ||| T_F3) ||| T_EW0) ||| T_MUST_EVEX) ||| T_ER_X) ||| T_N2) 0x59 NONE.
(* xbyak_mnemonic.h:2427 *)
Definition i_vp2intersectd (p_k : Reg) (p_x : Reg) (p_op : Operand) : E unit :=
  fn tt (if (negb ((mask_ p_k) =? 0)) then throw ERR_OPMASK_IS_ALREADY_SET else opAVX_K_X_XM p_k p_x p_op (((((T_F2 ||| T_0F38) ||| T_YMM) ||| T_EVEX) ||| T_EW0) ||| T_B32) 0x68 NONE).
(* xbyak_mnemonic.h:2428 *)
Definition i_vp2intersectq (p_k : Reg) (p_x : Reg) (p_op : Operand) : E unit :=
  fn tt (if (negb ((mask_ p_k) =? 0)) then throw ERR_OPMASK_IS_ALREADY_SET else opAVX_K_X_XM p_k p_x p_op (((((T_F2 ||| T_0F38) ||| T_YMM) ||| T_EVEX) ||| T_EW1) ||| T_B64) 0x68 NONE).
(* xbyak_mnemonic.h:2429 *)
Definition i_vp4dpwssd (p_z1 : Reg) (p_z2 : Reg) (p_addr : Address) : E unit :=
  opAVX_X_X_XM p_z1 (OReg p_z2) (OMem p_addr) (((((T_0F38 ||| T_F2) ||| T_EW0) ||| T_YMM) ||| T_MUST_EVEX) ||| T_N16) 0x52 NONE.
(* xbyak_mnemonic.h:2430 *)
Definition i_vp4dpwssds (p_z1 : Reg) (p_z2 : Reg) (p_addr : Address) : E unit :=
  opAVX_X_X_XM p_z1 (OReg p_z2) (OMem p_addr) (((((T_0F38 ||| T_F2) ||| T_EW0) ||| T_YMM) ||| T_MUST_EVEX) ||| T_N16) 0x53 NONE.
(* xbyak_mnemonic.h:2431 *)
Definition i_vpabsq (p_x : Reg) (p_op : Operand) : E unit :=
  opAVX_X_XM_IMM p_x p_op (((((T_66 ||| T_0F38) ||| T_MUST_EVEX) ||| T_EW1) ||| T_B64) ||| T_YMM) 0x1F NONE.
(* xbyak_mnemonic.h:2432 *)
Definition i_vpandd (p_x1 : Reg) (p_x2 : Reg) (p_op : Operand) : E unit :=
  opAVX_X_X_XM p_x1 (OReg p_x2) p_op (((((T_66 ||| T_0F) ||| T_EW0) ||| T_YMM) ||| T_MUST_EVEX) ||| T_B32) 0xDB NONE.
(* xbyak_mnemonic.h:2433 *)
Definition i_vpandnd (p_x1 : Reg) (p_x2 : Reg) (p_op : Operand) : E unit :=
  opAVX_X_X_XM p_x1 (OReg p_x2) p_op (((((T_66 ||| T_0F) ||| T_EW0) ||| T_YMM) ||| T_MUST_EVEX) ||| T_B32) 0xDF NONE.
(* xbyak_mnemonic.h:2434 *)
Definition i_vpandnq (p_x1 : Reg) (p_x2 : Reg) (p_op : Operand) : E unit :=
  opAVX_X_X_XM p_x1 (OReg p_x2) p_op (((((T_66 ||| T_0F) ||| T_EW1) ||| T_YMM) ||| T_MUST_EVEX) ||| T_B64) 0xDF NONE.
(* xbyak_mnemonic.h:2435 *)
Definition i_vpandq (p_x1 : Reg) (p_x2 : Reg) (p_op : Operand) : E unit :=
  opAVX_X_X_XM p_x1 (OReg p_x2) p_op (((((T_66 ||| T_0F) ||| T_EW1) ||| T_YMM) ||| T_MUST_EVEX) ||| T_B64) 0xDB NONE.
(* xbyak_mnemonic.h:2436 *)
Definition i_vpblendmb (p_x1 : Reg) (p_x2 : Reg) (p_op : Operand) : E unit :=
  opAVX_X_X_XM p_x1 (OReg p_x2) p_op ((((T_66 ||| T_0F38) ||| T_EW0) ||| T_YMM) ||| T_MUST_EVEX) 0x66 NONE.
(* xbyak_mnemonic.h:2437 *)
Definition i_vpblendmd (p_x1 : Reg) (p_x2 : Reg) (p_op : Operand) : E unit :=
  opAVX_X_X_XM p_x1 (OReg p_x2) p_op (((((T_66 ||| T_0F38) ||| T_EW0) ||| T_YMM) ||| T_MUST_EVEX) ||| T_B32) 0x64 NONE.
(* xbyak_mnemonic.h:2438 *)
Definition i_vpblendmq (p_x1 : Reg) (p_x2 : Reg) (p_op : Operand) : E unit :=
  opAVX_X_X_XM p_x1 (OReg p_x2) p_op (((((T_66 ||| T_0F38) ||| T_EW1) ||| T_YMM) ||| T_MUST_EVEX) ||| T_B64) 0x64 NONE.
(* xbyak_mnemonic.h:2439 *)
Definition i_vpblendmw (p_x1 : Reg) (p_x2 : Reg) (p_op : Operand) : E unit :=
  opAVX_X_X_XM p_x1 (OReg p_x2) p_op ((((T_66 ||| T_0F38) ||| T_EW1) ||| T_YMM) ||| T_MUST_EVEX) 0x66 NONE.
(* xbyak_mnemonic.h:2440 *)
Definition i_vpbroadcastb_xb (p_x : Reg) (p_r : Reg) : E unit :=
  opVex p_x None (OReg p_r) ((((T_66 ||| T_0F38) ||| T_EW0) ||| T_YMM) ||| T_MUST_EVEX) 0x7A NONE.
(* xbyak_mnemonic.h:2441 *)
Definition i_vpbroadcastd_xd (p_x : Reg) (p_r : Reg) : E unit :=
  opVex p_x None (OReg p_r) ((((T_66 ||| T_0F38) ||| T_EW0) ||| T_YMM) ||| T_MUST_EVEX) 0x7C NONE.
(* xbyak_mnemonic.h:2442 *)
Definition i_vpbroadcastmb2q (p_x : Reg) (p_k : Reg) : E unit :=
  opVex p_x None (OReg p_k) ((((T_F3 ||| T_0F38) ||| T_YMM) ||| T_MUST_EVEX) ||| T_EW1) 0x2A NONE.
(* xbyak_mnemonic.h:2443 *)
Definition i_vpbroadcastmw2d (p_x : Reg) (p_k : Reg) : E unit :=
  opVex p_x None (OReg p_k) ((((T_F3 ||| T_0F38) ||| T_YMM) ||| T_MUST_EVEX) ||| T_EW0) 0x3A NONE.
(* xbyak_mnemonic.h:2444 *)
Definition i_vpbroadcastw_xw (p_x : Reg) (p_r : Reg) : E unit :=
  opVex p_x None (OReg p_r) ((((T_66 ||| T_0F38) ||| T_EW0) ||| T_YMM) ||| T_MUST_EVEX) 0x7B NONE.
(* xbyak_mnemonic.h:2445 *)
Definition i_vpcmpb (p_k : Reg) (p_x : Reg) (p_op : Operand) (p_imm : Z) : E unit :=
  let p_imm := w8 p_imm in opAVX_K_X_XM p_k p_x p_op ((((T_66 ||| T_0F3A) ||| T_EW0) ||| T_YMM) ||| T_MUST_EVEX) 0x3F p_imm.
(* xbyak_mnemonic.h:2446 *)
Definition i_vpcmpd (p_k : Reg) (p_x : Reg) (p_op : Operand) (p_imm : Z) : E unit :=
  let p_imm := w8 p_imm in opAVX_K_X_XM p_k p_x p_op (((((T_66 ||| T_0F3A) ||| T_EW0) ||| T_YMM) ||| T_MUST_EVEX) ||| T_B32) 0x1F p_imm.
(* xbyak_mnemonic.h:2447 *)
Definition i_vpcmpeqb_kxo (p_k : Reg) (p_x : Reg) (p_op : Operand) : E unit :=
  opAVX_K_X_XM p_k p_x p_op (((T_66 ||| T_0F) ||| T_YMM) ||| T_MUST_EVEX) 0x74 NONE.
(* xbyak_mnemonic.h:2448 *)
Definition i_vpcmpeqd_kxo (p_k : Reg) (p_x : Reg) (p_op : Operand) : E unit :=
  opAVX_K_X_XM p_k p_x p_op ((((T_66 ||| T_0F) ||| T_YMM) ||| T_MUST_EVEX) ||| T_B32) 0x76 NONE.
(* xbyak_mnemonic.h:2449 *)
Definition i_vpcmpeqq_kxo (p_k : Reg) (p_x : Reg) (p_op : Operand) : E unit :=
  opAVX_K_X_XM p_k p_x p_op (((((T_66 ||| T_0F38) ||| T_EW1) ||| T_YMM) ||| T_MUST_EVEX) ||| T_B64) 0x29 NONE.
(* xbyak_mnemonic.h:2450 *)
Definition i_vpcmpeqw_kxo (p_k : Reg) (p_x : Reg) (p_op : Operand) : E unit :=
  opAVX_K_X_XM p_k p_x p_op (((T_66 ||| T_0F) ||| T_YMM) ||| T_MUST_EVEX) 0x75 NONE.
(* xbyak_mnemonic.h:2451 *)
Definition i_vpcmpgtb_kxo (p_k : Reg) (p_x : Reg) (p_op : Operand) : E unit :=
  opAVX_K_X_XM p_k p_x p_op (((T_66 ||| T_0F) ||| T_YMM) ||| T_MUST_EVEX) 0x64 NONE.
(* xbyak_mnemonic.h:2452 *)
Definition i_vpcmpgtd_kxo (p_k : Reg) (p_x : Reg) (p_op : Operand) : E unit :=
  opAVX_K_X_XM p_k p_x p_op (((((T_66 ||| T_0F) ||| T_EW0) ||| T_YMM) ||| T_MUST_EVEX) ||| T_B32) 0x66 NONE.
(* xbyak_mnemonic.h:2453 *)
Definition i_vpcmpgtq_kxo (p_k : Reg) (p_x : Reg) (p_op : Operand) : E unit :=
  opAVX_K_X_XM p_k p_x p_op (((((T_66 ||| T_0F38) ||| T_EW1) ||| T_YMM) ||| T_MUST_EVEX) ||| T_B64) 0x37 NONE.
(* xbyak_mnemonic.h:2454 *)
Definition i_vpcmpgtw_kxo (p_k : Reg) (p_x : Reg) (p_op : Operand) : E unit :=
  opAVX_K_X_XM p_k p_x p_op (((T_66 ||| T_0F) ||| T_YMM) ||| T_MUST_EVEX) 0x65 NONE.
(* xbyak_mnemonic.h:2455 *)
Definition i_vpcmpq (p_k : Reg) (p_x : Reg) (p_op : Operand) (p_imm : Z) : E unit :=
  let p_imm := w8 p_imm in opAVX_K_X_XM p_k p_x p_op (((((T_66 ||| T_0F3A) ||| T_EW1) ||| T_YMM) ||| T_MUST_EVEX) ||| T_B64) 0x1F p_imm.
(* xbyak_mnemonic.h:2456 *)
Definition i_vpcmpub (p_k : Reg) (p_x : Reg) (p_op : Operand) (p_imm : Z) : E unit :=
  let p_imm := w8 p_imm in opAVX_K_X_XM p_k p_x p_op ((((T_66 ||| T_0F3A) ||| T_EW0) ||| T_YMM) ||| T_MUST_EVEX) 0x3E p_imm.
(* xbyak_mnemonic.h:2457 *)
Definition i_vpcmpud (p_k : Reg) (p_x : Reg) (p_op : Operand) (p_imm : Z) : E unit :=
  let p_imm := w8 p_imm in opAVX_K_X_XM p_k p_x p_op (((((T_66 ||| T_0F3A) ||| T_EW0) ||| T_YMM) ||| T_MUST_EVEX) ||| T_B32) 0x1E p_imm.
(* xbyak_mnemonic.h:2458 *)
Definition i_vpcmpuq (p_k : Reg) (p_x : Reg) (p_op : Operand) (p_imm : Z) : E unit :=
  let p_imm := w8 p_imm in opAVX_K_X_XM p_k p_x p_op (((((T_66 ||| T_0F3A) ||| T_EW1) ||| T_YMM) ||| T_MUST_EVEX) ||| T_B64) 0x1E p_imm.
(* xbyak_mnemonic.h:2459 *)
Definition i_vpcmpuw (p_k : Reg) (p_x : Reg) (p_op : Operand) (p_imm : Z) : E unit :=
  let p_imm := w8 p_imm in opAVX_K_X_XM p_k p_x p_op ((((T_66 ||| T_0F3A) ||| T_EW1) ||| T_YMM) ||| T_MUST_EVEX) 0x3E p_imm.
(* xbyak_mnemonic.h:2460 *)
Definition i_vpcmpw (p_k : Reg) (p_x : Reg) (p_op : Operand) (p_imm : Z) : E unit :=
  let p_imm := w8 p_imm in opAVX_K_X_XM p_k p_x p_op ((((T_66 ||| T_0F3A) ||| T_EW1) ||| T_YMM) ||| T_MUST_EVEX) 0x3F p_imm.
(* xbyak_mnemonic.h:2461 *)
Definition i_vpcompressb (p_op : Operand) (p_x : Reg) : E unit :=
  opAVX_X_XM_IMM p_x p_op (((((T_N1 ||| T_66) ||| T_0F38) ||| T_EW0) ||| T_YMM) ||| T_MUST_EVEX) 0x63 NONE.
(* xbyak_mnemonic.h:2462 *)
Definition i_vpcompressd (p_op : Operand) (p_x : Reg) : E unit :=
  opAVX_X_XM_IMM p_x p_op (((((T_N4 ||| T_66) ||| T_0F38) ||| T_EW0) ||| T_YMM) ||| T_MUST_EVEX) 0x8B NONE.
(* xbyak_mnemonic.h:2463 *)
Definition i_vpcompressq (p_op : Operand) (p_x : Reg) : E unit :=
  opAVX_X_XM_IMM p_x p_op (((((T_N8 ||| T_66) ||| T_0F38) ||| T_EW1) ||| T_YMM) ||| T_MUST_EVEX) 0x8B NONE.
(* xbyak_mnemonic.h:2464 *)
Definition i_vpcompressw (p_op : Operand) (p_x : Reg) : E unit :=
  opAVX_X_XM_IMM p_x p_op (((((T_N2 ||| T_66) ||| T_0F38) ||| T_EW1) ||| T_YMM) ||| T_MUST_EVEX) 0x63 NONE.
(* xbyak_mnemonic.h:2465 *)
Definition i_vpconflictd (p_x : Reg) (p_op : Operand) : E unit :=
  opAVX_X_XM_IMM p_x p_op (((((T_66 ||| T_0F38) ||| T_EW0) ||| T_YMM) ||| T_MUST_EVEX) ||| T_B32) 0xC4 NONE.
(* xbyak_mnemonic.h:2466 *)
Definition i_vpconflictq (p_x : Reg) (p_op : Operand) : E unit :=
  opAVX_X_XM_IMM p_x p_op (((((T_66 ||| T_0F38) ||| T_EW1) ||| T_YMM) ||| T_MUST_EVEX) ||| T_B64) 0xC4 NONE.
(* xbyak_mnemonic.h:2467 *)
Definition i_vpdpbssd (p_x1 : Reg) (p_x2 : Reg) (p_op : Operand) (p_encoding : PreferredEncoding) : E unit :=
  opEncoding p_x1 p_x2 p_op ((T_F2 ||| T_0F38) ||| T_YMM) 0x50 p_encoding NONE T_W0 (T_EW0 ||| T_B32) 1.
(* xbyak_mnemonic.h:2468 *)
Definition i_vpdpbssds (p_x1 : Reg) (p_x2 : Reg) (p_op : Operand) (p_encoding : PreferredEncoding) : E unit :=
  opEncoding p_x1 p_x2 p_op ((T_F2 ||| T_0F38) ||| T_YMM) 0x51 p_encoding NONE T_W0 (T_EW0 ||| T_B32) 1.
(* xbyak_mnemonic.h:2469 *)
Definition i_vpdpbsud (p_x1 : Reg) (p_x2 : Reg) (p_op : Operand) (p_encoding : PreferredEncoding) : E unit :=
  opEncoding p_x1 p_x2 p_op ((T_F3 ||| T_0F38) ||| T_YMM) 0x50 p_encoding NONE T_W0 (T_EW0 ||| T_B32) 1.
(* xbyak_mnemonic.h:2470 *)
Definition i_vpdpbsuds (p_x1 : Reg) (p_x2 : Reg) (p_op : Operand) (p_encoding : PreferredEncoding) : E unit :=
  opEncoding p_x1 p_x2 p_op ((T_F3 ||| T_0F38) ||| T_YMM) 0x51 p_encoding NONE T_W0 (T_EW0 ||| T_B32) 1.
(* xbyak_mnemonic.h:2471 *)
Definition i_vpdpbuud (p_x1 : Reg) (p_x2 : Reg) (p_op : Operand) (p_encoding : PreferredEncoding) : E unit :=
  opEncoding p_x1 p_x2 p_op (T_0F38 ||| T_YMM) 0x50 p_encoding NONE T_W0 (T_EW0 ||| T_B32) 1.
(* xbyak_mnemonic.h:2472 *)
Definition i_vpdpbuuds (p_x1 : Reg) (p_x2 : Reg) (p_op : Operand) (p_encoding : PreferredEncoding) : E unit :=
  opEncoding p_x1 p_x2 p_op (T_0F38 ||| T_YMM) 0x51 p_encoding NONE T_W0 (T_EW0 ||| T_B32) 1.
(* xbyak_mnemonic.h:2473 *)
Definition i_vpdpwsud (p_x1 : Reg) (p_x2 : Reg) (p_op : Operand) (p_encoding : PreferredEncoding) : E unit :=
  opEncoding p_x1 p_x2 p_op ((T_F3 ||| T_0F38) ||| T_YMM) 0xD2 p_encoding NONE T_W0 (T_EW0 ||| T_B32) 1.
(* xbyak_mnemonic.h:2474 *)
Definition i_vpdpwsuds (p_x1 : Reg) (p_x2 : Reg) (p_op : Operand) (p_encoding : PreferredEncoding) : E unit :=
  opEncoding p_x1 p_x2 p_op ((T_F3 ||| T_0F38) ||| T_YMM) 0xD3 p_encoding NONE T_W0 (T_EW0 ||| T_B32) 1.
(* xbyak_mnemonic.h:2475 *)
Definition i_vpdpwusd (p_x1 : Reg) (p_x2 : Reg) (p_op : Operand) (p_encoding : PreferredEncoding) : E unit :=
  opEncoding p_x1 p_x2 p_op ((T_66 ||| T_0F38) ||| T_YMM) 0xD2 p_encoding NONE T_W0 (T_EW0 ||| T_B32) 1.
(* xbyak_mnemonic.h:2476 *)
Definition i_vpdpwusds (p_x1 : Reg) (p_x2 : Reg) (p_op : Operand) (p_encoding : PreferredEncoding) : E unit :=
  opEncoding p_x1 p_x2 p_op ((T_66 ||| T_0F38) ||| T_YMM) 0xD3 p_encoding NONE T_W0 (T_EW0 ||| T_B32) 1.
(* xbyak_mnemonic.h:2477 *)
Definition i_vpdpwuud (p_x1 : Reg) (p_x2 : Reg) (p_op : Operand) (p_encoding : PreferredEncoding) : E unit :=
  opEncoding p_x1 p_x2 p_op (T_0F38 ||| T_YMM) 0xD2 p_encoding NONE T_W0 (T_EW0 ||| T_B32) 1.
(* xbyak_mnemonic.h:2478 *)
Definition i_vpdpwuuds (p_x1 : Reg) (p_x2 : Reg) (p_op : Operand) (p_encoding : PreferredEncoding) : E unit :=
  opEncoding p_x1 p_x2 p_op (T_0F38 ||| T_YMM) 0xD3 p_encoding NONE T_W0 (T_EW0 ||| T_B32) 1.
(* xbyak_mnemonic.h:2479 *)
Definition i_vpermb (p_x1 : Reg) (p_x2 : Reg) (p_op : Operand) : E unit :=
  opAVX_X_X_XM p_x1 (OReg p_x2) p_op ((((T_66 ||| T_0F38) ||| T_EW0) ||| T_YMM) ||| T_MUST_EVEX) 0x8D NONE.
(* xbyak_mnemonic.h:2480 *)
Definition i_vpermi2b (p_x1 : Reg) (p_x2 : Reg) (p_op : Operand) : E unit :=
  opAVX_X_X_XM p_x1 (OReg p_x2) p_op ((((T_66 ||| T_0F38) ||| T_EW0) ||| T_YMM) ||| T_MUST_EVEX) 0x75 NONE.
(* xbyak_mnemonic.h:2481 *)
Definition i_vpermi2d (p_x1 : Reg) (p_x2 : Reg) (p_op : Operand) : E unit :=
  opAVX_X_X_XM p_x1 (OReg p_x2) p_op (((((T_66 ||| T_0F38) ||| T_EW0) ||| T_YMM) ||| T_MUST_EVEX) ||| T_B32) 0x76 NONE.
(* xbyak_mnemonic.h:2482 *)
Definition i_vpermi2pd (p_x1 : Reg) (p_x2 : Reg) (p_op : Operand) : E unit :=
  opAVX_X_X_XM p_x1 (OReg p_x2) p_op (((((T_66 ||| T_0F38) ||| T_EW1) ||| T_YMM) ||| T_MUST_EVEX) ||| T_B64) 0x77 NONE.
(* xbyak_mnemonic.h:2483 *)
Definition i_vpermi2ps (p_x1 : Reg) (p_x2 : Reg) (p_op : Operand) : E unit :=
  opAVX_X_X_XM p_x1 (OReg p_x2) p_op (((((T_66 ||| T_0F38) ||| T_EW0) ||| T_YMM) ||| T_MUST_EVEX) ||| T_B32) 0x77 NONE.
(* xbyak_mnemonic.h:2484 *)
Definition i_vpermi2q (p_x1 : Reg) (p_x2 : Reg) (p_op : Operand) : E unit :=
  opAVX_X_X_XM p_x1 (OReg p_x2) p_op (((((T_66 ||| T_0F38) ||| T_EW1) ||| T_YMM) ||| T_MUST_EVEX) ||| T_B64) 0x76 NONE.
(* xbyak_mnemonic.h:2485 *)
Definition i_vpermi2w (p_x1 : Reg) (p_x2 : Reg) (p_op : Operand) : E unit :=
  opAVX_X_X_XM p_x1 (OReg p_x2) p_op ((((T_66 ||| T_0F38) ||| T_EW1) ||| T_YMM) ||| T_MUST_EVEX) 0x75 NONE.
(* xbyak_mnemonic.h:2486 *)
Definition i_vpermt2b (p_x1 : Reg) (p_x2 : Reg) (p_op : Operand) : E unit :=
  opAVX_X_X_XM p_x1 (OReg p_x2) p_op ((((T_66 ||| T_0F38) ||| T_EW0) ||| T_YMM) ||| T_MUST_EVEX) 0x7D NONE.
(* xbyak_mnemonic.h:2487 *)
Definition i_vpermt2d (p_x1 : Reg) (p_x2 : Reg) (p_op : Operand) : E unit :=
  opAVX_X_X_XM p_x1 (OReg p_x2) p_op (((((T_66 ||| T_0F38) ||| T_EW0) ||| T_YMM) ||| T_MUST_EVEX) ||| T_B32) 0x7E NONE.
(* xbyak_mnemonic.h:2488 *)
Definition i_vpermt2pd (p_x1 : Reg) (p_x2 : Reg) (p_op : Operand) : E unit :=
  opAVX_X_X_XM p_x1 (OReg p_x2) p_op (((((T_66 ||| T_0F38) ||| T_EW1) ||| T_YMM) ||| T_MUST_EVEX) ||| T_B64) 0x7F NONE.
(* xbyak_mnemonic.h:2489 *)
Definition i_vpermt2ps (p_x1 : Reg) (p_x2 : Reg) (p_op : Operand) : E unit :=
  opAVX_X_X_XM p_x1 (OReg p_x2) p_op (((((T_66 ||| T_0F38) ||| T_EW0) ||| T_YMM) ||| T_MUST_EVEX) ||| T_B32) 0x7F NONE.
(* xbyak_mnemonic.h:2490 *)
Definition i_vpermt2q (p_x1 : Reg) (p_x2 : Reg) (p_op : Operand) : E unit :=
  opAVX_X_X_XM p_x1 (OReg p_x2) p_op (((((T_66 ||| T_0F38) ||| T_EW1) ||| T_YMM) ||| T_MUST_EVEX) ||| T_B64) 0x7E NONE.
(* xbyak_mnemonic.h:2491 *)
Definition i_vpermt2w (p_x1 : Reg) (p_x2 : Reg) (p_op : Operand) : E unit :=
  opAVX_X_X_XM p_x1 (OReg p_x2) p_op ((((T_66 ||| T_0F38) ||| T_EW1) ||| T_YMM) ||| T_MUST_EVEX) 0x7D NONE.
(* xbyak_mnemonic.h:2492 *)
Definition i_vpermw (p_x1 : Reg) (p_x2 : Reg) (p_op : Operand) : E unit :=
  opAVX_X_X_XM p_x1 (OReg p_x2) p_op ((((T_66 ||| T_0F38) ||| T_EW1) ||| T_YMM) ||| T_MUST_EVEX) 0x8D NONE.
(* xbyak_mnemonic.h:2493 *)
Definition i_vpexpandb (p_x : Reg) (p_op : Operand) : E unit :=
  opAVX_X_XM_IMM p_x p_op ((((((T_N1 ||| T_66) ||| T_0F38) ||| T_EW0) ||| T_YMM) ||| T_SAE_Z) ||| T_MUST_EVEX) 0x62 NONE.
(* xbyak_mnemonic.h:2494 *)
Definition i_vpexpandd (p_x : Reg) (p_op : Operand) : E unit :=
  opAVX_X_XM_IMM p_x p_op (((((T_N4 ||| T_66) ||| T_0F38) ||| T_EW0) ||| T_YMM) ||| T_MUST_EVEX) 0x89 NONE.
(* xbyak_mnemonic.h:2495 *)
Definition i_vpexpandq (p_x : Reg) (p_op : Operand) : E unit :=
  opAVX_X_XM_IMM p_x p_op (((((T_N8 ||| T_66) ||| T_0F38) ||| T_EW1) ||| T_YMM) ||| T_MUST_EVEX) 0x89 NONE.
(* xbyak_mnemonic.h:2496 *)
Definition i_vpexpandw (p_x : Reg) (p_op : Operand) : E unit :=
  opAVX_X_XM_IMM p_x p_op ((((((T_N2 ||| T_66) ||| T_0F38) ||| T_EW1) ||| T_YMM) ||| T_SAE_Z) ||| T_MUST_EVEX) 0x62 NONE.
(* xbyak_mnemonic.h:2497 *)
Definition i_vpgatherdd_xa (p_x : Reg) (p_addr : Address) : E unit :=
  opGather2 p_x p_addr ((((((T_N4 ||| T_66) ||| T_0F38) ||| T_EW0) ||| T_YMM) ||| T_MUST_EVEX) ||| T_VSIB) 0x90 0.
(* xbyak_mnemonic.h:2498 *)
Definition i_vpgatherdq_xa (p_x : Reg) (p_addr : Address) : E unit :=
  opGather2 p_x p_addr ((((((T_N8 ||| T_66) ||| T_0F38) ||| T_EW1) ||| T_YMM) ||| T_MUST_EVEX) ||| T_VSIB) 0x90 1.
(* xbyak_mnemonic.h:2499 *)
Definition i_vpgatherqd_xa (p_x : Reg) (p_addr : Address) : E unit :=
  opGather2 p_x p_addr ((((((T_N4 ||| T_66) ||| T_0F38) ||| T_EW0) ||| T_YMM) ||| T_MUST_EVEX) ||| T_VSIB) 0x91 2.
(* xbyak_mnemonic.h:2500 *)
Definition i_vpgatherqq_xa (p_x : Reg) (p_addr : Address) : E unit :=
  opGather2 p_x p_addr ((((((T_N8 ||| T_66) ||| T_0F38) ||| T_EW1) ||| T_YMM) ||| T_MUST_EVEX) ||| T_VSIB) 0x91 0.
(* xbyak_mnemonic.h:2501 *)
Definition i_vplzcntd (p_x : Reg) (p_op : Operand) : E unit :=
  opAVX_X_XM_IMM p_x p_op (((((T_66 ||| T_0F38) ||| T_EW0) ||| T_YMM) ||| T_MUST_EVEX) ||| T_B32) 0x44 NONE.
(* xbyak_mnemonic.h:2502 *)
Definition i_vplzcntq (p_x : Reg) (p_op : Operand) : E unit :=
  opAVX_X_XM_IMM p_x p_op (((((T_66 ||| T_0F38) ||| T_EW1) ||| T_YMM) ||| T_MUST_EVEX) ||| T_B64) 0x44 NONE.
(* xbyak_mnemonic.h:2503 *)
Definition i_vpmadd52huq (p_x1 : Reg) (p_x2 : Reg) (p_op : Operand) : E unit :=
  opAVX_X_X_XM p_x1 (OReg p_x2) p_op (((((T_66 ||| T_0F38) ||| T_EW1) ||| T_YMM) ||| T_MUST_EVEX) ||| T_B64) 0xB5 NONE.
(* xbyak_mnemonic.h:2504 *)
Definition i_vpmadd52luq (p_x1 : Reg) (p_x2 : Reg) (p_op : Operand) : E unit :=
  opAVX_X_X_XM p_x1 (OReg p_x2) p_op (((((T_66 ||| T_0F38) ||| T_EW1) ||| T_YMM) ||| T_MUST_EVEX) ||| T_B64) 0xB4 NONE.
(* xbyak_mnemonic.h:2505 *)
Definition i_vpmaxsq (p_x1 : Reg) (p_x2 : Reg) (p_op : Operand) : E unit :=
  opAVX_X_X_XM p_x1 (OReg p_x2) p_op (((((T_66 ||| T_0F38) ||| T_EW1) ||| T_YMM) ||| T_MUST_EVEX) ||| T_B64) 0x3D NONE.
(* xbyak_mnemonic.h:2506 *)
Definition i_vpmaxuq (p_x1 : Reg) (p_x2 : Reg) (p_op : Operand) : E unit :=
  opAVX_X_X_XM p_x1 (OReg p_x2) p_op (((((T_66 ||| T_0F38) ||| T_EW1) ||| T_YMM) ||| T_MUST_EVEX) ||| T_B64) 0x3F NONE.
(* xbyak_mnemonic.h:2507 *)
Definition i_vpminsq (p_x1 : Reg) (p_x2 : Reg) (p_op : Operand) : E unit :=
  opAVX_X_X_XM p_x1 (OReg p_x2) p_op (((((T_66 ||| T_0F38) ||| T_EW1) ||| T_YMM) ||| T_MUST_EVEX) ||| T_B64) 0x39 NONE.
(* xbyak_mnemonic.h:2508 *)
Definition i_vpminuq (p_x1 : Reg) (p_x2 : Reg) (p_op : Operand) : E unit :=
  opAVX_X_X_XM p_x1 (OReg p_x2) p_op (((((T_66 ||| T_0F38) ||| T_EW1) ||| T_YMM) ||| T_MUST_EVEX) ||| T_B64) 0x3B NONE.
(* xbyak_mnemonic.h:2509 *)
Definition i_vpmovb2m (p_k : Reg) (p_x : Reg) : E unit :=
  opVex p_k None (OReg p_x) ((((T_F3 ||| T_0F38) ||| T_MUST_EVEX) ||| T_YMM) ||| T_EW0) 0x29 NONE.
(* xbyak_mnemonic.h:2510 *)
Definition i_vpmovd2m (p_k : Reg) (p_x : Reg) : E unit :=
  opVex p_k None (OReg p_x) ((((T_F3 ||| T_0F38) ||| T_MUST_EVEX) ||| T_YMM) ||| T_EW0) 0x39 NONE.
(* xbyak_mnemonic.h:2511 *)
Definition i_vpmovdb (p_op : Operand) (p_x : Reg) : E unit :=
  opVmov p_op p_x (((((((T_N4 ||| T_N_VL) ||| T_F3) ||| T_0F38) ||| T_EW0) ||| T_YMM) ||| T_MUST_EVEX) ||| T_M_K) 0x31 false.
(* xbyak_mnemonic.h:2512 *)
Definition i_vpmovdw (p_op : Operand) (p_x : Reg) : E unit :=
  opVmov p_op p_x (((((((T_N8 ||| T_N_VL) ||| T_F3) ||| T_0F38) ||| T_EW0) ||| T_YMM) ||| T_MUST_EVEX) ||| T_M_K) 0x33 true.
(* xbyak_mnemonic.h:2513 *)
Definition i_vpmovm2b (p_x : Reg) (p_k : Reg) : E unit :=
  opVex p_x None (OReg p_k) ((((T_F3 ||| T_0F38) ||| T_MUST_EVEX) ||| T_YMM) ||| T_EW0) 0x28 NONE.
(* xbyak_mnemonic.h:2514 *)
Definition i_vpmovm2d (p_x : Reg) (p_k : Reg) : E unit :=
  opVex p_x None (OReg p_k) ((((T_F3 ||| T_0F38) ||| T_MUST_EVEX) ||| T_YMM) ||| T_EW0) 0x38 NONE.
(* xbyak_mnemonic.h:2515 *)
Definition i_vpmovm2q (p_x : Reg) (p_k : Reg) : E unit :=
  opVex p_x None (OReg p_k) ((((T_F3 ||| T_0F38) ||| T_MUST_EVEX) ||| T_YMM) ||| T_EW1) 0x38 NONE.
(* xbyak_mnemonic.h:2516 *)
Definition i_vpmovm2w (p_x : Reg) (p_k : Reg) : E unit :=
  opVex p_x None (OReg p_k) ((((T_F3 ||| T_0F38) ||| T_MUST_EVEX) ||| T_YMM) ||| T_EW1) 0x28 NONE.
(* xbyak_mnemonic.h:2517 *)
Definition i_vpmovq2m (p_k : Reg) (p_x : Reg) : E unit :=
  opVex p_k None (OReg p_x) ((((T_F3 ||| T_0F38) ||| T_MUST_EVEX) ||| T_YMM) ||| T_EW1) 0x39 NONE.
(* xbyak_mnemonic.h:2518 *)
Definition i_vpmovqb (p_op : Operand) (p_x : Reg) : E unit :=
  opVmov p_op p_x (((((((T_N2 ||| T_N_VL) ||| T_F3) ||| T_0F38) ||| T_EW0) ||| T_YMM) ||| T_MUST_EVEX) ||| T_M_K) 0x32 false.
(* xbyak_mnemonic.h:2519 *)
Definition i_vpmovqd (p_op : Operand) (p_x : Reg) : E unit :=
  opVmov p_op p_x (((((((T_N8 ||| T_N_VL) ||| T_F3) ||| T_0F38) ||| T_EW0) ||| T_YMM) ||| T_MUST_EVEX) ||| T_M_K) 0x35 true.
(* xbyak_mnemonic.h:2520 *)
Definition i_vpmovqw (p_op : Operand) (p_x : Reg) : E unit :=
  opVmov p_op p_x (((((((T_N4 ||| T_N_VL) ||| T_F3) ||| T_0F38) ||| T_EW0) ||| T_YMM) ||| T_MUST_EVEX) ||| T_M_K) 0x34 false.
(* xbyak_mnemonic.h:2521 *)
Definition i_vpmovsdb (p_op : Operand) (p_x : Reg) : E unit :=
  opVmov p_op p_x (((((((T_N4 ||| T_N_VL) ||| T_F3) ||| T_0F38) ||| T_EW0) ||| T_YMM) ||| T_MUST_EVEX) ||| T_M_K) 0x21 false.
(* xbyak_mnemonic.h:2522 *)
Definition i_vpmovsdw (p_op : Operand) (p_x : Reg) : E unit :=
  opVmov p_op p_x (((((((T_N8 ||| T_N_VL) ||| T_F3) ||| T_0F38) ||| T_EW0) ||| T_YMM) ||| T_MUST_EVEX) ||| T_M_K) 0x23 true.
(* xbyak_mnemonic.h:2523 *)
Definition i_vpmovsqb (p_op : Operand) (p_x : Reg) : E unit :=
  opVmov p_op p_x (((((((T_N2 ||| T_N_VL) ||| T_F3) ||| T_0F38) ||| T_EW0) ||| T_YMM) ||| T_MUST_EVEX) ||| T_M_K) 0x22 false.
(* xbyak_mnemonic.h:2524 *)
Definition i_vpmovsqd (p_op : Operand) (p_x : Reg) : E unit :=
  opVmov p_op p_x (((((((T_N8 ||| T_N_VL) ||| T_F3) ||| T_0F38) ||| T_EW0) ||| T_YMM) ||| T_MUST_EVEX) ||| T_M_K) 0x25 true.
(* xbyak_mnemonic.h:2525 *)
Definition i_vpmovsqw (p_op : Operand) (p_x : Reg) : E unit :=
  opVmov p_op p_x (((((((T_N4 ||| T_N_VL) ||| T_F3) ||| T_0F38) ||| T_EW0) ||| T_YMM) ||| T_MUST_EVEX) ||| T_M_K) 0x24 false.
(* xbyak_mnemonic.h:2526 *)
Definition i_vpmovswb (p_op : Operand) (p_x : Reg) : E unit :=
  opVmov p_op p_x (((((((T_N8 ||| T_N_VL) ||| T_F3) ||| T_0F38) ||| T_EW0) ||| T_YMM) ||| T_MUST_EVEX) ||| T_M_K) 0x20 true.
(* xbyak_mnemonic.h:2527 *)
Definition i_vpmovusdb (p_op : Operand) (p_x : Reg) : E unit :=
  opVmov p_op p_x (((((((T_N4 ||| T_N_VL) ||| T_F3) ||| T_0F38) ||| T_EW0) ||| T_YMM) ||| T_MUST_EVEX) ||| T_M_K) 0x11 false.
(* xbyak_mnemonic.h:2528 *)
Definition i_vpmovusdw (p_op : Operand) (p_x : Reg) : E unit :=
  opVmov p_op p_x (((((((T_N8 ||| T_N_VL) ||| T_F3) ||| T_0F38) ||| T_EW0) ||| T_YMM) ||| T_MUST_EVEX) ||| T_M_K) 0x13 true.
(* xbyak_mnemonic.h:2529 *)
Definition i_vpmovusqb (p_op : Operand) (p_x : Reg) : E unit :=
  opVmov p_op p_x (((((((T_N2 ||| T_N_VL) ||| T_F3) ||| T_0F38) ||| T_EW0) ||| T_YMM) ||| T_MUST_EVEX) ||| T_M_K) 0x12 false.
(* xbyak_mnemonic.h:2530 *)
Definition i_vpmovusqd (p_op : Operand) (p_x : Reg) : E unit :=
  opVmov p_op p_x (((((((T_N8 ||| T_N_VL) ||| T_F3) ||| T_0F38) ||| T_EW0) ||| T_YMM) ||| T_MUST_EVEX) ||| T_M_K) 0x15 true.
(* xbyak_mnemonic.h:2531 *)
Definition i_vpmovusqw (p_op : Operand) (p_x : Reg) : E unit :=
  opVmov p_op p_x (((((((T_N4 ||| T_N_VL) ||| T_F3) ||| T_0F38) ||| T_EW0) ||| T_YMM) ||| T_MUST_EVEX) ||| T_M_K) 0x14 false.
(* xbyak_mnemonic.h:2532 *)
Definition i_vpmovuswb (p_op : Operand) (p_x : Reg) : E unit :=
  opVmov p_op p_x (((((((T_N8 ||| T_N_VL) ||| T_F3) ||| T_0F38) ||| T_EW0) ||| T_YMM) ||| T_MUST_EVEX) ||| T_M_K) 0x10 true.
(* xbyak_mnemonic.h:2533 *)
Definition i_vpmovw2m (p_k : Reg) (p_x : Reg) : E unit :=
  opVex p_k None (OReg p_x) ((((T_F3 ||| T_0F38) ||| T_MUST_EVEX) ||| T_YMM) ||| T_EW1) 0x29 NONE.
(* xbyak_mnemonic.h:2534 *)
Definition i_vpmovwb (p_op : Operand) (p_x : Reg) : E unit :=
  opVmov p_op p_x (((((((T_N8 ||| T_N_VL) ||| T_F3) ||| T_0F38) ||| T_EW0) ||| T_YMM) ||| T_MUST_EVEX) ||| T_M_K) 0x30 true.
(* xbyak_mnemonic.h:2535 *)
Definition i_vpmullq (p_x1 : Reg) (p_x2 : Reg) (p_op : Operand) : E unit :=
  opAVX_X_X_XM p_x1 (OReg p_x2) p_op (((((T_66 ||| T_0F38) ||| T_EW1) ||| T_YMM) ||| T_MUST_EVEX) ||| T_B64) 0x40 NONE.
(* xbyak_mnemonic.h:2536 *)
Definition i_vpmultishiftqb (p_x1 : Reg) (p_x2 : Reg) (p_op : Operand) : E unit :=
  opAVX_X_X_XM p_x1 (OReg p_x2) p_op (((((T_66 ||| T_0F38) ||| T_EW1) ||| T_YMM) ||| T_MUST_EVEX) ||| T_B64) 0x83 NONE.
(* xbyak_mnemonic.h:2537 *)
Definition i_vpopcntb (p_x : Reg) (p_op : Operand) : E unit :=
  opAVX_X_XM_IMM p_x p_op (((((T_66 ||| T_0F38) ||| T_EW0) ||| T_YMM) ||| T_SAE_Z) ||| T_MUST_EVEX) 0x54 NONE.
(* xbyak_mnemonic.h:2538 *)
Definition i_vpopcntd (p_x : Reg) (p_op : Operand) : E unit :=
  opAVX_X_XM_IMM p_x p_op ((((((T_66 ||| T_0F38) ||| T_EW0) ||| T_YMM) ||| T_SAE_Z) ||| T_MUST_EVEX) ||| T_B32) 0x55 NONE.
(* xbyak_mnemonic.h:2539 *)
Definition i_vpopcntq (p_x : Reg) (p_op : Operand) : E unit :=
  opAVX_X_XM_IMM p_x p_op ((((((T_66 ||| T_0F38) ||| T_EW1) ||| T_YMM) ||| T_SAE_Z) ||| T_MUST_EVEX) ||| T_B64) 0x55 NONE.
(* xbyak_mnemonic.h:2540 *)
Definition i_vpopcntw (p_x : Reg) (p_op : Operand) : E unit :=
  opAVX_X_XM_IMM p_x p_op (((((T_66 ||| T_0F38) ||| T_EW1) ||| T_YMM) ||| T_SAE_Z) ||| T_MUST_EVEX) 0x54 NONE.
(* xbyak_mnemonic.h:2541 *)
Definition i_vpord (p_x1 : Reg) (p_x2 : Reg) (p_op : Operand) : E unit :=
  opAVX_X_X_XM p_x1 (OReg p_x2) p_op (((((T_66 ||| T_0F) ||| T_EW0) ||| T_YMM) ||| T_MUST_EVEX) ||| T_B32) 0xEB NONE.
(* xbyak_mnemonic.h:2542 *)
Definition i_vporq (p_x1 : Reg) (p_x2 : Reg) (p_op : Operand) : E unit :=
  opAVX_X_X_XM p_x1 (OReg p_x2) p_op (((((T_66 ||| T_0F) ||| T_EW1) ||| T_YMM) ||| T_MUST_EVEX) ||| T_B64) 0xEB NONE.
(* xbyak_mnemonic.h:2543 *)
Definition i_vprold (p_x : Reg) (p_op : Operand) (p_imm : Z) : E unit :=
  let p_imm := w8 p_imm in opAVX_X_X_XM (XmmK (kind_ p_x) 1) (OReg p_x) p_op (((((T_66 ||| T_0F) ||| T_EW0) ||| T_YMM) ||| T_MUST_EVEX) ||| T_B32) 0x72 p_imm.
(* xbyak_mnemonic.h:2544 *)
Definition i_vprolq (p_x : Reg) (p_op : Operand) (p_imm : Z) : E unit :=
  let p_imm := w8 p_imm in opAVX_X_X_XM (XmmK (kind_ p_x) 1) (OReg p_x) p_op (((((T_66 ||| T_0F) ||| T_EW1) ||| T_YMM) ||| T_MUST_EVEX) ||| T_B64) 0x72 p_imm.
(* xbyak_mnemonic.h:2545 *)
Definition i_vprolvd (p_x1 : Reg) (p_x2 : Reg) (p_op : Operand) : E unit :=
  opAVX_X_X_XM p_x1 (OReg p_x2) p_op (((((T_66 ||| T_0F38) ||| T_EW0) ||| T_YMM) ||| T_MUST_EVEX) ||| T_B32) 0x15 NONE.
(* xbyak_mnemonic.h:2546 *)
Definition i_vprolvq (p_x1 : Reg) (p_x2 : Reg) (p_op : Operand) : E unit :=
  opAVX_X_X_XM p_x1 (OReg p_x2) p_op (((((T_66 ||| T_0F38) ||| T_EW1) ||| T_YMM) ||| T_MUST_EVEX) ||| T_B64) 0x15 NONE.
(* xbyak_mnemonic.h:2547 *)
Definition i_vprord (p_x : Reg) (p_op : Operand) (p_imm : Z) : E unit :=
  let p_imm := w8 p_imm in opAVX_X_X_XM (XmmK (kind_ p_x) 0) (OReg p_x) p_op (((((T_66 ||| T_0F) ||| T_EW0) ||| T_YMM) ||| T_MUST_EVEX) ||| T_B32) 0x72 p_imm.
(* xbyak_mnemonic.h:2548 *)
Definition i_vprorq (p_x : Reg) (p_op : Operand) (p_imm : Z) : E unit :=
  let p_imm := w8 p_imm in opAVX_X_X_XM (XmmK (kind_ p_x) 0) (OReg p_x) p_op (((((T_66 ||| T_0F) ||| T_EW1) ||| T_YMM) ||| T_MUST_EVEX) ||| T_B64) 0x72 p_imm.
(* xbyak_mnemonic.h:2549 *)
Definition i_vprorvd (p_x1 : Reg) (p_x2 : Reg) (p_op : Operand) : E unit :=
  opAVX_X_X_XM p_x1 (OReg p_x2) p_op (((((T_66 ||| T_0F38) ||| T_EW0) ||| T_YMM) ||| T_MUST_EVEX) ||| T_B32) 0x14 NONE.
(* xbyak_mnemonic.h:2550 *)
Definition i_vprorvq (p_x1 : Reg) (p_x2 : Reg) (p_op : Operand) : E unit :=
  opAVX_X_X_XM p_x1 (OReg p_x2) p_op (((((T_66 ||| T_0F38) ||| T_EW1) ||| T_YMM) ||| T_MUST_EVEX) ||| T_B64) 0x14 NONE.
(* xbyak_mnemonic.h:2551 *)
Definition i_vpscatterdd (p_addr : Address) (p_x : Reg) : E unit :=
  opGather2 p_x p_addr (((((((T_N4 ||| T_66) ||| T_0F38) ||| T_EW0) ||| T_YMM) ||| T_MUST_EVEX) ||| T_M_K) ||| T_VSIB) 0xA0 0.
(* xbyak_mnemonic.h:2552 *)
Definition i_vpscatterdq (p_addr : Address) (p_x : Reg) : E unit :=
  opGather2 p_x p_addr (((((((T_N8 ||| T_66) ||| T_0F38) ||| T_EW1) ||| T_YMM) ||| T_MUST_EVEX) ||| T_M_K) ||| T_VSIB) 0xA0 1.
(* xbyak_mnemonic.h:2553 *)
Definition i_vpscatterqd (p_addr : Address) (p_x : Reg) : E unit :=
  opGather2 p_x p_addr (((((((T_N4 ||| T_66) ||| T_0F38) ||| T_EW0) ||| T_YMM) ||| T_MUST_EVEX) ||| T_M_K) ||| T_VSIB) 0xA1 2.
(* xbyak_mnemonic.h:2554 *)
Definition i_vpscatterqq (p_addr : Address) (p_x : Reg) : E unit :=
  opGather2 p_x p_addr (((((((T_N8 ||| T_66) ||| T_0F38) ||| T_EW1) ||| T_YMM) ||| T_MUST_EVEX) ||| T_M_K) ||| T_VSIB) 0xA1 0.
(* xbyak_mnemonic.h:2555 *)
Definition i_vpshldd (p_x1 : Reg) (p_x2 : Reg) (p_op : Operand) (p_imm : Z) : E unit :=
  let p_imm := w8 p_imm in opAVX_X_X_XM p_x1 (OReg p_x2) p_op ((((((T_66 ||| T_0F3A) ||| T_EW0) ||| T_YMM) ||| T_SAE_Z) ||| T_MUST_EVEX) ||| T_B32) 0x71 p_imm.
(* xbyak_mnemonic.h:2556 *)
Definition i_vpshldq (p_x1 : Reg) (p_x2 : Reg) (p_op : Operand) (p_imm : Z) : E unit :=
  let p_imm := w8 p_imm in opAVX_X_X_XM p_x1 (OReg p_x2) p_op ((((((T_66 ||| T_0F3A) ||| T_EW1) ||| T_YMM) ||| T_SAE_Z) ||| T_MUST_EVEX) ||| T_B64) 0x71 p_imm.
(* xbyak_mnemonic.h:2557 *)
Definition i_vpshldvd (p_x1 : Reg) (p_x2 : Reg) (p_op : Operand) : E unit :=
  opAVX_X_X_XM p_x1 (OReg p_x2) p_op ((((((T_66 ||| T_0F38) ||| T_EW0) ||| T_YMM) ||| T_SAE_Z) ||| T_MUST_EVEX) ||| T_B32) 0x71 NONE.
(* xbyak_mnemonic.h:2558 *)
Definition i_vpshldvq (p_x1 : Reg) (p_x2 : Reg) (p_op : Operand) : E unit :=
  opAVX_X_X_XM p_x1 (OReg p_x2) p_op ((((((T_66 ||| T_0F38) ||| T_EW1) ||| T_YMM) ||| T_SAE_Z) ||| T_MUST_EVEX) ||| T_B64) 0x71 NONE.
(* xbyak_mnemonic.h:2559 *)
Definition i_vpshldvw (p_x1 : Reg) (p_x2 : Reg) (p_op : Operand) : E unit :=
  opAVX_X_X_XM p_x1 (OReg p_x2) p_op (((((T_66 ||| T_0F38) ||| T_EW1) ||| T_YMM) ||| T_SAE_Z) ||| T_MUST_EVEX) 0x70 NONE.
(* xbyak_mnemonic.h:2560 *)
Definition i_vpshldw (p_x1 : Reg) (p_x2 : Reg) (p_op : Operand) (p_imm : Z) : E unit :=
  let p_imm := w8 p_imm in opAVX_X_X_XM p_x1 (OReg p_x2) p_op (((((T_66 ||| T_0F3A) ||| T_EW1) ||| T_YMM) ||| T_SAE_Z) ||| T_MUST_EVEX) 0x70 p_imm.
(* xbyak_mnemonic.h:2561 *)
Definition i_vpshrdd (p_x1 : Reg) (p_x2 : Reg) (p_op : Operand) (p_imm : Z) : E unit :=
  let p_imm := w8 p_imm in opAVX_X_X_XM p_x1 (OReg p_x2) p_op ((((((T_66 ||| T_0F3A) ||| T_EW0) ||| T_YMM) ||| T_SAE_Z) ||| T_MUST_EVEX) ||| T_B32) 0x73 p_imm.
(* xbyak_mnemonic.h:2562 *)
Definition i_vpshrdq (p_x1 : Reg) (p_x2 : Reg) (p_op : Operand) (p_imm : Z) : E unit :=
  let p_imm := w8 p_imm in opAVX_X_X_XM p_x1 (OReg p_x2) p_op ((((((T_66 ||| T_0F3A) ||| T_EW1) ||| T_YMM) ||| T_SAE_Z) ||| T_MUST_EVEX) ||| T_B64) 0x73 p_imm.
(* xbyak_mnemonic.h:2563 *)
Definition i_vpshrdvd (p_x1 : Reg) (p_x2 : Reg) (p_op : Operand) : E unit :=
  opAVX_X_X_XM p_x1 (OReg p_x2) p_op ((((((T_66 ||| T_0F38) ||| T_EW0) ||| T_YMM) ||| T_SAE_Z) ||| T_MUST_EVEX) ||| T_B32) 0x73 NONE.
(* xbyak_mnemonic.h:2564 *)
Definition i_vpshrdvq (p_x1 : Reg) (p_x2 : Reg) (p_op : Operand) : E unit :=
  opAVX_X_X_XM p_x1 (OReg p_x2) p_op ((((((T_66 ||| T_0F38) ||| T_EW1) ||| T_YMM) ||| T_SAE_Z) ||| T_MUST_EVEX) ||| T_B64) 0x73 NONE.
(* xbyak_mnemonic.h:2565 *)
Definition i_vpshrdvw (p_x1 : Reg) (p_x2 : Reg) (p_op : Operand) : E unit :=
  opAVX_X_X_XM p_x1 (OReg p_x2) p_op (((((T_66 ||| T_0F38) ||| T_EW1) ||| T_YMM) ||| T_SAE_Z) ||| T_MUST_EVEX) 0x72 NONE.
(* xbyak_mnemonic.h:2566 *)
Definition i_vpshrdw (p_x1 : Reg) (p_x2 : Reg) (p_op : Operand) (p_imm : Z) : E unit :=
  let p_imm := w8 p_imm in opAVX_X_X_XM p_x1 (OReg p_x2) p_op (((((T_66 ||| T_0F3A) ||| T_EW1) ||| T_YMM) ||| T_SAE_Z) ||| T_MUST_EVEX) 0x72 p_imm.
(* xbyak_mnemonic.h:2567 *)
Definition i_vpshufbitqmb (p_k : Reg) (p_x : Reg) (p_op : Operand) : E unit :=
  opVex p_k (Some p_x) p_op ((((T_66 ||| T_0F38) ||| T_EW0) ||| T_YMM) ||| T_MUST_EVEX) 0x8F NONE.
(* xbyak_mnemonic.h:2568 *)
Definition i_vpsllvw (p_x1 : Reg) (p_x2 : Reg) (p_op : Operand) : E unit :=
  opAVX_X_X_XM p_x1 (OReg p_x2) p_op ((((T_66 ||| T_0F38) ||| T_EW1) ||| T_YMM) ||| T_MUST_EVEX) 0x12 NONE.
(* xbyak_mnemonic.h:2569 *)
Definition i_vpsraq_xoi (p_x : Reg) (p_op : Operand) (p_imm : Z) : E unit :=
  let p_imm := w8 p_imm in opAVX_X_X_XM (XmmK (kind_ p_x) 4) (OReg p_x) p_op (((((T_66 ||| T_0F) ||| T_EW1) ||| T_YMM) ||| T_MUST_EVEX) ||| T_B64) 0x72 p_imm.
(* xbyak_mnemonic.h:2570 *)
Definition i_vpsraq_xxo (p_x1 : Reg) (p_x2 : Reg) (p_op : Operand) : E unit :=
  opAVX_X_X_XM p_x1 (OReg p_x2) p_op (((((T_N16 ||| T_66) ||| T_0F) ||| T_EW1) ||| T_YMM) ||| T_MUST_EVEX) 0xE2 NONE.
(* xbyak_mnemonic.h:2571 *)
Definition i_vpsravq (p_x1 : Reg) (p_x2 : Reg) (p_op : Operand) : E unit :=
  opAVX_X_X_XM p_x1 (OReg p_x2) p_op (((((T_66 ||| T_0F38) ||| T_EW1) ||| T_YMM) ||| T_MUST_EVEX) ||| T_B64) 0x46 NONE.
(* xbyak_mnemonic.h:2572 *)
Definition i_vpsravw (p_x1 : Reg) (p_x2 : Reg) (p_op : Operand) : E unit :=
  opAVX_X_X_XM p_x1 (OReg p_x2) p_op ((((T_66 ||| T_0F38) ||| T_EW1) ||| T_YMM) ||| T_MUST_EVEX) 0x11 NONE.
(* xbyak_mnemonic.h:2573 *)
Definition i_vpsrlvw (p_x1 : Reg) (p_x2 : Reg) (p_op : Operand) : E unit :=
  opAVX_X_X_XM p_x1 (OReg p_x2) p_op ((((T_66 ||| T_0F38) ||| T_EW1) ||| T_YMM) ||| T_MUST_EVEX) 0x10 NONE.
(* xbyak_mnemonic.h:2574 *)
Definition i_vpternlogd (p_x1 : Reg) (p_x2 : Reg) (p_op : Operand) (p_imm : Z) : E unit :=
  let p_imm := w8 p_imm in opAVX_X_X_XM p_x1 (OReg p_x2) p_op (((((T_66 ||| T_0F3A) ||| T_EW0) ||| T_YMM) ||| T_MUST_EVEX) ||| T_B32) 0x25 p_imm.
(* xbyak_mnemonic.h:2575 *)
Definition i_vpternlogq (p_x1 : Reg) (p_x2 : Reg) (p_op : Operand) (p_imm : Z) : E unit :=
  let p_imm := w8 p_imm in opAVX_X_X_XM p_x1 (OReg p_x2) p_op (((((T_66 ||| T_0F3A) ||| T_EW1) ||| T_YMM) ||| T_MUST_EVEX) ||| T_B64) 0x25 p_imm.
(* xbyak_mnemonic.h:2576 *)
Definition i_vptestmb (p_k : Reg) (p_x : Reg) (p_op : Operand) : E unit :=
  opAVX_K_X_XM p_k p_x p_op ((((T_66 ||| T_0F38) ||| T_EW0) ||| T_YMM) ||| T_MUST_EVEX) 0x26 NONE.
(* xbyak_mnemonic.h:2577 *)
Definition i_vptestmd (p_k : Reg) (p_x : Reg) (p_op : Operand) : E unit :=
  opAVX_K_X_XM p_k p_x p_op (((((T_66 ||| T_0F38) ||| T_EW0) ||| T_YMM) ||| T_MUST_EVEX) ||| T_B32) 0x27 NONE.
(* xbyak_mnemonic.h:2578 *)
Definition i_vptestmq (p_k : Reg) (p_x : Reg) (p_op : Operand) : E unit :=
  opAVX_K_X_XM p_k p_x p_op (((((T_66 ||| T_0F38) ||| T_EW1) ||| T_YMM) ||| T_MUST_EVEX) ||| T_B64) 0x27 NONE.
(* xbyak_mnemonic.h:2579 *)
Definition i_vptestmw (p_k : Reg) (p_x : Reg) (p_op : Operand) : E unit :=
  opAVX_K_X_XM p_k p_x p_op ((((T_66 ||| T_0F38) ||| T_EW1) ||| T_YMM) ||| T_MUST_EVEX) 0x26 NONE.
(* xbyak_mnemonic.h:2580 *)
Definition i_vptestnmb (p_k : Reg) (p_x : Reg) (p_op : Operand) : E unit :=
  opAVX_K_X_XM p_k p_x p_op ((((T_F3 ||| T_0F38) ||| T_EW0) ||| T_YMM) ||| T_MUST_EVEX) 0x26 NONE.
(* xbyak_mnemonic.h:2581 *)
Definition i_vptestnmd (p_k : Reg) (p_x : Reg) (p_op : Operand) : E unit :=
  opAVX_K_X_XM p_k p_x p_op (((((T_F3 ||| T_0F38) ||| T_EW0) ||| T_YMM) ||| T_MUST_EVEX) ||| T_B32) 0x27 NONE.
(* xbyak_mnemonic.h:2582 *)
Definition i_vptestnmq (p_k : Reg) (p_x : Reg) (p_op : Operand) : E unit :=
  opAVX_K_X_XM p_k p_x p_op (((((T_F3 ||| T_0F38) ||| T_EW1) ||| T_YMM) ||| T_MUST_EVEX) ||| T_B64) 0x27 NONE.
(* xbyak_mnemonic.h:2583 *)
Definition i_vptestnmw (p_k : Reg) (p_x : Reg) (p_op : Operand) : E unit :=
  opAVX_K_X_XM p_k p_x p_op ((((T_F3 ||| T_0F38) ||| T_EW1) ||| T_YMM) ||| T_MUST_EVEX) 0x26 NONE.
(* xbyak_mnemonic.h:2584 *)
Definition i_vpxord (p_x1 : Reg) (p_x2 : Reg) (p_op : Operand) : E unit :=
  opAVX_X_X_XM p_x1 (OReg p_x2) p_op (((((T_66 ||| T_0F) ||| T_EW0) ||| T_YMM) ||| T_MUST_EVEX) ||| T_B32) 0xEF NONE.
(* xbyak_mnemonic.h:2585 *)
Definition i_vpxorq (p_x1 : Reg) (p_x2 : Reg) (p_op : Operand) : E unit :=
  opAVX_X_X_XM p_x1 (OReg p_x2) p_op (((((T_66 ||| T_0F) ||| T_EW1) ||| T_YMM) ||| T_MUST_EVEX) ||| T_B64) 0xEF NONE.
(* xbyak_mnemonic.h:2586 *)
Definition i_vrangepd (p_x1 : Reg) (p_x2 : Reg) (p_op : Operand) (p_imm : Z) : E unit :=
  let p_imm := w8 p_imm in opAVX_X_X_XM p_x1 (OReg p_x2) p_op ((((((T_66 ||| T_0F3A) ||| T_EW1) ||| T_YMM) ||| T_SAE_Z) ||| T_MUST_EVEX) ||| T_B64) 0x50 p_imm.
(* xbyak_mnemonic.h:2587 *)
Definition i_vrangeps (p_x1 : Reg) (p_x2 : Reg) (p_op : Operand) (p_imm : Z) : E unit :=
  let p_imm := w8 p_imm in opAVX_X_X_XM p_x1 (OReg p_x2) p_op ((((((T_66 ||| T_0F3A) ||| T_EW0) ||| T_YMM) ||| T_SAE_Z) ||| T_MUST_EVEX) ||| T_B32) 0x50 p_imm.
(* xbyak_mnemonic.h:2588 *)
Definition i_vrangesd (p_x1 : Reg) (p_x2 : Reg) (p_op : Operand) (p_imm : Z) : E unit :=
  let p_imm := w8 p_imm in opAVX_X_X_XM p_x1 (OReg p_x2) p_op (((((T_N8 ||| T_66) ||| T_0F3A) ||| T_EW1) ||| T_SAE_X) ||| T_MUST_EVEX) 0x51 p_imm.
(* xbyak_mnemonic.h:2589 *)
Definition i_vrangess (p_x1 : Reg) (p_x2 : Reg) (p_op : Operand) (p_imm : Z) : E unit :=
  let p_imm := w8 p_imm in opAVX_X_X_XM p_x1 (OReg p_x2) p_op (((((T_N4 ||| T_66) ||| T_0F3A) ||| T_EW0) ||| T_SAE_X) ||| T_MUST_EVEX) 0x51 p_imm.
(* xbyak_mnemonic.h:2590 *)
Definition i_vrcp14pd (p_x : Reg) (p_op : Operand) : E unit :=
  opAVX_X_XM_IMM p_x p_op (((((T_66 ||| T_0F38) ||| T_EW1) ||| T_YMM) ||| T_MUST_EVEX) ||| T_B64) 0x4C NONE.
(* xbyak_mnemonic.h:2591 *)
Definition i_vrcp14ps (p_x : Reg) (p_op : Operand) : E unit :=
  opAVX_X_XM_IMM p_x p_op (((((T_66 ||| T_0F38) ||| T_EW0) ||| T_YMM) ||| T_MUST_EVEX) ||| T_B32) 0x4C NONE.
(* xbyak_mnemonic.h:2592 *)
Definition i_vrcp14sd (p_x1 : Reg) (p_x2 : Reg) (p_op : Operand) : E unit :=
  opAVX_X_X_XM p_x1 (OReg p_x2) p_op ((((T_N8 ||| T_66) ||| T_0F38) ||| T_EW1) ||| T_MUST_EVEX) 0x4D NONE.
(* xbyak_mnemonic.h:2593 *)
Definition i_vrcp14ss (p_x1 : Reg) (p_x2 : Reg) (p_op : Operand) : E unit :=
  opAVX_X_X_XM p_x1 (OReg p_x2) p_op ((((T_N4 ||| T_66) ||| T_0F38) ||| T_EW0) ||| T_MUST_EVEX) 0x4D NONE.
(* xbyak_mnemonic.h:2594 *)
Definition i_vrcp28pd (p_z : Reg) (p_op : Operand) : E unit :=
  opAVX_X_XM_IMM p_z p_op ((((((T_66 ||| T_0F38) ||| T_MUST_EVEX) ||| T_YMM) ||| T_EW1) ||| T_B64) ||| T_SAE_Z) 0xCA NONE.
(* xbyak_mnemonic.h:2595 *)
Definition i_vrcp28ps (p_z : Reg) (p_op : Operand) : E unit :=
  opAVX_X_XM_IMM p_z p_op ((((((T_66 ||| T_0F38) ||| T_MUST_EVEX) ||| T_YMM) ||| T_EW0) ||| T_B32) ||| T_SAE_Z) 0xCA NONE.
(* xbyak_mnemonic.h:2596 *)
Definition i_vrcp28sd (p_x1 : Reg) (p_x2 : Reg) (p_op : Operand) : E unit :=
  opAVX_X_X_XM p_x1 (OReg p_x2) p_op (((((T_N8 ||| T_66) ||| T_0F38) ||| T_EW1) ||| T_SAE_X) ||| T_MUST_EVEX) 0xCB NONE.
(* xbyak_mnemonic.h:2597 *)
Definition i_vrcp28ss (p_x1 : Reg) (p_x2 : Reg) (p_op : Operand) : E unit :=
  opAVX_X_X_XM p_x1 (OReg p_x2) p_op (((((T_N4 ||| T_66) ||| T_0F38) ||| T_EW0) ||| T_SAE_X) ||| T_MUST_EVEX) 0xCB NONE.
(* xbyak_mnemonic.h:2598 *)
Definition i_vrcppbf16 (p_x : Reg) (p_op : Operand) : E unit :=
  opAVX_X_XM_IMM p_x p_op ((((T_MAP6 ||| T_EW0) ||| T_YMM) ||| T_MUST_EVEX) ||| T_B16) 0x4C NONE.
(* xbyak_mnemonic.h:2599 *)
Definition i_vrcpph (p_x : Reg) (p_op : Operand) : E unit :=
  opAVX_X_XM_IMM p_x p_op (((((T_66 ||| T_MAP6) ||| T_EW0) ||| T_YMM) ||| T_MUST_EVEX) ||| T_B16) 0x4C NONE.
(* xbyak_mnemonic.h:2600 *)
Definition i_vrcpsh (p_x1 : Reg) (p_x2 : Reg) (p_op : Operand) : E unit :=
  opAVX_X_X_XM p_x1 (OReg p_x2) p_op ((((T_N2 ||| T_66) ||| T_MAP6) ||| T_EW0) ||| T_MUST_EVEX) 0x4D NONE.
(* xbyak_mnemonic.h:2601 *)
Definition i_vreducenepbf16 (p_x : Reg) (p_op : Operand) (p_imm : Z) : E unit :=
  let p_imm := w8 p_imm in opAVX_X_XM_IMM p_x p_op (((((T_F2 ||| T_0F3A) ||| T_EW0) ||| T_YMM) ||| T_MUST_EVEX) ||| T_B16) 0x56 p_imm.
(* xbyak_mnemonic.h:2602 *)
Definition i_vreducepd (p_x : Reg) (p_op : Operand) (p_imm : Z) : E unit :=
  let p_imm := w8 p_imm in opAVX_X_XM_IMM p_x p_op ((((((T_66 ||| T_0F3A) ||| T_EW1) ||| T_YMM) ||| T_SAE_Z) ||| T_MUST_EVEX) ||| T_B64) 0x56 p_imm.
(* xbyak_mnemonic.h:2603 *)
Definition i_vreduceph (p_x : Reg) (p_op : Operand) (p_imm : Z) : E unit :=
  let p_imm := w8 p_imm in opAVX_X_XM_IMM p_x p_op (((((T_0F3A ||| T_EW0) ||| T_YMM) ||| T_SAE_Z) ||| T_MUST_EVEX) ||| T_B16) 0x56 p_imm.
(* xbyak_mnemonic.h:2604 *)
Definition i_vreduceps (p_x : Reg) (p_op : Operand) (p_imm : Z) : E unit :=
  let p_imm := w8 p_imm in opAVX_X_XM_IMM p_x p_op ((((((T_66 ||| T_0F3A) ||| T_EW0) ||| T_YMM) ||| T_SAE_Z) ||| T_MUST_EVEX) ||| T_B32) 0x56 p_imm.
(* xbyak_mnemonic.h:2605 *)
Definition i_vreducesd (p_x1 : Reg) (p_x2 : Reg) (p_op : Operand) (p_imm : Z) : E unit :=
  let p_imm := w8 p_imm in opAVX_X_X_XM p_x1 (OReg p_x2) p_op (((((T_N8 ||| T_66) ||| T_0F3A) ||| T_EW1) ||| T_SAE_X) ||| T_MUST_EVEX) 0x57 p_imm.
(* xbyak_mnemonic.h:2606 *)
Definition i_vreducesh (p_x1 : Reg) (p_x2 : Reg) (p_op : Operand) (p_imm : Z) : E unit :=
  let p_imm := w8 p_imm in opAVX_X_X_XM p_x1 (OReg p_x2) p_op ((((T_N2 ||| T_0F3A) ||| T_EW0) ||| T_SAE_X) ||| T_MUST_EVEX) 0x57 p_imm.
(* xbyak_mnemonic.h:2607 *)
Definition i_vreducess (p_x1 : Reg) (p_x2 : Reg) (p_op : Operand) (p_imm : Z) : E unit :=
  let p_imm := w8 p_imm in opAVX_X_X_XM p_x1 (OReg p_x2) p_op (((((T_N4 ||| T_66) ||| T_0F3A) ||| T_EW0) ||| T_SAE_X) ||| T_MUST_EVEX) 0x57 p_imm.
(* xbyak_mnemonic.h:2608 *)
Definition i_vrndscalenepbf16 (p_x : Reg) (p_op : Operand) (p_imm : Z) : E unit :=
  let p_imm := w8 p_imm in opAVX_X_XM_IMM p_x p_op (((((T_F2 ||| T_0F3A) ||| T_EW0) ||| T_YMM) ||| T_MUST_EVEX) ||| T_B16) 0x08 p_imm.
(* xbyak_mnemonic.h:2609 *)
Definition i_vrndscalepd (p_x : Reg) (p_op : Operand) (p_imm : Z) : E unit :=
  let p_imm := w8 p_imm in opAVX_X_XM_IMM p_x p_op ((((((T_66 ||| T_0F3A) ||| T_EW1) ||| T_YMM) ||| T_SAE_Z) ||| T_MUST_EVEX) ||| T_B64) 0x09 p_imm.
(* xbyak_mnemonic.h:2610 *)
Definition i_vrndscaleph (p_x : Reg) (p_op : Operand) (p_imm : Z) : E unit :=
  let p_imm := w8 p_imm in opAVX_X_XM_IMM p_x p_op (((((T_0F3A ||| T_EW0) ||| T_YMM) ||| T_SAE_Z) ||| T_MUST_EVEX) ||| T_B16) 0x08 p_imm.
(* xbyak_mnemonic.h:2611 *)
Definition i_vrndscaleps (p_x : Reg) (p_op : Operand) (p_imm : Z) : E unit :=
  let p_imm := w8 p_imm in opAVX_X_XM_IMM p_x p_op ((((((T_66 ||| T_0F3A) ||| T_EW0) ||| T_YMM) ||| T_SAE_Z) ||| T_MUST_EVEX) ||| T_B32) 0x08 p_imm.
(* xbyak_mnemonic.h:2612 *)
Definition i_vrndscalesd (p_x1 : Reg) (p_x2 : Reg) (p_op : Operand) (p_imm : Z) : E unit :=
  let p_imm := w8 p_imm in opAVX_X_X_XM p_x1 (OReg p_x2) p_op (((((T_N8 ||| T_66) ||| T_0F3A) ||| T_EW1) ||| T_SAE_X) ||| T_MUST_EVEX) 0x0B p_imm.
(* xbyak_mnemonic.h:2613 *)
Definition i_vrndscalesh (p_x1 : Reg) (p_x2 : Reg) (p_op : Operand) (p_imm : Z) : E unit :=
  let p_imm := w8 p_imm in opAVX_X_X_XM p_x1 (OReg p_x2) p_op ((((T_N2 ||| T_0F3A) ||| T_EW0) ||| T_SAE_X) ||| T_MUST_EVEX) 0x0A p_imm.
(* xbyak_mnemonic.h:2614 *)
Definition i_vrndscaless (p_x1 : Reg) (p_x2 : Reg) (p_op : Operand) (p_imm : Z) : E unit :=
  let p_imm := w8 p_imm in opAVX_X_X_XM p_x1 (OReg p_x2) p_op (((((T_N4 ||| T_66) ||| T_0F3A) ||| T_EW0) ||| T_SAE_X) ||| T_MUST_EVEX) 0x0A p_imm.
(* xbyak_mnemonic.h:2615 *)
Definition i_vrsqrt14pd (p_x : Reg) (p_op : Operand) : E unit :=
  opAVX_X_XM_IMM p_x p_op (((((T_66 ||| T_0F38) ||| T_EW1) ||| T_YMM) ||| T_MUST_EVEX) ||| T_B64) 0x4E NONE.
(* xbyak_mnemonic.h:2616 *)
Definition i_vrsqrt14ps (p_x : Reg) (p_op : Operand) : E unit :=
  opAVX_X_XM_IMM p_x p_op (((((T_66 ||| T_0F38) ||| T_EW0) ||| T_YMM) ||| T_MUST_EVEX) ||| T_B32) 0x4E NONE.
(* xbyak_mnemonic.h:2617 *)
Definition i_vrsqrt14sd (p_x1 : Reg) (p_x2 : Reg) (p_op : Operand) : E unit :=
  opAVX_X_X_XM p_x1 (OReg p_x2) p_op (((((T_N8 ||| T_66) ||| T_0F38) ||| T_EW1) ||| T_YMM) ||| T_MUST_EVEX) 0x4F NONE.
(* xbyak_mnemonic.h:2618 *)
Definition i_vrsqrt14ss (p_x1 : Reg) (p_x2 : Reg) (p_op : Operand) : E unit :=
  opAVX_X_X_XM p_x1 (OReg p_x2) p_op (((((T_N4 ||| T_66) ||| T_0F38) ||| T_EW0) ||| T_YMM) ||| T_MUST_EVEX) 0x4F NONE.
(* xbyak_mnemonic.h:2619 *)
Definition i_vrsqrt28pd (p_z : Reg) (p_op : Operand) : E unit :=
  opAVX_X_XM_IMM p_z p_op ((((((T_66 ||| T_0F38) ||| T_MUST_EVEX) ||| T_YMM) ||| T_EW1) ||| T_B64) ||| T_SAE_Z) 0xCC NONE.
(* xbyak_mnemonic.h:2620 *)
Definition i_vrsqrt28ps (p_z : Reg) (p_op : Operand) : E unit :=
  opAVX_X_XM_IMM p_z p_op ((((((T_66 ||| T_0F38) ||| T_MUST_EVEX) ||| T_YMM) ||| T_EW0) ||| T_B32) ||| T_SAE_Z) 0xCC NONE.
(* xbyak_mnemonic.h:2621 *)
Definition i_vrsqrt28sd (p_x1 : Reg) (p_x2 : Reg) (p_op : Operand) : E unit :=
  opAVX_X_X_XM p_x1 (OReg p_x2) p_op (((((T_N8 ||| T_66) ||| T_0F38) ||| T_EW1) ||| T_SAE_X) ||| T_MUST_EVEX) 0xCD NONE.
(* xbyak_mnemonic.h:2622 *)
Definition i_vrsqrt28ss (p_x1 : Reg) (p_x2 : Reg) (p_op : Operand) : E unit :=
  opAVX_X_X_XM p_x1 (OReg p_x2) p_op (((((T_N4 ||| T_66) ||| T_0F38) ||| T_EW0) ||| T_SAE_X) ||| T_MUST_EVEX) 0xCD NONE.
(* xbyak_mnemonic.h:2623 *)
Definition i_vrsqrtpbf16 (p_x : Reg) (p_op : Operand) : E unit :=
  opAVX_X_XM_IMM p_x p_op ((((T_MAP6 ||| T_EW0) ||| T_YMM) ||| T_MUST_EVEX) ||| T_B16) 0x4E NONE.
(* xbyak_mnemonic.h:2624 *)
Definition i_vrsqrtph (p_x : Reg) (p_op : Operand) : E unit :=
  opAVX_X_XM_IMM p_x p_op (((((T_66 ||| T_MAP6) ||| T_EW0) ||| T_YMM) ||| T_MUST_EVEX) ||| T_B16) 0x4E NONE.
(* xbyak_mnemonic.h:2625 *)
Definition i_vrsqrtsh (p_x1 : Reg) (p_x2 : Reg) (p_op : Operand) : E unit :=
  opAVX_X_X_XM p_x1 (OReg p_x2) p_op ((((T_N2 ||| T_66) ||| T_MAP6) ||| T_EW0) ||| T_MUST_EVEX) 0x4F NONE.
(* xbyak_mnemonic.h:2626 *)
Definition i_vscalefpbf16_xo (p_x : Reg) (p_op : Operand) : E unit :=
  opAVX_X_XM_IMM p_x p_op ((((T_MAP6 ||| T_EW0) ||| T_YMM) ||| T_MUST_EVEX) ||| T_B16) 0x2C NONE.
(* xbyak_mnemonic.h:2627 *)
Definition i_vscalefpbf16_xxo (p_x1 : Reg) (p_x2 : Reg) (p_op : Operand) : E unit :=
  opAVX_X_X_XM p_x1 (OReg p_x2) p_op ((((T_MAP6 ||| T_EW0) ||| T_YMM) ||| T_MUST_EVEX) ||| T_B16) 0x2C NONE.
(* xbyak_mnemonic.h:2628 *)
Definition i_vscalefpd (p_x1 : Reg) (p_x2 : Reg) (p_op : Operand) : E unit :=
  opAVX_X_X_XM p_x1 (OReg p_x2) p_op ((((((T_66 ||| T_0F38) ||| T_EW1) ||| T_YMM) ||| T_ER_Z) ||| T_MUST_EVEX) ||| T_B64) 0x2C NONE.
(* xbyak_mnemonic.h:2629 *)
Definition i_vscalefph (p_x1 : Reg) (p_x2 : Reg) (p_op : Operand) : E unit :=
  opAVX_X_X_XM p_x1 (OReg p_x2) p_op ((((((T_66 ||| T_MAP6) ||| T_EW0) ||| T_YMM) ||| T_ER_Z) ||| T_MUST_EVEX) ||| T_B16) 0x2C NONE.
(* xbyak_mnemonic.h:2630 *)
Definition i_vscalefps (p_x1 : Reg) (p_x2 : Reg) (p_op : Operand) : E unit :=
  opAVX_X_X_XM p_x1 (OReg p_x2) p_op ((((((T_66 ||| T_0F38) ||| T_EW0) ||| T_YMM) ||| T_ER_Z) ||| T_MUST_EVEX) ||| T_B32) 0x2C NONE.
(* xbyak_mnemonic.h:2631 *)
Definition i_vscalefsd (p_x1 : Reg) (p_x2 : Reg) (p_op : Operand) : E unit :=
  opAVX_X_X_XM p_x1 (OReg p_x2) p_op (((((T_N8 ||| T_66) ||| T_0F38) ||| T_EW1) ||| T_ER_X) ||| T_MUST_EVEX) 0x2D NONE.
(* xbyak_mnemonic.h:2632 *)
Definition i_vscalefsh (p_x1 : Reg) (p_x2 : Reg) (p_op : Operand) : E unit :=
  opAVX_X_X_XM p_x1 (OReg p_x2) p_op (((((T_N2 ||| T_66) ||| T_MAP6) ||| T_EW0) ||| T_ER_X) ||| T_MUST_EVEX) 0x2D NONE.
(* xbyak_mnemonic.h:2633 *)
Definition i_vscalefss (p_x1 : Reg) (p_x2 : Reg) (p_op : Operand) : E unit :=
  opAVX_X_X_XM p_x1 (OReg p_x2) p_op (((((T_N4 ||| T_66) ||| T_0F38) ||| T_EW0) ||| T_ER_X) ||| T_MUST_EVEX) 0x2D NONE.
(* xbyak_mnemonic.h:2634 *)
Definition i_vscatterdpd (p_addr : Address) (p_x : Reg) : E unit :=
  opGather2 p_x p_addr (((((((T_N8 ||| T_66) ||| T_0F38) ||| T_EW1) ||| T_YMM) ||| T_MUST_EVEX) ||| T_M_K) ||| T_VSIB) 0xA2 1.
(* xbyak_mnemonic.h:2635 *)
Definition i_vscatterdps (p_addr : Address) (p_x : Reg) : E unit :=
  opGather2 p_x p_addr (((((((T_N4 ||| T_66) ||| T_0F38) ||| T_EW0) ||| T_YMM) ||| T_MUST_EVEX) ||| T_M_K) ||| T_VSIB) 0xA2 0.
(* xbyak_mnemonic.h:2636 *)
Definition i_vscatterpf0dpd (p_addr : Address) : E unit :=
  opGatherFetch p_addr (Zmm 5) ((((((T_N8 ||| T_66) ||| T_0F38) ||| T_EW1) ||| T_MUST_EVEX) ||| T_M_K) ||| T_VSIB) 0xC6 YMM.
(* xbyak_mnemonic.h:2637 *)
Definition i_vscatterpf0dps (p_addr : Address) : E unit :=
  opGatherFetch p_addr (Zmm 5) ((((((T_N4 ||| T_66) ||| T_0F38) ||| T_EW0) ||| T_MUST_EVEX) ||| T_M_K) ||| T_VSIB) 0xC6 ZMM.
(* xbyak_mnemonic.h:2638 *)
Definition i_vscatterpf0qpd (p_addr : Address) : E unit :=
  opGatherFetch p_addr (Zmm 5) ((((((T_N8 ||| T_66) ||| T_0F38) ||| T_EW1) ||| T_MUST_EVEX) ||| T_M_K) ||| T_VSIB) 0xC7 ZMM.
(* xbyak_mnemonic.h:2639 *)
Definition i_vscatterpf0qps (p_addr : Address) : E unit :=
  opGatherFetch p_addr (Zmm 5) ((((((T_N4 ||| T_66) ||| T_0F38) ||| T_EW0) ||| T_MUST_EVEX) ||| T_M_K) ||| T_VSIB) 0xC7 ZMM.
(* xbyak_mnemonic.h:2640 *)
Definition i_vscatterpf1dpd (p_addr : Address) : E unit :=
  opGatherFetch p_addr (Zmm 6) ((((((T_N8 ||| T_66) ||| T_0F38) ||| T_EW1) ||| T_MUST_EVEX) ||| T_M_K) ||| T_VSIB) 0xC6 YMM.
(* xbyak_mnemonic.h:2641 *)
Definition i_vscatterpf1dps (p_addr : Address) : E unit :=
  opGatherFetch p_addr (Zmm 6) ((((((T_N4 ||| T_66) ||| T_0F38) ||| T_EW0) ||| T_MUST_EVEX) ||| T_M_K) ||| T_VSIB) 0xC6 ZMM.
(* xbyak_mnemonic.h:2642 *)
Definition i_vscatterpf1qpd (p_addr : Address) : E unit :=
  opGatherFetch p_addr (Zmm 6) ((((((T_N8 ||| T_66) ||| T_0F38) ||| T_EW1) ||| T_MUST_EVEX) ||| T_M_K) ||| T_VSIB) 0xC7 ZMM.
(* xbyak_mnemonic.h:2643 *)
Definition i_vscatterpf1qps (p_addr : Address) : E unit :=
  opGatherFetch p_addr (Zmm 6) ((((((T_N4 ||| T_66) ||| T_0F38) ||| T_EW0) ||| T_MUST_EVEX) ||| T_M_K) ||| T_VSIB) 0xC7 ZMM.
(* xbyak_mnemonic.h:2644 *)
Definition i_vscatterqpd (p_addr : Address) (p_x : Reg) : E unit :=
  opGather2 p_x p_addr (((((((T_N8 ||| T_66) ||| T_0F38) ||| T_EW1) ||| T_YMM) ||| T_MUST_EVEX) ||| T_M_K) ||| T_VSIB) 0xA3 0.
(* xbyak_mnemonic.h:2645 *)
Definition i_vscatterqps (p_addr : Address) (p_x : Reg) : E unit :=
  opGather2 p_x p_addr (((((((T_N4 ||| T_66) ||| T_0F38) ||| T_EW0) ||| T_YMM) ||| T_MUST_EVEX) ||| T_M_K) ||| T_VSIB) 0xA3 2.
(* xbyak_mnemonic.h:2646 *)
Definition i_vshuff32x4 (p_y1 : Reg) (p_y2 : Reg) (p_op : Operand) (p_imm : Z) : E unit :=
  let p_imm := w8 p_imm in opAVX_X_X_XM p_y1 (OReg p_y2) p_op (((((T_66 ||| T_0F3A) ||| T_YMM) ||| T_MUST_EVEX) ||| T_EW0) ||| T_B32) 0x23 p_imm.
(* xbyak_mnemonic.h:2647 *)
Definition i_vshuff64x2 (p_y1 : Reg) (p_y2 : Reg) (p_op : Operand) (p_imm : Z) : E unit :=
  let p_imm := w8 p_imm in opAVX_X_X_XM p_y1 (OReg p_y2) p_op (((((T_66 ||| T_0F3A) ||| T_YMM) ||| T_MUST_EVEX) ||| T_EW1) ||| T_B64) 0x23 p_imm.
(* xbyak_mnemonic.h:2648 *)
Definition i_vshufi32x4 (p_y1 : Reg) (p_y2 : Reg) (p_op : Operand) (p_imm : Z) : E unit :=
  let p_imm := w8 p_imm in opAVX_X_X_XM p_y1 (OReg p_y2) p_op (((((T_66 ||| T_0F3A) ||| T_YMM) ||| T_MUST_EVEX) ||| T_EW0) ||| T_B32) 0x43 p_imm.
(* xbyak_mnemonic.h:2649 *)
Definition i_vshufi64x2 (p_y1 : Reg) (p_y2 : Reg) (p_op : Operand) (p_imm : Z) : E unit :=
  let p_imm := w8 p_imm in opAVX_X_X_XM p_y1 (OReg p_y2) p_op (((((T_66 ||| T_0F3A) ||| T_YMM) ||| T_MUST_EVEX) ||| T_EW1) ||| T_B64) 0x43 p_imm.
(* xbyak_mnemonic.h:2650 *)
Definition i_vsqrtnepbf16 (p_x : Reg) (p_op : Operand) : E unit :=
  opAVX_X_XM_IMM p_x p_op (((((T_66 ||| T_MAP5) ||| T_EW0) ||| T_YMM) ||| T_MUST_EVEX) ||| T_B16) 0x51 NONE.
(* xbyak_mnemonic.h:2651 *)
Definition i_vsqrtph (p_x : Reg) (p_op : Operand) : E unit :=
  opAVX_X_XM_IMM p_x p_op (((((T_MAP5 ||| T_EW0) ||| T_YMM) ||| T_ER_Z) ||| T_MUST_EVEX) ||| T_B16) 0x51 NONE.
(* xbyak_mnemonic.h:2652 *)
Definition i_vsqrtsh (p_x1 : Reg) (p_x2 : Reg) (p_op : Operand) : E unit :=
  opAVX_X_X_XM p_x1 (OReg p_x2) p_op (((((T_N2 ||| T_F3) ||| T_MAP5) ||| T_EW0) ||| T_ER_X) ||| T_MUST_EVEX) 0x51 NONE.
(* xbyak_mnemonic.h:2653 *)
Definition i_vsubnepbf16 (p_x1 : Reg) (p_x2 : Reg) (p_op : Operand) : E unit :=
  opAVX_X_X_XM p_x1 (OReg p_x2) p_op (((((T_66 ||| T_MAP5) ||| T_EW0) ||| T_YMM) ||| T_MUST_EVEX) ||| T_B16) 0x5C NONE.
(* xbyak_mnemonic.h:2654 *)
Definition i_vsubph (p_xmm : Reg) (p_op1 : Operand) (p_op2 : Operand) : E unit :=
  opAVX_X_X_XM p_xmm p_op1 p_op2 (((((T_MAP5 ||| T_EW0) ||| T_YMM) ||| T_MUST_EVEX) ||| T_ER_Z) ||| T_B16) 0x5C NONE.
(* xbyak_mnemonic.h:2655 *)
Definition i_vsubsh (p_xmm : Reg) (p_op1 : Operand) (p_op2 : Operand) : E unit :=
  opAVX_X_X_XM p_xmm p_op1 p_op2 (((((T_MAP5 ||| T_F3) ||| T_EW0) ||| T_MUST_EVEX) ||| T_ER_X) ||| T_N2) 0x5C NONE.
(* xbyak_mnemonic.h:2656 *)
Definition i_vucomish (p_x : Reg) (p_op : Operand) : E unit :=
  opAVX_X_XM_IMM p_x p_op ((((T_N2 ||| T_MAP5) ||| T_EW0) ||| T_SAE_X) ||| T_MUST_EVEX) 0x2E NONE.
(* xbyak_mnemonic.h:2657 *)
Definition i_vucomxsd (p_x : Reg) (p_op : Operand) : E unit :=
  opAVX_X_XM_IMM p_x p_op (((((T_N8 ||| T_F2) ||| T_0F) ||| T_EW1) ||| T_SAE_X) ||| T_MUST_EVEX) 0x2E NONE.
(* xbyak_mnemonic.h:2658 *)
Definition i_vucomxsh (p_x : Reg) (p_op : Operand) : E unit :=
  opAVX_X_XM_IMM p_x p_op (((((T_N2 ||| T_F3) ||| T_MAP5) ||| T_EW0) ||| T_SAE_X) ||| T_MUST_EVEX) 0x2E NONE.
(* xbyak_mnemonic.h:2659 *)
Definition i_vucomxss (p_x : Reg) (p_op : Operand) : E unit :=
  opAVX_X_XM_IMM p_x p_op (((((T_N4 ||| T_F3) ||| T_0F) ||| T_EW0) ||| T_SAE_X) ||| T_MUST_EVEX) 0x2E NONE.
