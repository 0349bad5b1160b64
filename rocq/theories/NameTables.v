(* Model: the register and address-frame objects of class CodeGenerator (xbyak.h:2862-2909 declared, 3144-3201 initialised) and of
   namespace util (3348-3389), with the classes and constructor arguments written there.  Produced by tools/nametab.py. *)
From Coq Require Import ZArith List String.
From Verif Require Import Base Types.
Import ListNotations.
Open Scope string_scope. Open Scope Z_scope.

Definition members : list (string * Reg) :=
  [("mm0", Mmx 0); ("mm1", Mmx 1); ("mm2", Mmx 2); ("mm3", Mmx 3); ("mm4", Mmx 4); ("mm5", Mmx 5); ("mm6", Mmx 6); ("mm7", Mmx 7);
   ("xmm0", Xmm 0); ("xmm1", Xmm 1); ("xmm2", Xmm 2); ("xmm3", Xmm 3); ("xmm4", Xmm 4); ("xmm5", Xmm 5); ("xmm6", Xmm 6); ("xmm7", Xmm 7);
   ("ymm0", Ymm 0); ("ymm1", Ymm 1); ("ymm2", Ymm 2); ("ymm3", Ymm 3); ("ymm4", Ymm 4); ("ymm5", Ymm 5); ("ymm6", Ymm 6); ("ymm7", Ymm 7);
   ("zmm0", Zmm 0); ("zmm1", Zmm 1); ("zmm2", Zmm 2); ("zmm3", Zmm 3); ("zmm4", Zmm 4); ("zmm5", Zmm 5); ("zmm6", Zmm 6); ("zmm7", Zmm 7);
   ("eax", Reg32 0); ("ecx", Reg32 1); ("edx", Reg32 2); ("ebx", Reg32 3); ("esp", Reg32 4); ("ebp", Reg32 5); ("esi", Reg32 6); ("edi", Reg32 7);
   ("ax", Reg16 0); ("cx", Reg16 1); ("dx", Reg16 2); ("bx", Reg16 3); ("sp", Reg16 4); ("bp", Reg16 5); ("si", Reg16 6); ("di", Reg16 7);
   ("al", Reg8 0); ("cl", Reg8 1); ("dl", Reg8 2); ("bl", Reg8 3); ("ah", Reg8 4); ("ch", Reg8 5); ("dh", Reg8 6); ("bh", Reg8 7);
   ("st0", Fpu 0); ("st1", Fpu 1); ("st2", Fpu 2); ("st3", Fpu 3); ("st4", Fpu 4); ("st5", Fpu 5); ("st6", Fpu 6); ("st7", Fpu 7);
   ("k0", Opmask 0); ("k1", Opmask 1); ("k2", Opmask 2); ("k3", Opmask 3); ("k4", Opmask 4); ("k5", Opmask 5); ("k6", Opmask 6); ("k7", Opmask 7);
   ("bnd0", BoundsReg 0); ("bnd1", BoundsReg 1); ("bnd2", BoundsReg 2); ("bnd3", BoundsReg 3); ("rax", Reg64 0); ("rcx", Reg64 1); ("rdx", Reg64 2); ("rbx", Reg64 3);
   ("rsp", Reg64 4); ("rbp", Reg64 5); ("rsi", Reg64 6); ("rdi", Reg64 7); ("r8", Reg64 8); ("r9", Reg64 9); ("r10", Reg64 10); ("r11", Reg64 11);
   ("r12", Reg64 12); ("r13", Reg64 13); ("r14", Reg64 14); ("r15", Reg64 15); ("r16", Reg64 16); ("r17", Reg64 17); ("r18", Reg64 18); ("r19", Reg64 19);
   ("r20", Reg64 20); ("r21", Reg64 21); ("r22", Reg64 22); ("r23", Reg64 23); ("r24", Reg64 24); ("r25", Reg64 25); ("r26", Reg64 26); ("r27", Reg64 27);
   ("r28", Reg64 28); ("r29", Reg64 29); ("r30", Reg64 30); ("r31", Reg64 31); ("r8d", Reg32 8); ("r9d", Reg32 9); ("r10d", Reg32 10); ("r11d", Reg32 11);
   ("r12d", Reg32 12); ("r13d", Reg32 13); ("r14d", Reg32 14); ("r15d", Reg32 15); ("r16d", Reg32 16); ("r17d", Reg32 17); ("r18d", Reg32 18); ("r19d", Reg32 19);
   ("r20d", Reg32 20); ("r21d", Reg32 21); ("r22d", Reg32 22); ("r23d", Reg32 23); ("r24d", Reg32 24); ("r25d", Reg32 25); ("r26d", Reg32 26); ("r27d", Reg32 27);
   ("r28d", Reg32 28); ("r29d", Reg32 29); ("r30d", Reg32 30); ("r31d", Reg32 31); ("r8w", Reg16 8); ("r9w", Reg16 9); ("r10w", Reg16 10); ("r11w", Reg16 11);
   ("r12w", Reg16 12); ("r13w", Reg16 13); ("r14w", Reg16 14); ("r15w", Reg16 15); ("r16w", Reg16 16); ("r17w", Reg16 17); ("r18w", Reg16 18); ("r19w", Reg16 19);
   ("r20w", Reg16 20); ("r21w", Reg16 21); ("r22w", Reg16 22); ("r23w", Reg16 23); ("r24w", Reg16 24); ("r25w", Reg16 25); ("r26w", Reg16 26); ("r27w", Reg16 27);
   ("r28w", Reg16 28); ("r29w", Reg16 29); ("r30w", Reg16 30); ("r31w", Reg16 31); ("r8b", Reg8 8); ("r9b", Reg8 9); ("r10b", Reg8 10); ("r11b", Reg8 11);
   ("r12b", Reg8 12); ("r13b", Reg8 13); ("r14b", Reg8 14); ("r15b", Reg8 15); ("r16b", Reg8 16); ("r17b", Reg8 17); ("r18b", Reg8 18); ("r19b", Reg8 19);
   ("r20b", Reg8 20); ("r21b", Reg8 21); ("r22b", Reg8 22); ("r23b", Reg8 23); ("r24b", Reg8 24); ("r25b", Reg8 25); ("r26b", Reg8 26); ("r27b", Reg8 27);
   ("r28b", Reg8 28); ("r29b", Reg8 29); ("r30b", Reg8 30); ("r31b", Reg8 31); ("spl", Reg8e 4); ("bpl", Reg8e 5); ("sil", Reg8e 6); ("dil", Reg8e 7);
   ("xmm8", Xmm 8); ("xmm9", Xmm 9); ("xmm10", Xmm 10); ("xmm11", Xmm 11); ("xmm12", Xmm 12); ("xmm13", Xmm 13); ("xmm14", Xmm 14); ("xmm15", Xmm 15);
   ("xmm16", Xmm 16); ("xmm17", Xmm 17); ("xmm18", Xmm 18); ("xmm19", Xmm 19); ("xmm20", Xmm 20); ("xmm21", Xmm 21); ("xmm22", Xmm 22); ("xmm23", Xmm 23);
   ("xmm24", Xmm 24); ("xmm25", Xmm 25); ("xmm26", Xmm 26); ("xmm27", Xmm 27); ("xmm28", Xmm 28); ("xmm29", Xmm 29); ("xmm30", Xmm 30); ("xmm31", Xmm 31);
   ("ymm8", Ymm 8); ("ymm9", Ymm 9); ("ymm10", Ymm 10); ("ymm11", Ymm 11); ("ymm12", Ymm 12); ("ymm13", Ymm 13); ("ymm14", Ymm 14); ("ymm15", Ymm 15);
   ("ymm16", Ymm 16); ("ymm17", Ymm 17); ("ymm18", Ymm 18); ("ymm19", Ymm 19); ("ymm20", Ymm 20); ("ymm21", Ymm 21); ("ymm22", Ymm 22); ("ymm23", Ymm 23);
   ("ymm24", Ymm 24); ("ymm25", Ymm 25); ("ymm26", Ymm 26); ("ymm27", Ymm 27); ("ymm28", Ymm 28); ("ymm29", Ymm 29); ("ymm30", Ymm 30); ("ymm31", Ymm 31);
   ("zmm8", Zmm 8); ("zmm9", Zmm 9); ("zmm10", Zmm 10); ("zmm11", Zmm 11); ("zmm12", Zmm 12); ("zmm13", Zmm 13); ("zmm14", Zmm 14); ("zmm15", Zmm 15);
   ("zmm16", Zmm 16); ("zmm17", Zmm 17); ("zmm18", Zmm 18); ("zmm19", Zmm 19); ("zmm20", Zmm 20); ("zmm21", Zmm 21); ("zmm22", Zmm 22); ("zmm23", Zmm 23);
   ("zmm24", Zmm 24); ("zmm25", Zmm 25); ("zmm26", Zmm 26); ("zmm27", Zmm 27); ("zmm28", Zmm 28); ("zmm29", Zmm 29); ("zmm30", Zmm 30); ("zmm31", Zmm 31);
   ("tmm0", Tmm 0); ("tmm1", Tmm 1); ("tmm2", Tmm 2); ("tmm3", Tmm 3); ("tmm4", Tmm 4); ("tmm5", Tmm 5); ("tmm6", Tmm 6); ("tmm7", Tmm 7)].
(* references to other members *)
Definition shorthands : list (string * Reg) :=
  [("xm0", Xmm 0); ("xm1", Xmm 1); ("xm2", Xmm 2); ("xm3", Xmm 3); ("xm4", Xmm 4); ("xm5", Xmm 5); ("xm6", Xmm 6); ("xm7", Xmm 7);
   ("ym0", Ymm 0); ("ym1", Ymm 1); ("ym2", Ymm 2); ("ym3", Ymm 3); ("ym4", Ymm 4); ("ym5", Ymm 5); ("ym6", Ymm 6); ("ym7", Ymm 7);
   ("zm0", Zmm 0); ("zm1", Zmm 1); ("zm2", Zmm 2); ("zm3", Zmm 3); ("zm4", Zmm 4); ("zm5", Zmm 5); ("zm6", Zmm 6); ("zm7", Zmm 7);
   ("xm8", Xmm 8); ("xm9", Xmm 9); ("xm10", Xmm 10); ("xm11", Xmm 11); ("xm12", Xmm 12); ("xm13", Xmm 13); ("xm14", Xmm 14); ("xm15", Xmm 15);
   ("xm16", Xmm 16); ("xm17", Xmm 17); ("xm18", Xmm 18); ("xm19", Xmm 19); ("xm20", Xmm 20); ("xm21", Xmm 21); ("xm22", Xmm 22); ("xm23", Xmm 23);
   ("xm24", Xmm 24); ("xm25", Xmm 25); ("xm26", Xmm 26); ("xm27", Xmm 27); ("xm28", Xmm 28); ("xm29", Xmm 29); ("xm30", Xmm 30); ("xm31", Xmm 31);
   ("ym8", Ymm 8); ("ym9", Ymm 9); ("ym10", Ymm 10); ("ym11", Ymm 11); ("ym12", Ymm 12); ("ym13", Ymm 13); ("ym14", Ymm 14); ("ym15", Ymm 15);
   ("ym16", Ymm 16); ("ym17", Ymm 17); ("ym18", Ymm 18); ("ym19", Ymm 19); ("ym20", Ymm 20); ("ym21", Ymm 21); ("ym22", Ymm 22); ("ym23", Ymm 23);
   ("ym24", Ymm 24); ("ym25", Ymm 25); ("ym26", Ymm 26); ("ym27", Ymm 27); ("ym28", Ymm 28); ("ym29", Ymm 29); ("ym30", Ymm 30); ("ym31", Ymm 31);
   ("zm8", Zmm 8); ("zm9", Zmm 9); ("zm10", Zmm 10); ("zm11", Zmm 11); ("zm12", Zmm 12); ("zm13", Zmm 13); ("zm14", Zmm 14); ("zm15", Zmm 15);
   ("zm16", Zmm 16); ("zm17", Zmm 17); ("zm18", Zmm 18); ("zm19", Zmm 19); ("zm20", Zmm 20); ("zm21", Zmm 21); ("zm22", Zmm 22); ("zm23", Zmm 23);
   ("zm24", Zmm 24); ("zm25", Zmm 25); ("zm26", Zmm 26); ("zm27", Zmm 27); ("zm28", Zmm 28); ("zm29", Zmm 29); ("zm30", Zmm 30); ("zm31", Zmm 31)].
Definition frames : list (string * (Z * bool)) :=
  [("ptr", (0, false)); ("byte", (8, false)); ("word", (16, false)); ("dword", (32, false)); ("qword", (64, false)); ("xword", (128, false)); ("yword", (256, false)); ("zword", (512, false));
   ("ptr_b", (0, true)); ("xword_b", (128, true)); ("yword_b", (256, true)); ("zword_b", (512, true))].
Definition util_members : list (string * Reg) :=
  [("mm0", Mmx 0); ("mm1", Mmx 1); ("mm2", Mmx 2); ("mm3", Mmx 3); ("mm4", Mmx 4); ("mm5", Mmx 5); ("mm6", Mmx 6); ("mm7", Mmx 7);
   ("xmm0", Xmm 0); ("xmm1", Xmm 1); ("xmm2", Xmm 2); ("xmm3", Xmm 3); ("xmm4", Xmm 4); ("xmm5", Xmm 5); ("xmm6", Xmm 6); ("xmm7", Xmm 7);
   ("ymm0", Ymm 0); ("ymm1", Ymm 1); ("ymm2", Ymm 2); ("ymm3", Ymm 3); ("ymm4", Ymm 4); ("ymm5", Ymm 5); ("ymm6", Ymm 6); ("ymm7", Ymm 7);
   ("zmm0", Zmm 0); ("zmm1", Zmm 1); ("zmm2", Zmm 2); ("zmm3", Zmm 3); ("zmm4", Zmm 4); ("zmm5", Zmm 5); ("zmm6", Zmm 6); ("zmm7", Zmm 7);
   ("eax", Reg32 0); ("ecx", Reg32 1); ("edx", Reg32 2); ("ebx", Reg32 3); ("esp", Reg32 4); ("ebp", Reg32 5); ("esi", Reg32 6); ("edi", Reg32 7);
   ("ax", Reg16 0); ("cx", Reg16 1); ("dx", Reg16 2); ("bx", Reg16 3); ("sp", Reg16 4); ("bp", Reg16 5); ("si", Reg16 6); ("di", Reg16 7);
   ("al", Reg8 0); ("cl", Reg8 1); ("dl", Reg8 2); ("bl", Reg8 3); ("ah", Reg8 4); ("ch", Reg8 5); ("dh", Reg8 6); ("bh", Reg8 7);
   ("st0", Fpu 0); ("st1", Fpu 1); ("st2", Fpu 2); ("st3", Fpu 3); ("st4", Fpu 4); ("st5", Fpu 5); ("st6", Fpu 6); ("st7", Fpu 7);
   ("k0", Opmask 0); ("k1", Opmask 1); ("k2", Opmask 2); ("k3", Opmask 3); ("k4", Opmask 4); ("k5", Opmask 5); ("k6", Opmask 6); ("k7", Opmask 7);
   ("bnd0", BoundsReg 0); ("bnd1", BoundsReg 1); ("bnd2", BoundsReg 2); ("bnd3", BoundsReg 3); ("rax", Reg64 0); ("rcx", Reg64 1); ("rdx", Reg64 2); ("rbx", Reg64 3);
   ("rsp", Reg64 4); ("rbp", Reg64 5); ("rsi", Reg64 6); ("rdi", Reg64 7); ("r8", Reg64 8); ("r9", Reg64 9); ("r10", Reg64 10); ("r11", Reg64 11);
   ("r12", Reg64 12); ("r13", Reg64 13); ("r14", Reg64 14); ("r15", Reg64 15); ("r16", Reg64 16); ("r17", Reg64 17); ("r18", Reg64 18); ("r19", Reg64 19);
   ("r20", Reg64 20); ("r21", Reg64 21); ("r22", Reg64 22); ("r23", Reg64 23); ("r24", Reg64 24); ("r25", Reg64 25); ("r26", Reg64 26); ("r27", Reg64 27);
   ("r28", Reg64 28); ("r29", Reg64 29); ("r30", Reg64 30); ("r31", Reg64 31); ("r8d", Reg32 8); ("r9d", Reg32 9); ("r10d", Reg32 10); ("r11d", Reg32 11);
   ("r12d", Reg32 12); ("r13d", Reg32 13); ("r14d", Reg32 14); ("r15d", Reg32 15); ("r16d", Reg32 16); ("r17d", Reg32 17); ("r18d", Reg32 18); ("r19d", Reg32 19);
   ("r20d", Reg32 20); ("r21d", Reg32 21); ("r22d", Reg32 22); ("r23d", Reg32 23); ("r24d", Reg32 24); ("r25d", Reg32 25); ("r26d", Reg32 26); ("r27d", Reg32 27);
   ("r28d", Reg32 28); ("r29d", Reg32 29); ("r30d", Reg32 30); ("r31d", Reg32 31); ("r8w", Reg16 8); ("r9w", Reg16 9); ("r10w", Reg16 10); ("r11w", Reg16 11);
   ("r12w", Reg16 12); ("r13w", Reg16 13); ("r14w", Reg16 14); ("r15w", Reg16 15); ("r16w", Reg16 16); ("r17w", Reg16 17); ("r18w", Reg16 18); ("r19w", Reg16 19);
   ("r20w", Reg16 20); ("r21w", Reg16 21); ("r22w", Reg16 22); ("r23w", Reg16 23); ("r24w", Reg16 24); ("r25w", Reg16 25); ("r26w", Reg16 26); ("r27w", Reg16 27);
   ("r28w", Reg16 28); ("r29w", Reg16 29); ("r30w", Reg16 30); ("r31w", Reg16 31); ("r8b", Reg8 8); ("r9b", Reg8 9); ("r10b", Reg8 10); ("r11b", Reg8 11);
   ("r12b", Reg8 12); ("r13b", Reg8 13); ("r14b", Reg8 14); ("r15b", Reg8 15); ("spl", Reg8e 4); ("bpl", Reg8e 5); ("sil", Reg8e 6); ("dil", Reg8e 7);
   ("r16b", Reg8 16); ("r17b", Reg8 17); ("r18b", Reg8 18); ("r19b", Reg8 19); ("r20b", Reg8 20); ("r21b", Reg8 21); ("r22b", Reg8 22); ("r23b", Reg8 23);
   ("r24b", Reg8 24); ("r25b", Reg8 25); ("r26b", Reg8 26); ("r27b", Reg8 27); ("r28b", Reg8 28); ("r29b", Reg8 29); ("r30b", Reg8 30); ("r31b", Reg8 31);
   ("xmm8", Xmm 8); ("xmm9", Xmm 9); ("xmm10", Xmm 10); ("xmm11", Xmm 11); ("xmm12", Xmm 12); ("xmm13", Xmm 13); ("xmm14", Xmm 14); ("xmm15", Xmm 15);
   ("xmm16", Xmm 16); ("xmm17", Xmm 17); ("xmm18", Xmm 18); ("xmm19", Xmm 19); ("xmm20", Xmm 20); ("xmm21", Xmm 21); ("xmm22", Xmm 22); ("xmm23", Xmm 23);
   ("xmm24", Xmm 24); ("xmm25", Xmm 25); ("xmm26", Xmm 26); ("xmm27", Xmm 27); ("xmm28", Xmm 28); ("xmm29", Xmm 29); ("xmm30", Xmm 30); ("xmm31", Xmm 31);
   ("ymm8", Ymm 8); ("ymm9", Ymm 9); ("ymm10", Ymm 10); ("ymm11", Ymm 11); ("ymm12", Ymm 12); ("ymm13", Ymm 13); ("ymm14", Ymm 14); ("ymm15", Ymm 15);
   ("ymm16", Ymm 16); ("ymm17", Ymm 17); ("ymm18", Ymm 18); ("ymm19", Ymm 19); ("ymm20", Ymm 20); ("ymm21", Ymm 21); ("ymm22", Ymm 22); ("ymm23", Ymm 23);
   ("ymm24", Ymm 24); ("ymm25", Ymm 25); ("ymm26", Ymm 26); ("ymm27", Ymm 27); ("ymm28", Ymm 28); ("ymm29", Ymm 29); ("ymm30", Ymm 30); ("ymm31", Ymm 31);
   ("zmm8", Zmm 8); ("zmm9", Zmm 9); ("zmm10", Zmm 10); ("zmm11", Zmm 11); ("zmm12", Zmm 12); ("zmm13", Zmm 13); ("zmm14", Zmm 14); ("zmm15", Zmm 15);
   ("zmm16", Zmm 16); ("zmm17", Zmm 17); ("zmm18", Zmm 18); ("zmm19", Zmm 19); ("zmm20", Zmm 20); ("zmm21", Zmm 21); ("zmm22", Zmm 22); ("zmm23", Zmm 23);
   ("zmm24", Zmm 24); ("zmm25", Zmm 25); ("zmm26", Zmm 26); ("zmm27", Zmm 27); ("zmm28", Zmm 28); ("zmm29", Zmm 29); ("zmm30", Zmm 30); ("zmm31", Zmm 31);
   ("tmm0", Zmm 0); ("tmm1", Zmm 1); ("tmm2", Zmm 2); ("tmm3", Zmm 3); ("tmm4", Zmm 4); ("tmm5", Zmm 5); ("tmm6", Zmm 6); ("tmm7", Zmm 7)].
Definition util_frames : list (string * (Z * bool)) :=
  [("ptr", (0, false)); ("byte", (8, false)); ("word", (16, false)); ("dword", (32, false)); ("qword", (64, false)); ("xword", (128, false)); ("yword", (256, false)); ("zword", (512, false));
   ("ptr_b", (0, true)); ("xword_b", (128, true)); ("yword_b", (256, true)); ("zword_b", (512, true))].
(* the tables of Operand::toString, xbyak.h:669-727 *)
Definition strExt8 : list string := ["spl"; "bpl"; "sil"; "dil"].
Definition strReg : list (list string) :=
  [["al"; "cl"; "dl"; "bl"; "ah"; "ch"; "dh"; "bh";
   "r8b"; "r9b"; "r10b"; "r11b"; "r12b"; "r13b"; "r14b"; "r15b";
   "r16b"; "r17b"; "r18b"; "r19b"; "r20b"; "r21b"; "r22b"; "r23b";
   "r24b"; "r25b"; "r26b"; "r27b"; "r28b"; "r29b"; "r30b"; "r31b"];
   ["ax"; "cx"; "dx"; "bx"; "sp"; "bp"; "si"; "di";
   "r8w"; "r9w"; "r10w"; "r11w"; "r12w"; "r13w"; "r14w"; "r15w";
   "r16w"; "r17w"; "r18w"; "r19w"; "r20w"; "r21w"; "r22w"; "r23w";
   "r24w"; "r25w"; "r26w"; "r27w"; "r28w"; "r29w"; "r30w"; "r31w"];
   ["eax"; "ecx"; "edx"; "ebx"; "esp"; "ebp"; "esi"; "edi";
   "r8d"; "r9d"; "r10d"; "r11d"; "r12d"; "r13d"; "r14d"; "r15d";
   "r16d"; "r17d"; "r18d"; "r19d"; "r20d"; "r21d"; "r22d"; "r23d";
   "r24d"; "r25d"; "r26d"; "r27d"; "r28d"; "r29d"; "r30d"; "r31d"];
   ["rax"; "rcx"; "rdx"; "rbx"; "rsp"; "rbp"; "rsi"; "rdi";
   "r8"; "r9"; "r10"; "r11"; "r12"; "r13"; "r14"; "r15";
   "r16"; "r17"; "r18"; "r19"; "r20"; "r21"; "r22"; "r23";
   "r24"; "r25"; "r26"; "r27"; "r28"; "r29"; "r30"; "r31"]].
Definition strOpmask : list string := ["k0"; "k1"; "k2"; "k3"; "k4"; "k5"; "k6"; "k7"].
Definition strTmm : list string := ["tmm0"; "tmm1"; "tmm2"; "tmm3"; "tmm4"; "tmm5"; "tmm6"; "tmm7"].
Definition strZmm : list string := ["zmm0"; "zmm1"; "zmm2"; "zmm3"; "zmm4"; "zmm5"; "zmm6"; "zmm7";
   "zmm8"; "zmm9"; "zmm10"; "zmm11"; "zmm12"; "zmm13"; "zmm14"; "zmm15";
   "zmm16"; "zmm17"; "zmm18"; "zmm19"; "zmm20"; "zmm21"; "zmm22"; "zmm23";
   "zmm24"; "zmm25"; "zmm26"; "zmm27"; "zmm28"; "zmm29"; "zmm30"; "zmm31"].
Definition strYmm : list string := ["ymm0"; "ymm1"; "ymm2"; "ymm3"; "ymm4"; "ymm5"; "ymm6"; "ymm7";
   "ymm8"; "ymm9"; "ymm10"; "ymm11"; "ymm12"; "ymm13"; "ymm14"; "ymm15";
   "ymm16"; "ymm17"; "ymm18"; "ymm19"; "ymm20"; "ymm21"; "ymm22"; "ymm23";
   "ymm24"; "ymm25"; "ymm26"; "ymm27"; "ymm28"; "ymm29"; "ymm30"; "ymm31"].
Definition strXmm : list string := ["xmm0"; "xmm1"; "xmm2"; "xmm3"; "xmm4"; "xmm5"; "xmm6"; "xmm7";
   "xmm8"; "xmm9"; "xmm10"; "xmm11"; "xmm12"; "xmm13"; "xmm14"; "xmm15";
   "xmm16"; "xmm17"; "xmm18"; "xmm19"; "xmm20"; "xmm21"; "xmm22"; "xmm23";
   "xmm24"; "xmm25"; "xmm26"; "xmm27"; "xmm28"; "xmm29"; "xmm30"; "xmm31"].
Definition strMmx : list string := ["mm0"; "mm1"; "mm2"; "mm3"; "mm4"; "mm5"; "mm6"; "mm7"].
Definition strFpu : list string := ["st0"; "st1"; "st2"; "st3"; "st4"; "st5"; "st6"; "st7"].
Definition strBnd : list string := ["bnd0"; "bnd1"; "bnd2"; "bnd3"].
(* the enumeration of xbyak_bin2hex.h *)
Definition binConstants : list (string * Z) :=
  [("B00000000", 0); ("B00000001", 1); ("B00000010", 2); ("B00000011", 3); ("B00000100", 4); ("B00000101", 5); ("B00000110", 6); ("B00000111", 7);
   ("B00001000", 8); ("B00001001", 9); ("B00001010", 10); ("B00001011", 11); ("B00001100", 12); ("B00001101", 13); ("B00001110", 14); ("B00001111", 15);
   ("B00010000", 16); ("B00010001", 17); ("B00010010", 18); ("B00010011", 19); ("B00010100", 20); ("B00010101", 21); ("B00010110", 22); ("B00010111", 23);
   ("B00011000", 24); ("B00011001", 25); ("B00011010", 26); ("B00011011", 27); ("B00011100", 28); ("B00011101", 29); ("B00011110", 30); ("B00011111", 31);
   ("B00100000", 32); ("B00100001", 33); ("B00100010", 34); ("B00100011", 35); ("B00100100", 36); ("B00100101", 37); ("B00100110", 38); ("B00100111", 39);
   ("B00101000", 40); ("B00101001", 41); ("B00101010", 42); ("B00101011", 43); ("B00101100", 44); ("B00101101", 45); ("B00101110", 46); ("B00101111", 47);
   ("B00110000", 48); ("B00110001", 49); ("B00110010", 50); ("B00110011", 51); ("B00110100", 52); ("B00110101", 53); ("B00110110", 54); ("B00110111", 55);
   ("B00111000", 56); ("B00111001", 57); ("B00111010", 58); ("B00111011", 59); ("B00111100", 60); ("B00111101", 61); ("B00111110", 62); ("B00111111", 63);
   ("B01000000", 64); ("B01000001", 65); ("B01000010", 66); ("B01000011", 67); ("B01000100", 68); ("B01000101", 69); ("B01000110", 70); ("B01000111", 71);
   ("B01001000", 72); ("B01001001", 73); ("B01001010", 74); ("B01001011", 75); ("B01001100", 76); ("B01001101", 77); ("B01001110", 78); ("B01001111", 79);
   ("B01010000", 80); ("B01010001", 81); ("B01010010", 82); ("B01010011", 83); ("B01010100", 84); ("B01010101", 85); ("B01010110", 86); ("B01010111", 87);
   ("B01011000", 88); ("B01011001", 89); ("B01011010", 90); ("B01011011", 91); ("B01011100", 92); ("B01011101", 93); ("B01011110", 94); ("B01011111", 95);
   ("B01100000", 96); ("B01100001", 97); ("B01100010", 98); ("B01100011", 99); ("B01100100", 100); ("B01100101", 101); ("B01100110", 102); ("B01100111", 103);
   ("B01101000", 104); ("B01101001", 105); ("B01101010", 106); ("B01101011", 107); ("B01101100", 108); ("B01101101", 109); ("B01101110", 110); ("B01101111", 111);
   ("B01110000", 112); ("B01110001", 113); ("B01110010", 114); ("B01110011", 115); ("B01110100", 116); ("B01110101", 117); ("B01110110", 118); ("B01110111", 119);
   ("B01111000", 120); ("B01111001", 121); ("B01111010", 122); ("B01111011", 123); ("B01111100", 124); ("B01111101", 125); ("B01111110", 126); ("B01111111", 127);
   ("B10000000", 128); ("B10000001", 129); ("B10000010", 130); ("B10000011", 131); ("B10000100", 132); ("B10000101", 133); ("B10000110", 134); ("B10000111", 135);
   ("B10001000", 136); ("B10001001", 137); ("B10001010", 138); ("B10001011", 139); ("B10001100", 140); ("B10001101", 141); ("B10001110", 142); ("B10001111", 143);
   ("B10010000", 144); ("B10010001", 145); ("B10010010", 146); ("B10010011", 147); ("B10010100", 148); ("B10010101", 149); ("B10010110", 150); ("B10010111", 151);
   ("B10011000", 152); ("B10011001", 153); ("B10011010", 154); ("B10011011", 155); ("B10011100", 156); ("B10011101", 157); ("B10011110", 158); ("B10011111", 159);
   ("B10100000", 160); ("B10100001", 161); ("B10100010", 162); ("B10100011", 163); ("B10100100", 164); ("B10100101", 165); ("B10100110", 166); ("B10100111", 167);
   ("B10101000", 168); ("B10101001", 169); ("B10101010", 170); ("B10101011", 171); ("B10101100", 172); ("B10101101", 173); ("B10101110", 174); ("B10101111", 175);
   ("B10110000", 176); ("B10110001", 177); ("B10110010", 178); ("B10110011", 179); ("B10110100", 180); ("B10110101", 181); ("B10110110", 182); ("B10110111", 183);
   ("B10111000", 184); ("B10111001", 185); ("B10111010", 186); ("B10111011", 187); ("B10111100", 188); ("B10111101", 189); ("B10111110", 190); ("B10111111", 191);
   ("B11000000", 192); ("B11000001", 193); ("B11000010", 194); ("B11000011", 195); ("B11000100", 196); ("B11000101", 197); ("B11000110", 198); ("B11000111", 199);
   ("B11001000", 200); ("B11001001", 201); ("B11001010", 202); ("B11001011", 203); ("B11001100", 204); ("B11001101", 205); ("B11001110", 206); ("B11001111", 207);
   ("B11010000", 208); ("B11010001", 209); ("B11010010", 210); ("B11010011", 211); ("B11010100", 212); ("B11010101", 213); ("B11010110", 214); ("B11010111", 215);
   ("B11011000", 216); ("B11011001", 217); ("B11011010", 218); ("B11011011", 219); ("B11011100", 220); ("B11011101", 221); ("B11011110", 222); ("B11011111", 223);
   ("B11100000", 224); ("B11100001", 225); ("B11100010", 226); ("B11100011", 227); ("B11100100", 228); ("B11100101", 229); ("B11100110", 230); ("B11100111", 231);
   ("B11101000", 232); ("B11101001", 233); ("B11101010", 234); ("B11101011", 235); ("B11101100", 236); ("B11101101", 237); ("B11101110", 238); ("B11101111", 239);
   ("B11110000", 240); ("B11110001", 241); ("B11110010", 242); ("B11110011", 243); ("B11110100", 244); ("B11110101", 245); ("B11110110", 246); ("B11110111", 247);
   ("B11111000", 248); ("B11111001", 249); ("B11111010", 250); ("B11111011", 251); ("B11111100", 252); ("B11111101", 253); ("B11111110", 254); ("B11111111", 255)].
