(* The instruction methods of CodeGenerator, xbyak/xbyak_mnemonic.h, one Definition per method.
   Produced by tools/mnemonic.py from the header; conditional jumps and loops (state level).
   Integer arguments are wrapped to their C++ parameter type on entry.  Overloads carry a suffix
   of parameter classes (r Reg, b/w/d/q/e Reg8..Reg64/Reg32e, m Mmx, x y z t, k Opmask, n bound,
   f Fpu, o Operand, a Address, i integer, j LabelType, p PreferredEncoding, s label, v pointer);
   the const char * and Label overloads of jumps have the same body as the std::string one. *)
From Coq Require Import ZArith List Bool String.
From Verif Require Import Base Types Emit Encode State Code Label Gen.
Import ListNotations.
Open Scope Z_scope.
Open Scope M_scope.

(* xbyak_mnemonic.h:530 *)
Definition i_ja_v (p_addr : Z) : M unit :=
  let p_addr := w64 p_addr in opJmpAbs p_addr T_NEAR 0x77 0x87 0x0F.
(* xbyak_mnemonic.h:531 *)
Definition i_ja_sj (p_label : LabelRef) (p_type : LabelType) : M unit :=
  opJmp p_label p_type 0x77 0x87 0x0F.
(* xbyak_mnemonic.h:534 *)
Definition i_jae_v (p_addr : Z) : M unit :=
  let p_addr := w64 p_addr in opJmpAbs p_addr T_NEAR 0x73 0x83 0x0F.
(* xbyak_mnemonic.h:535 *)
Definition i_jae_sj (p_label : LabelRef) (p_type : LabelType) : M unit :=
  opJmp p_label p_type 0x73 0x83 0x0F.
(* xbyak_mnemonic.h:538 *)
Definition i_jb_v (p_addr : Z) : M unit :=
  let p_addr := w64 p_addr in opJmpAbs p_addr T_NEAR 0x72 0x82 0x0F.
(* xbyak_mnemonic.h:539 *)
Definition i_jb_sj (p_label : LabelRef) (p_type : LabelType) : M unit :=
  opJmp p_label p_type 0x72 0x82 0x0F.
(* xbyak_mnemonic.h:542 *)
Definition i_jbe_v (p_addr : Z) : M unit :=
  let p_addr := w64 p_addr in opJmpAbs p_addr T_NEAR 0x76 0x86 0x0F.
(* xbyak_mnemonic.h:543 *)
Definition i_jbe_sj (p_label : LabelRef) (p_type : LabelType) : M unit :=
  opJmp p_label p_type 0x76 0x86 0x0F.
(* xbyak_mnemonic.h:546 *)
Definition i_jc_v (p_addr : Z) : M unit :=
  let p_addr := w64 p_addr in opJmpAbs p_addr T_NEAR 0x72 0x82 0x0F.
(* xbyak_mnemonic.h:547 *)
Definition i_jc_sj (p_label : LabelRef) (p_type : LabelType) : M unit :=
  opJmp p_label p_type 0x72 0x82 0x0F.
(* xbyak_mnemonic.h:550 *)
Definition i_je_v (p_addr : Z) : M unit :=
  let p_addr := w64 p_addr in opJmpAbs p_addr T_NEAR 0x74 0x84 0x0F.
(* xbyak_mnemonic.h:551 *)
Definition i_je_sj (p_label : LabelRef) (p_type : LabelType) : M unit :=
  opJmp p_label p_type 0x74 0x84 0x0F.
(* xbyak_mnemonic.h:554 *)
Definition i_jg_v (p_addr : Z) : M unit :=
  let p_addr := w64 p_addr in opJmpAbs p_addr T_NEAR 0x7F 0x8F 0x0F.
(* xbyak_mnemonic.h:555 *)
Definition i_jg_sj (p_label : LabelRef) (p_type : LabelType) : M unit :=
  opJmp p_label p_type 0x7F 0x8F 0x0F.
(* xbyak_mnemonic.h:558 *)
Definition i_jge_v (p_addr : Z) : M unit :=
  let p_addr := w64 p_addr in opJmpAbs p_addr T_NEAR 0x7D 0x8D 0x0F.
(* xbyak_mnemonic.h:559 *)
Definition i_jge_sj (p_label : LabelRef) (p_type : LabelType) : M unit :=
  opJmp p_label p_type 0x7D 0x8D 0x0F.
(* xbyak_mnemonic.h:562 *)
Definition i_jl_v (p_addr : Z) : M unit :=
  let p_addr := w64 p_addr in opJmpAbs p_addr T_NEAR 0x7C 0x8C 0x0F.
(* xbyak_mnemonic.h:563 *)
Definition i_jl_sj (p_label : LabelRef) (p_type : LabelType) : M unit :=
  opJmp p_label p_type 0x7C 0x8C 0x0F.
(* xbyak_mnemonic.h:566 *)
Definition i_jle_v (p_addr : Z) : M unit :=
  let p_addr := w64 p_addr in opJmpAbs p_addr T_NEAR 0x7E 0x8E 0x0F.
(* xbyak_mnemonic.h:567 *)
Definition i_jle_sj (p_label : LabelRef) (p_type : LabelType) : M unit :=
  opJmp p_label p_type 0x7E 0x8E 0x0F.
(* xbyak_mnemonic.h:570 *)
Definition i_jna_v (p_addr : Z) : M unit :=
  let p_addr := w64 p_addr in opJmpAbs p_addr T_NEAR 0x76 0x86 0x0F.
(* xbyak_mnemonic.h:571 *)
Definition i_jna_sj (p_label : LabelRef) (p_type : LabelType) : M unit :=
  opJmp p_label p_type 0x76 0x86 0x0F.
(* xbyak_mnemonic.h:574 *)
Definition i_jnae_v (p_addr : Z) : M unit :=
  let p_addr := w64 p_addr in opJmpAbs p_addr T_NEAR 0x72 0x82 0x0F.
(* xbyak_mnemonic.h:575 *)
Definition i_jnae_sj (p_label : LabelRef) (p_type : LabelType) : M unit :=
  opJmp p_label p_type 0x72 0x82 0x0F.
(* xbyak_mnemonic.h:578 *)
Definition i_jnb_v (p_addr : Z) : M unit :=
  let p_addr := w64 p_addr in opJmpAbs p_addr T_NEAR 0x73 0x83 0x0F.
(* xbyak_mnemonic.h:579 *)
Definition i_jnb_sj (p_label : LabelRef) (p_type : LabelType) : M unit :=
  opJmp p_label p_type 0x73 0x83 0x0F.
(* xbyak_mnemonic.h:582 *)
Definition i_jnbe_v (p_addr : Z) : M unit :=
  let p_addr := w64 p_addr in opJmpAbs p_addr T_NEAR 0x77 0x87 0x0F.
(* xbyak_mnemonic.h:583 *)
Definition i_jnbe_sj (p_label : LabelRef) (p_type : LabelType) : M unit :=
  opJmp p_label p_type 0x77 0x87 0x0F.
(* xbyak_mnemonic.h:586 *)
Definition i_jnc_v (p_addr : Z) : M unit :=
  let p_addr := w64 p_addr in opJmpAbs p_addr T_NEAR 0x73 0x83 0x0F.
(* xbyak_mnemonic.h:587 *)
Definition i_jnc_sj (p_label : LabelRef) (p_type : LabelType) : M unit :=
  opJmp p_label p_type 0x73 0x83 0x0F.
(* xbyak_mnemonic.h:590 *)
Definition i_jne_v (p_addr : Z) : M unit :=
  let p_addr := w64 p_addr in opJmpAbs p_addr T_NEAR 0x75 0x85 0x0F.
(* xbyak_mnemonic.h:591 *)
Definition i_jne_sj (p_label : LabelRef) (p_type : LabelType) : M unit :=
  opJmp p_label p_type 0x75 0x85 0x0F.
(* xbyak_mnemonic.h:594 *)
Definition i_jng_v (p_addr : Z) : M unit :=
  let p_addr := w64 p_addr in opJmpAbs p_addr T_NEAR 0x7E 0x8E 0x0F.
(* xbyak_mnemonic.h:595 *)
Definition i_jng_sj (p_label : LabelRef) (p_type : LabelType) : M unit :=
  opJmp p_label p_type 0x7E 0x8E 0x0F.
(* xbyak_mnemonic.h:598 *)
Definition i_jnge_v (p_addr : Z) : M unit :=
  let p_addr := w64 p_addr in opJmpAbs p_addr T_NEAR 0x7C 0x8C 0x0F.
(* xbyak_mnemonic.h:599 *)
Definition i_jnge_sj (p_label : LabelRef) (p_type : LabelType) : M unit :=
  opJmp p_label p_type 0x7C 0x8C 0x0F.
(* xbyak_mnemonic.h:602 *)
Definition i_jnl_v (p_addr : Z) : M unit :=
  let p_addr := w64 p_addr in opJmpAbs p_addr T_NEAR 0x7D 0x8D 0x0F.
(* xbyak_mnemonic.h:603 *)
Definition i_jnl_sj (p_label : LabelRef) (p_type : LabelType) : M unit :=
  opJmp p_label p_type 0x7D 0x8D 0x0F.
(* xbyak_mnemonic.h:606 *)
Definition i_jnle_v (p_addr : Z) : M unit :=
  let p_addr := w64 p_addr in opJmpAbs p_addr T_NEAR 0x7F 0x8F 0x0F.
(* xbyak_mnemonic.h:607 *)
Definition i_jnle_sj (p_label : LabelRef) (p_type : LabelType) : M unit :=
  opJmp p_label p_type 0x7F 0x8F 0x0F.
(* xbyak_mnemonic.h:610 *)
Definition i_jno_v (p_addr : Z) : M unit :=
  let p_addr := w64 p_addr in opJmpAbs p_addr T_NEAR 0x71 0x81 0x0F.
(* xbyak_mnemonic.h:611 *)
Definition i_jno_sj (p_label : LabelRef) (p_type : LabelType) : M unit :=
  opJmp p_label p_type 0x71 0x81 0x0F.
(* xbyak_mnemonic.h:614 *)
Definition i_jnp_v (p_addr : Z) : M unit :=
  let p_addr := w64 p_addr in opJmpAbs p_addr T_NEAR 0x7B 0x8B 0x0F.
(* xbyak_mnemonic.h:615 *)
Definition i_jnp_sj (p_label : LabelRef) (p_type : LabelType) : M unit :=
  opJmp p_label p_type 0x7B 0x8B 0x0F.
(* xbyak_mnemonic.h:618 *)
Definition i_jns_v (p_addr : Z) : M unit :=
  let p_addr := w64 p_addr in opJmpAbs p_addr T_NEAR 0x79 0x89 0x0F.
(* xbyak_mnemonic.h:619 *)
Definition i_jns_sj (p_label : LabelRef) (p_type : LabelType) : M unit :=
  opJmp p_label p_type 0x79 0x89 0x0F.
(* xbyak_mnemonic.h:622 *)
Definition i_jnz_v (p_addr : Z) : M unit :=
  let p_addr := w64 p_addr in opJmpAbs p_addr T_NEAR 0x75 0x85 0x0F.
(* xbyak_mnemonic.h:623 *)
Definition i_jnz_sj (p_label : LabelRef) (p_type : LabelType) : M unit :=
  opJmp p_label p_type 0x75 0x85 0x0F.
(* xbyak_mnemonic.h:626 *)
Definition i_jo_v (p_addr : Z) : M unit :=
  let p_addr := w64 p_addr in opJmpAbs p_addr T_NEAR 0x70 0x80 0x0F.
(* xbyak_mnemonic.h:627 *)
Definition i_jo_sj (p_label : LabelRef) (p_type : LabelType) : M unit :=
  opJmp p_label p_type 0x70 0x80 0x0F.
(* xbyak_mnemonic.h:630 *)
Definition i_jp_v (p_addr : Z) : M unit :=
  let p_addr := w64 p_addr in opJmpAbs p_addr T_NEAR 0x7A 0x8A 0x0F.
(* xbyak_mnemonic.h:631 *)
Definition i_jp_sj (p_label : LabelRef) (p_type : LabelType) : M unit :=
  opJmp p_label p_type 0x7A 0x8A 0x0F.
(* xbyak_mnemonic.h:634 *)
Definition i_jpe_v (p_addr : Z) : M unit :=
  let p_addr := w64 p_addr in opJmpAbs p_addr T_NEAR 0x7A 0x8A 0x0F.
(* xbyak_mnemonic.h:635 *)
Definition i_jpe_sj (p_label : LabelRef) (p_type : LabelType) : M unit :=
  opJmp p_label p_type 0x7A 0x8A 0x0F.
(* xbyak_mnemonic.h:638 *)
Definition i_jpo_v (p_addr : Z) : M unit :=
  let p_addr := w64 p_addr in opJmpAbs p_addr T_NEAR 0x7B 0x8B 0x0F.
(* xbyak_mnemonic.h:639 *)
Definition i_jpo_sj (p_label : LabelRef) (p_type : LabelType) : M unit :=
  opJmp p_label p_type 0x7B 0x8B 0x0F.
(* xbyak_mnemonic.h:642 *)
Definition i_js_v (p_addr : Z) : M unit :=
  let p_addr := w64 p_addr in opJmpAbs p_addr T_NEAR 0x78 0x88 0x0F.
(* xbyak_mnemonic.h:643 *)
Definition i_js_sj (p_label : LabelRef) (p_type : LabelType) : M unit :=
  opJmp p_label p_type 0x78 0x88 0x0F.
(* xbyak_mnemonic.h:646 *)
Definition i_jz_v (p_addr : Z) : M unit :=
  let p_addr := w64 p_addr in opJmpAbs p_addr T_NEAR 0x74 0x84 0x0F.
(* xbyak_mnemonic.h:647 *)
Definition i_jz_sj (p_label : LabelRef) (p_type : LabelType) : M unit :=
  opJmp p_label p_type 0x74 0x84 0x0F.
(* xbyak_mnemonic.h:662 *)
Definition i_loop (p_label : LabelRef) : M unit :=
  opJmp p_label T_SHORT 0xE2 0 0.
(* xbyak_mnemonic.h:665 *)
Definition i_loope (p_label : LabelRef) : M unit :=
  opJmp p_label T_SHORT 0xE1 0 0.
(* xbyak_mnemonic.h:668 *)
Definition i_loopne (p_label : LabelRef) : M unit :=
  opJmp p_label T_SHORT 0xE0 0 0.
(* xbyak_mnemonic.h:1858 *)
Definition i_jecxz (p_label : LabelRef) : M unit :=
  runE (db 0x67) ;;; opJmp p_label T_SHORT 0xe3 0 0.
(* xbyak_mnemonic.h:1860 *)
Definition i_jrcxz (p_label : LabelRef) : M unit :=
  opJmp p_label T_SHORT 0xe3 0 0.
