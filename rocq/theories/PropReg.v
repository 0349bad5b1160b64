(* Property theorems C34: changeBit and cvt8 .. cvt512 (xbyak.h:738-784, 802, 927-962). *)
From Coq Require Import ZArith List Bool Lia.
From Verif Require Import Base Types Emit SpecX86 SpecAddr Wf SpecReg RegFacts.
Import ListNotations.
Open Scope Z_scope.

(* a general register at another width: the same register; ah, ch, dh, bh have no other width and are refused *)
Theorem C34_general_registers : forall r b env pos, gpr r -> In b gpr_widths -> env_noexc env = false ->
  (is_high r /\ b <> 8 -> fails (changeBit r b) env pos ERR_CANT_CONVERT)
  /\ (~ (is_high r /\ b <> 8) -> exists q, returns (changeBit r b) env pos q /\ same_gpr r q b).
Proof. exact gpr_resize. Qed.
Print Assumptions C34_general_registers.
(* converting back gives the original object *)
Theorem C34_back : forall r b env pos q, gpr r -> bare r -> In b gpr_widths -> env_noexc env = false ->
  returns (changeBit r b) env pos q -> returns (changeBit q (bit_ r)) env pos r.
Proof. exact gpr_back. Qed.
Print Assumptions C34_back.
(* sil -> rsi -> sil *)
Example C34_hypotheses : gpr (Reg8e 6) /\ bare (Reg8e 6) /\ returns (changeBit (Reg8e 6) 64) env0 0 (Reg64 6) /\ returns (changeBit (Reg64 6) 8) env0 0 (Reg8e 6).
Proof. repeat split; try reflexivity. right. split; [reflexivity|cbn; lia]. Qed.

Theorem C34_vector_registers : forall r b env pos, vec_reg r -> In b vec_widths -> env_noexc env = false ->
  exists q, returns (changeBit r b) env pos q /\ vec_reg q /\ bit_ q = b /\ idx_ q = idx_ r
    /\ mask_ q = mask_ r /\ rounding_ q = rounding_ r /\ zero_ q = zero_ r
    /\ returns (changeBit q (bit_ r)) env pos r.
Proof. exact vec_resize. Qed.
Print Assumptions C34_vector_registers.
(* between the register files the number is kept *)
Theorem C34_general_to_vector : forall r b env pos, gpr r -> In b vec_widths -> env_noexc env = false ->
  (is_high r -> fails (changeBit r b) env pos ERR_CANT_CONVERT)
  /\ (~ is_high r -> exists q, returns (changeBit r b) env pos q /\ vec_reg q /\ bit_ q = b /\ BLow (idx_ q) = gpr_meaning r).
Proof. exact gpr_to_vec. Qed.
Print Assumptions C34_general_to_vector.
Theorem C34_vector_to_general : forall r b env pos, vec_reg r -> In b gpr_widths -> env_noexc env = false ->
  exists q, returns (changeBit r b) env pos q /\ gpr q /\ bit_ q = b /\ gpr_meaning q = BLow (idx_ r).
Proof. exact vec_to_gpr. Qed.
Print Assumptions C34_vector_to_general.
Theorem C34_bad_width : forall r b env pos, ~ In b (gpr_widths ++ vec_widths ++ [8192]) -> env_noexc env = false ->
  fails (changeBit r b) env pos ERR_CANT_CONVERT.
Proof. exact bad_width. Qed.
Print Assumptions C34_bad_width.
(* cvt8 .. cvt64 are changeBit *)
Theorem C34_cvt : forall r b env pos, gpr r -> bare r -> NF_ r = false -> ZU_ r = false -> In b gpr_widths -> env_noexc env = false ->
  cvt b r env pos = changeBit r b env pos.
Proof. exact cvt_change. Qed.
Print Assumptions C34_cvt.
(* The other files.  An mmx, mask, x87 or bound register that already has the width is not converted but
   cvtNN() takes its number: mm3.cvt64() is rbx, k1.cvt64() is rcx, st2.cvt32() is edx, bnd1.cvt128() is xmm1;
   k1 can be given any width; r20.changeBit(8192) is the tile register tmm20, which does not exist *)
Theorem C34_other_files_refuted :
  returns (cvt64 (Mmx 3)) env0 0 (Reg64 3) /\ returns (cvt64 (Opmask 1)) env0 0 (Reg64 1)
  /\ returns (cvt32 (Fpu 2)) env0 0 (Reg32 2) /\ returns (cvt128 (BoundsReg 1)) env0 0 (Xmm 1)
  /\ (exists q, returns (changeBit (Opmask 1) 8) env0 0 q /\ kind_ q = OPMASK /\ bit_ q = 8)
  /\ (exists q, returns (changeBit (Reg64 20) 8192) env0 0 q /\ kind_ q = TMM /\ idx_ q = 20).
Proof. repeat split; try (eexists; repeat split); reflexivity. Qed.
Print Assumptions C34_other_files_refuted.
