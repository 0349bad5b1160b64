(* Property theorems C43: instructions without operands, with an immediate only, and x87 register forms. *)
From Coq Require Import ZArith List Bool String Lia.
From Verif Require Import Base Types Emit Encode Mnemonic SpecX86 SpecAddr Wf EmitFacts SpecFixed FixedTables FixedFacts.
Import ListNotations.
Open Scope Z_scope.

(* every method without operands emits the bytes of the instruction with its name *)
Theorem C43_fixed_bytes : Forall is_fixed fixed_methods.
Proof. exact fixed_all. Qed.
Print Assumptions C43_fixed_bytes.
Example C43_fixed_example : In ("mfence"%string, i_mfence) fixed_methods /\ In ("mfence"%string, [0x0F; 0xAE; 0xF0]) sdm_fixed
  /\ List.length fixed_methods = 137%nat.
Proof. split; [apply (nth_error_In _ 72); reflexivity|split; [apply assoc_in; reflexivity|reflexivity]]. Qed.
(* int n, ret n, retf n, enter, xabort, xbegin, jmpabs *)
Theorem C43_immediate_bytes :
  (forall n, 0 <= n < 256 -> emits_bytes (i_int_ n) [0xCD; n])
  /\ (forall n, 0 <= n < 2 ^ 16 -> emits_bytes (i_ret n) (if n =? 0 then [0xC3] else 0xC2 :: le2 n))
  /\ (forall n, 0 <= n < 2 ^ 16 -> emits_bytes (i_retf n) (if n =? 0 then [0xCB] else 0xCA :: le2 n))
  /\ (forall x y, 0 <= x < 2 ^ 16 -> 0 <= y < 256 -> emits_bytes (i_enter x y) (0xC8 :: le2 x ++ [y]))
  /\ (forall n, 0 <= n < 256 -> emits_bytes (i_xabort n) [0xC6; 0xF8; n])
  /\ (forall rel, emits_bytes (i_xbegin rel) (0xC7 :: 0xF8 :: le4 (rel mod 2 ^ 32)))
  /\ (forall a, 0 <= a < 2 ^ 64 -> emits_bytes (i_jmpabs a) (0xD5 :: 0x00 :: 0xA1 :: le8 a)).
Proof. exact (conj int_bytes (conj ret_bytes (conj retf_bytes (conj enter_bytes (conj xabort_bytes (conj xbegin_bytes jmpabs_bytes)))))). Qed.
Print Assumptions C43_immediate_bytes.
(* ret(65536) is accepted and pops nothing *)
Theorem C43_ret_range_refuted : emits_bytes (i_ret 65536) [0xC2; 0x00; 0x00].
Proof. exact ret_truncates. Qed.
Print Assumptions C43_ret_range_refuted.
(* umonitor, tpause, umwait: F3 / 66 / F2 0F AE /6, mod = 3; registers r8 .. are rejected (there is no REX) *)
Theorem C43_wait_instructions :
  (forall r, gpr r -> 0 <= idx_ r < 8 -> bit_ r = 32 \/ bit_ r = 64 ->
     emits_bytes (i_umonitor r) ((if bit_ r =? 32 then [0x67] else []) ++ [0xF3; 0x0F; 0xAE; 0xF0 + idx_ r]))
  /\ (forall r, 0 <= idx_ r < 8 -> emits_bytes (i_tpause r) [0x66; 0x0F; 0xAE; 0xF0 + idx_ r])
  /\ (forall r, 0 <= idx_ r < 8 -> emits_bytes (i_umwait r) [0xF2; 0x0F; 0xAE; 0xF0 + idx_ r])
  /\ (forall r, 8 <= idx_ r < 32 -> rejects (i_umonitor r) ERR_BAD_PARAMETER /\ rejects (i_tpause r) ERR_BAD_PARAMETER /\ rejects (i_umwait r) ERR_BAD_PARAMETER).
Proof. exact (conj umonitor_bytes (conj tpause_bytes (conj umwait_bytes high_reject))). Qed.
Print Assumptions C43_wait_instructions.
(* fnstsw ax, fstsw ax; other registers are rejected *)
Theorem C43_status_word :
  (forall r, idx_ r = 0 -> emits_bytes (i_fnstsw_w r) [0xDF; 0xE0] /\ emits_bytes (i_fstsw_w r) [0x9B; 0xDF; 0xE0])
  /\ (forall r, 0 < idx_ r < 32 -> rejects (i_fnstsw_w r) ERR_BAD_PARAMETER /\ rejects (i_fstsw_w r) ERR_BAD_PARAMETER).
Proof. exact (conj fnstsw_bytes fnstsw_reject). Qed.
Print Assumptions C43_status_word.
(* fadd, fsub, fsubr, fmul, fdiv, fdivr and their popping forms, of two registers: the instruction with the operands
   in the written order, or ERR_BAD_ST_COMBINATION *)
Theorem C43_x87_arithmetic : Forall two_x87 x87_two.
Proof. exact x87_two_all. Qed.
Print Assumptions C43_x87_arithmetic.
(* with one parameter: st(0), st(i); the popping forms: st(i), st(0); fcom, fld, fst, fxch, ...: st(i) *)
Theorem C43_x87_one_parameter :
  Forall (one_x87 (fun n => [0; n])) x87_one /\ Forall onep_x87 x87_onep /\ Forall (one_x87 (fun n => [n])) x87_single.
Proof. exact (conj x87_one_all (conj x87_onep_all x87_single_all)). Qed.
Print Assumptions C43_x87_one_parameter.
(* fcmovcc, fcomi, fcomip, fucomi, fucomip of two registers.  PARTIAL: st(i), st(0) is excluded *)
Theorem C43_x87_to_st0_partial : Forall to0_x87 x87_to0.
Proof. exact x87_to0_all. Qed.
Print Assumptions C43_x87_to_st0_partial.
(* fcomi(st1, st0) and the like, which do not exist, emit an ADD of two byte registers *)
Theorem C43_x87_to_st0_refuted : Forall (fun p : string * (Reg -> Reg -> E unit) =>
    forall r1 r2, fpu_reg r1 -> fpu_reg r2 -> regno r1 <> 0 -> regno r2 = 0 ->
    exists c, emits_bytes (snd p r1 r2) [0x00; c] /\ (forall bs, ~ x87_is (fst p) [regno r1; regno r2] bs)
      /\ decode false 1 [0x00; c] = Some (leg_header pfx0 false 0 false 0 0 0 0x00, c / 8 mod 8, RReg (c mod 8) (c mod 8), [])) x87_to0.
Proof. exact x87_to0_wrong. Qed.
Print Assumptions C43_x87_to_st0_refuted.
Example C43_x87_example :
  fpu_reg (Fpu 3) /\ emits_bytes (i_fsubr_ff (Fpu 3) (Fpu 0)) [0xDC; 0xE3] /\ x87_is "fsubr" [3; 0] [0xDC; 0xE3]
  /\ emits_bytes (i_fcomi_ff (Fpu 3) (Fpu 0)) [0x00; 0xF3].
Proof.
  split; [repeat split; cbn; lia|]. split; [intros s env pos; eexists; split; reflexivity|]. split; [apply x87_isb_ok; reflexivity|].
  intros s env pos; eexists; split; reflexivity.
Qed.
