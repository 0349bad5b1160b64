(* Property theorems C06: memory operands relative to rip.  [refers a m]: the displacement that m emits leads from the end of
   the instruction to the label (plus addend) or address of a, SpecRip.v. *)
From Coq Require Import ZArith List Bool String.
From Verif Require Import Base Types Emit EmitFacts Encode Mnemonic MnemonicAvx State Code Label Gen SpecLabel LabelHist LabelThms LabelThms3 LabelThms6 SpecRip RipFacts RipTables RipThms RunCheck.
From Verif Require PropLabel.
Import ListNotations.
Open Scope Z_scope.

(* ptr [rip + label + n] and ptr [rip + pointer] are such operands *)
Theorem C06_rip_label_operand : forall bit bc n l, rip_mem (addressRip bit bc (mkRip n (Some l) false)).
Proof. exact rip_label_operand. Qed.
Print Assumptions C06_rip_label_operand.
Theorem C06_rip_address_operand : forall bit bc n, rip_mem (addressRip bit bc (mkRip n None true)).
Proof. exact rip_address_operand. Qed.
Print Assumptions C06_rip_address_operand.

(* every method in every position of a memory operand.  Partial: without the shifts by an immediate with a new data
   destination and rorx, for which see below *)
Theorem C06_methods_partial : forall x, In x rip_methods -> entry_refers x.
Proof. exact (proj1 (Forall_forall entry_refers rip_methods) rip_methods_ok). Qed.
Print Assumptions C06_methods_partial.
Theorem C06_shift_by_one_partial : forall a d ext, rip_mem a -> refers a (opShift (OMem a) 1 ext (Some d)).
Proof. exact shift_by_one. Qed.
Print Assumptions C06_shift_by_one_partial.
Theorem C06_rorx_partial : forall a r imm, rip_mem a -> 0 <= getIdx r < 16 -> NF_ r = false -> refers a (i_rorx r (OMem a) imm).
Proof. exact rorx_legacy. Qed.
Print Assumptions C06_rorx_partial.

(* once the label is defined and the code is finished, the operand is label + n *)
Theorem C06_label_operand_lands : forall s a x m l s1 a1 os s2 a2 t o os' s3 a3,
  run s a -> refers x m -> a_label x = Some l ->
  exec (OpEmit m) s = Done s1 tt -> shistory s a [OpEmit m] s1 a1 -> tid_of a (LObj l) = Some t ->
  shistory s1 a1 os s2 a2 -> no_reset os -> sp_defs a2 t = Some o ->
  shistory s2 a2 os' s3 a3 -> no_reset os' -> finished s3 a3 ->
  exists f, label_field (fst (m (env_of s) (c_size (g_code s)))) = Some f
    /\ 0 <= f /\ c_size (g_code s) + f + 4 <= c_size (g_code s1)
    /\ rip_target (g_code s3) (c_size (g_code s) + f) (c_size (g_code s1)) = w64 (c_top (g_code s3) + o + getDisp x).
Proof. exact reference_lands. Qed.
Print Assumptions C06_label_operand_lands.

(* shl rax, ptr [rip + label + 16], 3 leads one byte too far: the immediate that follows is not taken into account *)
Theorem C06_shift_destination_refuted : forall ext imm, In ext [2; 3; 8; 9; 12; 13; 15] -> In imm [2; 3; 63] ->
  rip_mem rx /\ ~ refers rx (opShift (OMem rx) imm ext (Some (Reg64 0))).
Proof. exact shift_destination. Qed.
Print Assumptions C06_shift_destination_refuted.
(* and so does rorx r16, ptr [rip + label + 16], 3 *)
Theorem C06_rorx_refuted : rip_mem rx /\ ~ refers rx (i_rorx (Reg64 16) (OMem rx) 3).
Proof. exact rorx_extended. Qed.
Print Assumptions C06_rorx_refuted.

Module Ex.
Import PropLabel.
Definition cmpi : op := OpEmit (i_cmp_oi (OMem rx) 0x1234567).
Definition r0 := ph (start 4096 UNull) [OpNewLabel 5%nat; dbO 0x90].
Definition r1 := ph r0 [cmpi].
Definition r2 := ph r1 [dbO 0xC3; OpL (LObj 5%nat)].
Definition r3 := ph r2 [dbO 1].
Example C06_hypotheses :
  In (nth 1 rip_methods (mkRipE "" false (fun _ _ _ _ => ret tt))) rip_methods
  /\ run (stOf r0) (spOf r0) /\ refers rx (i_cmp_oi (OMem rx) 0x1234567) /\ a_label rx = Some 5%nat
  /\ exec cmpi (stOf r0) = Done (stOf r1) tt /\ shistory (stOf r0) (spOf r0) [cmpi] (stOf r1) (spOf r1)
  /\ tid_of (spOf r0) (LObj 5%nat) = Some (TObj (Fresh 0))
  /\ shistory (stOf r1) (spOf r1) [dbO 0xC3; OpL (LObj 5%nat)] (stOf r2) (spOf r2) /\ sp_defs (spOf r2) (TObj (Fresh 0)) = Some 13
  /\ shistory (stOf r2) (spOf r2) [dbO 1] (stOf r3) (spOf r3) /\ finished (stOf r3) (spOf r3)
  /\ mem_is 0 [0x90; 0x48; 0x81; 0x3D; 17; 0; 0; 0; 0x67; 0x45; 0x23; 0x01; 0xC3; 1] (stOf r3) = true.
Proof.
  split; [apply nth_In; apply Nat.ltb_lt; vm_compute; reflexivity|]. split; [grun|]. split.
  { apply R_refers. unfold i_cmp_oi. ref. apply oi_R. apply C06_rip_label_operand. }
  split; [reflexivity|]. split; [done|]. split; [hist|]. split; [vmr|]. split; [hist|]. split; [vmr|]. split; [hist|].
  split; [intros H; vm_compute in H; discriminate H|]. vmr.
Qed.
End Ex.
