(* Property theorems C21: ah, ch, dh, bh.  [names_byte bs b]: a register field of the instruction bs is the byte register b. *)
From Coq Require Import ZArith List Bool String Lia.
From Verif Require Import Base Types Emit Encode SpecX86 SpecAddr SpecInsn SpecLeg SpecHigh Wf EmitFacts Mnemonic LegTables LegTables2 HighFacts.
Import ListNotations.
Open Scope Z_scope.

(* Whatever a method of the tables emits for such a register names it, and not spl .. dil.  Partial: [high_ok] excludes memory
   operands with r8 .. r31 and 64-bit registers, see below *)
Theorem C21_high_registers_partial : forall e s ops imm act env pos its rest u r, In e (legacy_table ++ gpr_table) ->
  le_fun e ops imm = Some act -> Forall2 larg_ok (le_sig e) ops -> Forall lbare ops -> high_ok ops ->
  Forall (fun row => imm_in (l_imm row) imm) (le_rows e) -> emits act env pos its u ->
  In (OReg r) ops -> is_high (OReg r) -> names_byte (render s its ++ rest) (BHigh (idx_ r - 4)).
Proof. exact high_registers. Qed.
Print Assumptions C21_high_registers_partial.
(* pairs of byte registers are not excluded: what needs a REX prefix is rejected *)
Theorem C21_byte_pairs : forall r1 r2, bit_ r1 = 8 -> bit_ r2 = 8 -> high_ok [OReg r1; OReg r2].
Proof. exact byte_pair_ok. Qed.
Print Assumptions C21_byte_pairs.
Example C21_hypotheses :
  let ops := [OReg (Reg8 1); OReg (Reg8 6)] in
  In e_xadd (legacy_table ++ gpr_table) /\ Forall2 larg_ok (le_sig e_xadd) ops /\ Forall lbare ops /\ high_ok ops
  /\ is_high (OReg (Reg8 6)) /\ exists act its, le_fun e_xadd ops 0 = Some act /\ emits act env0 0 its tt /\ render (fun _ _ _ => 0) its = [0x0F; 0xC0; 0xF1].
Proof.
  cbv zeta. split.
  { apply in_or_app. right. cbv delta [gpr_table]. repeat (first [left; reflexivity|right]). }
  split. { assert (forall n, 0 <= n < 8 -> gpr (Reg8 n)) as G.
    { intros n Hn. assert (C : n = 0 \/ n = 1 \/ n = 2 \/ n = 3 \/ n = 4 \/ n = 5 \/ n = 6 \/ n = 7) by lia.
      split; [reflexivity|]. left. repeat (destruct C as [->|C]; [split; [left; reflexivity|vm_compute; split; congruence]|]). subst. split; [left; reflexivity|vm_compute; split; congruence]. }
    apply Forall2_cons; [apply G; lia|]. apply Forall2_cons; [apply G; lia|]. apply Forall2_nil. }
  split. { repeat (apply Forall_cons; [vm_compute; tauto|]). apply Forall_nil. }
  split; [apply C21_byte_pairs; reflexivity|]. split; [split; [reflexivity|vm_compute; split; congruence]|].
  eexists; eexists; split; [reflexivity|]. split; [split; reflexivity|reflexivity].
Qed.

(* mov ah, [r8]; add [r8], bh; movzx rax, ah ... are accepted and use spl .. dil *)
Theorem C21_rex_refuted : forall r m n, In r high_regs -> In m (wrong_forms r) ->
  exists its, emits m env0 0 its tt /\ ~ names_byte (render (fun _ _ _ => 0) its) (BHigh n).
Proof. exact high_lost. Qed.
Print Assumptions C21_rex_refuted.
Example C21_mov_ah : In (mov_oo (OReg (Reg8 4)) at_r8) (wrong_forms (Reg8 4)) /\ names_byte [0x41; 0x8A; 0x20] (BLow 4)
  /\ exists its, emits (mov_oo (OReg (Reg8 4)) at_r8) env0 0 its tt /\ render (fun _ _ _ => 0) its = [0x41; 0x8A; 0x20].
Proof.
  split; [left; reflexivity|]. split; [left; do 4 eexists; split; [reflexivity|left; reflexivity]|].
  eexists; split; [split; reflexivity|reflexivity].
Qed.
