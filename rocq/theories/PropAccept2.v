(* Property theorems C56, continued: Intel APX, and the 32-bit build (SpecAccept2). *)
From Coq Require Import ZArith List Bool String Lia.
From Verif Require Import Base Types Emit EmitFacts Encode Mnemonic SpecX86 SpecAddr SpecIsa SpecInsn SpecLeg SpecMix SpecApx Wf ApxTables Say32Tables SpecAccept Accept SpecAccept2 Accept2.
Import ListNotations.
Open Scope list_scope.
Open Scope Z_scope.

(* the extended forms of APX, with r16 .. r31, {nf} and {zu}: all are accepted *)
Theorem C56_apx : forall e, In e apx_table -> acomplete e.
Proof. exact apx_complete. Qed.
Print Assumptions C56_apx.
(* the 32-bit build: legacy encodings *)
Theorem C56_legacy32 : forall q e, In (q, e) leg32_table -> complete32 (le_fun e) (le_rows e) (fun row w ops => not_listed (le_name e) row w ops = true).
Proof. exact legacy32_complete. Qed.
Print Assumptions C56_legacy32.
Theorem C56_mixed32 : forall q e, In (q, e) mix32_table -> complete32 (me_fun e) (me_rows e) (fun row w ops => not_listed (me_name e) row w ops = true).
Proof. exact mix32_complete. Qed.
Print Assumptions C56_mixed32.
(* VEX and EVEX in the 32-bit build: every length, as register, memory and broadcast *)
Theorem C56_vector32_partial : forall q e md vl, In (q, e) vex32_table -> due32 e md vl -> left_out32 (en_name e) md vl = false -> takes32 e md vl.
Proof. exact vector32_take. Qed.
Print Assumptions C56_vector32_partial.

(* ---- instances: the tables; what there is to accept ---- *)
Example C56_sizes2 : (List.length apx_table, List.length leg32_table, List.length mix32_table, List.length vex32_table) = (322, 337, 137, 882)%nat.
Proof. reflexivity. Qed.
Definition acalls (e : aentry) : list (list Operand) :=
  flat_map (fun row => flat_map (fun w => let l := prod (as_arows 16 w (a_ops row)) in
    filter (fun ops => match ae_fun e ops (imm_for (a_immk row) w) 0 with Some _ => true | None => false end) (l ++ flat_map (nf_zu row) l)) (widths (a_osz row))) (ae_rows e).
Definition calls32 (f : insn) (rows : list lrow) : list (list Operand) :=
  flat_map (fun row => flat_map (fun w => if w =? 64 then [] else filter (fun ops => match f ops (imm_for (l_imm row) w) with Some _ => true | None => false end) (prod (as_rows32 0 w (l_ops row)))) (widths (l_osz row))) rows.
Definition none {A B} (f : A -> list B) (l : list A) : list A := filter (fun a => match f a with [] => true | _ => false end) l.
(* every method has such calls, except movdir64b of the 32-bit build (its row has a 64-bit register) *)
Example C56_calls2 :
  map ae_name (none acalls apx_table) = []
  /\ map (fun p => le_name (snd p)) (none (fun p => calls32 (le_fun (snd p)) (le_rows (snd p))) leg32_table) = []
  /\ map (fun p => me_name (snd p)) (none (fun p => calls32 (me_fun (snd p)) (me_rows (snd p))) mix32_table) = ["movdir64b"%string]
  /\ map (fun p => en_name (snd p)) (none (fun p => dues32 (snd p)) vex32_table) = [].
Proof. vm_compute. repeat split; reflexivity. Qed.
