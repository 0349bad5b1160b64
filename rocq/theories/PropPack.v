(* Property theorems C35 (Pack). *)
From Coq Require Import ZArith List Bool Lia.
From Verif Require Import Base Types Pack SpecPack PackProofs.
Import ListNotations.
Open Scope Z_scope.

(* after any sequence of constructions, append() and sub() a Pack holds the sequence of the specification, never
   more than 15 registers; operator[] reads it, and the next operation fails exactly when the specification says *)
Theorem C35_sequence : forall ops, ops_ok [] ops -> exists p, pk_run pack0 ops = POk p /\ k_n p = zlen (s_run [] ops) /\ k_n p <= 15
  /\ (forall i, 0 <= i -> pk_index p i = match nth_error (s_run [] ops) (Z.to_nat i) with Some r => POk r | None => PErr ERR_BAD_PARAMETER end)
  /\ (forall o, op_ok (s_run [] ops) o -> pk_step p o = PErr ERR_BAD_PARAMETER <-> s_step (s_run [] ops) o = None).
Proof. exact history. Qed.
Print Assumptions C35_sequence.
(* Pack(r3, r2, r1), append(r9), sub(1, 2) *)
Example C35_instance : let ops := [PArgs [Reg64 3; Reg64 2; Reg64 1]; PAppend (Reg64 9); PSub 1 2; PSub 1 5] in
  ops_ok [] ops /\ s_run [] ops = [Reg64 2; Reg64 3] /\ exists p, pk_run pack0 ops = POk p /\ pk_index p 1 = POk (Reg64 3).
Proof. cbn. repeat split; try lia. eexists. split; reflexivity. Qed.
(* sub(pos) with pos past the end should report ERR_BAD_PARAMETER: n_ - pos wraps around, pos + num is n_ and
   passes the check, and the copy loop leaves the array *)
Theorem C35_sub_past_end_refuted : forall p l pos, rep p l -> zlen l < pos < 2 ^ 64 -> pk_sub p pos size_m1 = PUB.
Proof. exact sub_past. Qed.
Print Assumptions C35_sub_past_end_refuted.
Example C35_sub_past_end_instance : rep (pk_args [Reg64 1]) [Reg64 1] /\ pk_sub (pk_args [Reg64 1]) 2 size_m1 = PUB
  /\ pk_sub (pk_args [Reg64 1]) 2 (2 ^ 64 - 2) = PUB.
Proof. split; [apply (args_rep [Reg64 1]); cbn; lia|split; vm_compute; reflexivity]. Qed.
