(* Property theorems C28 (StackFrame). *)
From Coq Require Import ZArith List Bool Lia.
From Verif Require Import Base Types Emit EmitFacts StackFrame SpecFrame FrameProofs.
Import ListNotations.
Open Scope Z_scope.

(* accepted exactly for 0..4 parameters and at most 14 registers in all; no undefined behaviour unless the local size is within
   15 bytes of INT_MAX *)
Theorem C28_accepted : forall win pNum tNum size env pos, env_noexc env = false ->
  (accepted pNum tNum -> size <= INT_MAX - 15 -> exists its f, emits (sf_new win pNum tNum size) env pos its (Some f))
  /\ (~ accepted pNum tNum -> exists e, (e = ERR_BAD_PNUM \/ e = ERR_BAD_TNUM) /\ sf_new win pNum tNum size env pos = ([], Err e)).
Proof. exact frame_defined. Qed.
Print Assumptions C28_accepted.
(* the registers handed out are as many as asked for, pairwise distinct, not rsp or rax, nor rcx/rdx if these are reserved *)
Theorem C28_registers : forall win pNum tNum size f, frame_of win pNum tNum size f ->
  accepted pNum tNum /\ regs_ok win (has tNum UseRCX) (has tNum UseRDX) (f_p f) (f_t f)
  /\ len (f_p f) = pNum /\ len (f_t f) = tNum &&& Z.lnot (UseRCX ||| UseRDX) /\ Z.max 0 size <= Z.max 0 (f_P f) /\ 0 <= f_save f <= 8.
Proof. exact frame_regs. Qed.
Print Assumptions C28_registers.
(* running the bytes of the prologue, any body, and the bytes of the epilogue *)
Theorem C28_frame : forall win pNum tNum size env pos its f, emits (sf_new win pNum tNum size) env pos its (Some f) ->
  forall s m code, regs64 m -> 8 * f_save f + Z.max 0 (f_P f) <= rg m RSP -> rg m RSP + 8 < 2 ^ 64 ->
  exists m1, steps (render s its ++ code) m code m1
   /\ rg m1 RSP + Z.max 0 size <= rg m RSP - 8 * f_save f
   /\ (0 < size -> rg m RSP mod 16 = 8 -> rg m1 RSP mod 16 = 0)
   /\ (forall i a r, nth_error (args win) i = Some a -> nth_error (f_p f) i = Some r -> rg m1 r = rg m a)
   /\ (forall r, r <> RSP -> r <> 10 -> r <> 11 -> rg m1 r = rg m r)
   /\ forall m2 env' pos' its' u code', body_ok win (f_p f) (f_t f) size m1 m2 -> emits (sf_close win f true) env' pos' its' u ->
      exists m3 m4, steps (render s its' ++ code') m2 (0xC3 :: code') m3
       /\ step (0xC3 :: code') m3 = Some (Return (load (mm m) (rg m RSP) 8) m4)
       /\ rg m4 RSP = rg m RSP + 8 /\ (forall r, In r (callee_saved win) -> rg m4 r = rg m r)
       /\ (forall a, rg m RSP <= a -> mm m4 a = mm m a).
Proof. exact frame_all. Qed.
Print Assumptions C28_frame.
Definition env_f := mkEnv false 0x400000 false false VexEncoding PreAVX10v2Encoding.
(* 4 parameters, 7 temporaries, rcx and rdx reserved, 200 bytes of locals: 5 saved registers *)
Example C28_instance : exists its f, emits (sf_new false 4 (7 + 64 + 128) 200) env_f 0 its (Some f) /\ f_save f = 5 /\ f_P f = 208
  /\ f_p f = [7; 6; 11; 10] /\ f_t f = [8; 9; 3; 5; 12; 13; 14]
  /\ exists its' u, emits (sf_close false f true) env_f 0 its' u /\ body_ok false (f_p f) (f_t f) 200 (mkM (fun r => if r =? 4 then 0x7000 else 5) (fun _ => 7)) (mkM (fun r => if r =? 4 then 0x7000 else if r =? 3 then 9 else 5) (fun a => if a <? 0x7000 then 1 else 7)).
Proof.
  eexists. eexists. split; [split; [reflexivity|vm_compute; reflexivity]|]. cbn [f_save f_P f_p f_t]. repeat (split; [reflexivity|]).
  eexists. eexists. split; [split; [reflexivity|vm_compute; reflexivity]|].
  split; [reflexivity|]. split; [|split].
  - intros r. cbn [rg]. destruct (Z.eqb_spec r 4); [left; reflexivity|]. destruct (Z.eqb_spec r 3); [|left; reflexivity]. right. right. left. subst. cbn. tauto.
  - intros r. cbn [rg]. destruct (r =? 4), (r =? 3); cbn; lia.
  - intros a A. cbn [mm rg] in *. change (Z.max 0 200) with 200 in A. cbn in A. replace (a <? 0x7000) with false by lia. reflexivity.
Qed.
(* close to INT_MAX the size computation overflows *)
Theorem C28_overflow_refuted : exists win pNum tNum size its, accepted pNum tNum /\ size <= INT_MAX
  /\ emits (sf_new win pNum tNum size) env_f 0 its None.
Proof. exists false, 0, 0, INT_MAX. eexists. split; [cbv; repeat split; discriminate|]. split; [apply Z.le_refl|]. split; [reflexivity|vm_compute; reflexivity]. Qed.
Print Assumptions C28_overflow_refuted.
