(* Specification: what it means for an SSE method to execute as an instruction of SpecSse. *)
From Coq Require Import ZArith List Bool String.
From Verif Require Import Base Types Emit EmitFacts SpecX86 SpecAddr SpecIsa SpecInsn SpecLeg SpecMix Wf SpecExec SpecVec SpecSse.
Import ListNotations.
Open Scope Z_scope.

(* Whatever the call act emits executes as q with the operands as written, and execution continues behind it. *)
Definition runs_as (isa : list sserow) (q : sserow) (act : E unit) (imm : Z) (ops : list Operand) : Prop :=
  forall s env pos its rest u rip x, emits act env pos its u ->
    sexec isa rip (render s its ++ rest) x = Some (rest, smeans q imm ops x).
(* operands: no mm registers (these select the MMX instruction of the same name), no vector modifiers *)
Definition not_mmx (ops : list Operand) : Prop := forall r, In (OReg r) ops -> ~ mmx_reg r.
Definition sse_method (isa : list sserow) (e : lentry) (q : sserow) : Prop :=
  forall ops imm act, le_fun e ops imm = Some act -> Forall2 larg_ok (le_sig e) ops -> Forall lbare ops -> not_mmx ops -> 0 <= imm < 256 ->
    runs_as isa q act imm ops.
Definition sse_store (isa : list sserow) (e : mentry) (q : sserow) : Prop :=
  forall ops imm act, me_fun e ops imm = Some act -> Forall2 marg_ok (me_sig e) ops -> Forall lbare ops -> 0 <= imm < 256 ->
    runs_as isa q act imm ops.
