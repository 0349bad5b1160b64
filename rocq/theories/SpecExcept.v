(* Specification: methods that implement their row except for one kind of encoding, the one the counterexamples of
   PropIsaRefuted.v show. *)
From Coq Require Import ZArith List Bool String.
From Verif Require Import Base Types Emit EmitFacts SpecX86 SpecAddr SpecIsa Wf SpecInsn.
Import ListNotations.
Open Scope Z_scope.

Inductive defect :=
| OnEvexMem     (* EVEX encodings of memory operands (wrong displacement factor) *)
| OnEvex        (* EVEX encodings (the instruction has none) *)
| OnVex         (* VEX encodings (the instruction has none) *)
| OnBroadcast.  (* broadcast memory operands (the instruction has none) *)
Definition excused (d : defect) (ops : list Operand) (bs rest : list Z) : Prop :=
  exists n h reg rm tail, decode false n (bs ++ rest) = Some (h, reg, rm, tail) /\
  match d with
  | OnEvexMem => h_space h = Evex /\ exists m, rm = RMem m
  | OnEvex => h_space h = Evex
  | OnVex => h_space h = Vex
  | OnBroadcast => h_space h = Evex /\ h_b h = true /\ exists a, In (OMem a) ops /\ a_broadcast a = true
  end.
Definition implements_except (d : defect) (rc : bool) (e : entry) : Prop :=
  forall s ops imm act env pos its rest u,
    en_fun e ops imm = Some act -> Forall2 arg_ok (en_sig e) ops -> one_mask ops ->
    Forall (fun o => width o <= vl_of (en_vl e) (en_row e) ops) ops ->
    (rc = false -> Forall (fun o => ornd o = 0) ops) -> 0 <= imm < 256 ->
    emits act env pos its u ->
    says (en_row e) (vl_of (en_vl e) (en_row e) ops) ops imm (render s its) rest \/ excused d ops (render s its) rest.

(* methods of an instruction with two rows: whatever they emit is the instruction of one of them *)
Definition implements_one (row2 : vrow) (rc : bool) (e : entry) : Prop :=
  forall s ops imm act env pos its rest u,
    en_fun e ops imm = Some act -> Forall2 arg_ok (en_sig e) ops -> one_mask ops ->
    Forall (fun o => width o <= vl_of (en_vl e) (en_row e) ops) ops ->
    (rc = false -> Forall (fun o => ornd o = 0) ops) -> 0 <= imm < 256 ->
    emits act env pos its u ->
    says (en_row e) (vl_of (en_vl e) (en_row e) ops) ops imm (render s its) rest
    \/ says row2 (vl_of (en_vl e) row2 ops) ops imm (render s its) rest.

(* methods of opmask and tile moves: registers without vector modifiers; memory without mask, broadcast,
   32-bit address registers or modifiers on address registers *)
Definition amem64 (a : Address) : Prop :=
  mem_ok a /\ uses32 (a_e a) = false /\ ~ vec_reg (e_index (a_e a)) /\ mask_ (a_op a) = 0 /\ a_broadcast a = false
  /\ NF_ (a_op a) = false /\ ZU_ (a_op a) = false
  /\ NF_ (e_base (a_e a)) = false /\ NF_ (e_index (a_e a)) = false
  /\ ZU_ (e_base (a_e a)) = false /\ ZU_ (e_index (a_e a)) = false.
Definition plain (o : Operand) : Prop := match o with OReg r => bare r | OMem a => amem64 a end.
Definition implements_plain (e : entry) : Prop :=
  forall s ops imm act env pos its rest u,
    en_fun e ops imm = Some act -> Forall2 arg_ok (en_sig e) ops -> Forall plain ops ->
    emits act env pos its u ->
    says (en_row e) (vl_of (en_vl e) (en_row e) ops) ops imm (render s its) rest.
(* the address a is encoded with a SIB byte that names base and index ("sibmem") *)
Definition sib_form (a : Address) (bs rest : list Z) : Prop :=
  exists h reg m tail, decode false 1 (bs ++ rest) = Some (h, reg, RMem m, tail)
    /\ m_base m = BReg (regno (e_base (a_e a))) /\ m_index m = Some (regno (e_index (a_e a))).
