(* Specification: what the code of the 32-bit build means in 32-bit mode.  The rows are those of the 64-bit instruction tables
   (SpecLeg.v, SpecIsa.v, IsaRows.v); bytes are decoded by [decode32], addresses are computed modulo 2^32. *)
From Coq Require Import ZArith List Bool String.
From Verif Require Import Base Types Emit EmitFacts SpecX86 SpecAddr SpecIsa SpecInsn SpecLeg SpecMix Wf Spec32 SpecStart32.
Import ListNotations.
Open Scope Z_scope.

(* the decoded memory operand denotes the written expression, for all register contents *)
Definition denotes32 (e : RegExp) (m : mem) : Prop := forall regs, eff_addr32 regs m = written32 regs e.

(* ---- legacy instructions ---- *)
(* there are no 64-bit operands and no REX prefixes: 4..7 are ah, ch, dh, bh *)
Definition oper_ok32 (w : Z) (h : header) (reg : Z) (rm : option rmop) (o : oper) (op : Operand) : Prop :=
  match op with
  | OReg r =>
      (exists k, o_reg o = Some k /\ in_file k r) /\ regno r < 8 /\ (o_reg o = Some KG -> bit_ r <> 64)
      /\ size_is (o_size o) w (bit_ r)
      /\ match o_at o with
         | InReg => reg = regno r
         | InRm => rm = Some (RReg (regno r) (regno r))
         | InOpc => h_opc h mod 8 = regno r
         | Implied n => regno r = n
         end
      /\ (bit_ r = 8 -> match o_at o with
                        | Implied n => byte_meaning r = BLow n
                        | _ => byte_meaning r = byte_reg false (regno r) end)
  | OMem a =>
      o_mem o = true /\ o_at o = InRm /\ (bit_ (a_op a) = 0 \/ size_is (o_size o) w (bit_ (a_op a)))
      /\ exists m, rm = Some (RMem m) /\ denotes32 (a_e a) m
  end.
Definition lsays32 (row : lrow) (ops : list Operand) (imm : Z) (bs rest : list Z) : Prop :=
  exists w h reg rm opc tail,
    (if l_modrm row
     then (exists r, rm = Some r /\ decode32 false 1 (bs ++ rest) = Some (h, reg, r, tail ++ rest)) /\ opc = h_opc h
     else dec_header32 (bs ++ rest) = Some (h, tail ++ rest) /\ rm = None
          /\ opc = (if existsb (fun o => match o_at o with InOpc => true | _ => false end) (l_ops row)
                    then h_opc h - h_opc h mod 8 else h_opc h))
    /\ lhead row w h opc /\ w <> 64
    /\ (forall d, l_digit row = Some d -> reg = d)
    /\ Forall2 (oper_ok32 w h reg rm) (l_ops row) ops
    /\ sized row w ops
    /\ imm_ok (l_imm row) w imm tail.

(* ---- VEX and EVEX instructions ---- *)
Definition rm_is32 (op : Operand) (rm : rmop) : Prop :=
  match op, rm with
  | OReg b, RReg g v => if vector b then v = regno b else g = regno b
  | OMem a, RMem m => denotes32 (a_e a) m
  | _, _ => False
  end.
Definition says_core32 (row : vrow) (vl reg v : Z) (op : Operand) (ops : list Operand) (tail bs rest : list Z) : Prop :=
  (exists f h rm, r_vex row = Some f
     /\ decode32 false 1 (bs ++ rest) = Some (h, reg, rm, tail ++ rest)
     /\ h_space h = Vex /\ form_ok f h /\ L_ok (f_L f) vl (h_L h) = true /\ h_V h = v /\ rm_is32 op rm
     /\ bcast op = false /\ Forall (fun o => omask o = 0) ops)
  \/ (exists f h rm, r_evex row = Some f
     /\ decode32 false (disp8_factor (e_tuple f) vl (if bcast op then e_bcast f else None)) (bs ++ rest)
        = Some (h, reg, rm, tail ++ rest)
     /\ h_space h = Evex /\ form_ok (e_form f) h /\ h_V h = v /\ rm_is32 op rm
     /\ vl_in (f_L (e_form f)) vl = true
     /\ (bcast op = true -> e_bcast f <> None)
     /\ common (map omask ops) (h_aaa h) /\ h_z h = negb (h_aaa h =? 0) && existsb ozero ops
     /\ h_b h = bcast op /\ L_ok (f_L (e_form f)) vl (h_L h) = true).
Definition says32 (row : vrow) (vl : Z) (ops : list Operand) (imm : Z) (bs rest : list Z) : Prop :=
  let reg := match r_digit row with Some d => d | None => slot_reg (at_slot SR (r_enc row) ops) end in
  let v := slot_reg (at_slot SV (r_enc row) ops) in
  let tail := match at_slot S4 (r_enc row) ops with
              | Some (OReg r) => [16 * regno r]
              | _ => if existsb (slot_eqb SI) (r_enc row) then [imm] else [] end in
  let op := match at_slot SM (r_enc row) ops with Some op => op | None => OReg noReg end in
  says_core32 row vl reg v op ops tail bs rest.

(* ---- methods ---- *)
(* operands of the 32-bit build without rounding, {nf} and {zu}: not a 16-bit one together with a 64-bit (memory, MMX) one;
   memory operands fit MMX registers; with q no operand has 64 bits *)
Definition ops32 (q : bool) (ops : list Operand) : Prop :=
  Forall op32 ops /\ Forall nomods_op ops
  /\ (Forall (fun o => isBit (ob o) 16 = false) ops \/ Forall (fun o => isBit (ob o) 64 = false) ops)
  /\ (forall o1 o2, In o1 ops -> In o2 ops -> fit_ops o1 o2)
  /\ (q = true -> Forall (fun o => isBit (ob o) 64 = false) ops).
(* the classes of arguments are those of the 64-bit tables, for the corresponding operands *)
Definition limplements32 (q : bool) (e : lentry) : Prop :=
  forall s ops imm act env pos its rest u,
    le_fun e ops imm = Some act -> ops32 q ops ->
    Forall2 larg_ok (le_sig e) (map widen_op ops) -> Forall lbare ops -> high_ok ops ->
    Forall (fun row => imm_in (l_imm row) imm) (le_rows e) ->
    emits act env pos its u ->
    Exists (fun row => lsays32 row ops imm (render s its) rest) (le_rows e).
Definition mimplements32 (q : bool) (e : mentry) : Prop :=
  forall s ops imm act env pos its rest u,
    me_fun e ops imm = Some act -> ops32 q ops ->
    Forall2 marg_ok (me_sig e) (map widen_op ops) -> Forall lbare ops ->
    Forall (fun row => imm_in (l_imm row) imm) (me_rows e) ->
    emits act env pos its u ->
    Exists (fun row => lsays32 row ops imm (render s its) rest) (me_rows e).
Definition implements32 (q : bool) (e : entry) : Prop :=
  forall s ops imm act env pos its rest u,
    en_fun e ops imm = Some act -> ops32 q ops ->
    Forall2 arg_ok (en_sig e) (map widen_op ops) -> one_mask ops ->
    Forall (fun o => width o <= vl_of (en_vl e) (en_row e) ops) ops -> 0 <= imm < 256 ->
    emits act env pos its u ->
    says32 (en_row e) (vl_of (en_vl e) (en_row e) ops) ops imm (render s its) rest.
