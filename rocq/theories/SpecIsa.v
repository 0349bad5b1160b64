(* Specification: VEX and EVEX instruction forms in the vocabulary of the Intel SDM vol. 2
   ("VEX.128/256.66.0F38.W0 98 /r", Op/En, tuple types), and what it means for bytes to be an
   instruction of such a form with given operands.  Independent of the attribute words of xbyak;
   the table of instructions itself is IsaRows.v. *)
From Coq Require Import ZArith List Bool.
From Verif Require Import Base Types SpecX86 SpecAddr.
Import ListNotations.
Open Scope Z_scope.

(* vector lengths of a form: combinations of 128 (x), 256 (y), 512 (z); LIG: ignored; L_0, L_1: the
   bit L is fixed and says nothing about operands *)
Inductive lclass := Lx | Ly | Lz | Lxy | Lyz | Lxyz | LIG | L_0 | L_1.
Inductive wclass := WIG | W0 | W1.
Inductive ppfx := NP | P66 | PF3 | PF2.
Inductive omap := M0F | M0F38 | M0F3A | MAP5 | MAP6.
(* embedded rounding: static rounding {er}, suppress all exceptions {sae} *)
Inductive rclass := NoRc | Er | Sae.
(* where an operand is encoded: ModRM.reg, vvvv, ModRM.rm, bits 7:4 of an immediate, imm8 *)
Inductive slot := SR | SV | SM | S4 | SI.

Record form := mkForm { f_L : lclass; f_pp : ppfx; f_map : omap; f_W : wclass; f_opc : Z }.
Record eform := mkEform { e_form : form; e_tuple : tuple; e_bcast : option Z; e_rc : rclass }.
Record vrow := mkRow {
  r_enc : list slot;        (* Op/En: the place of each operand, in assembler order *)
  r_digit : option Z;       (* /digit in ModRM.reg *)
  r_vex : option form; r_evex : option eform }.

(* notation of the tables *)
Definition RVM := [SR; SV; SM]. Definition RM := [SR; SM]. Definition MR := [SM; SR]. Definition VM := [SV; SM].
Definition RMV := [SR; SM; SV]. Definition MVR := [SM; SV; SR]. Definition RVM4 := [SR; SV; SM; S4].
Definition RVMI := [SR; SV; SM; SI]. Definition RMI := [SR; SM; SI]. Definition MRI := [SM; SR; SI]. Definition VMI := [SV; SM; SI].
Definition M_ := [SM]. Definition R_ := [SR].
Definition FV (n : Z) := (TFull, Some n). Definition FVM : tuple * option Z := (TFull, None).
Definition HV (n : Z) := (TPerVL 8, Some n). Definition HVM : tuple * option Z := (TPerVL 8, None).
Definition QV (n : Z) := (TPerVL 4, Some n). Definition QVM : tuple * option Z := (TPerVL 4, None).
Definition OVM : tuple * option Z := (TPerVL 2, None).
Definition TS (n : Z) : tuple * option Z := (TFixed n, None).
Definition DUP : tuple * option Z := (TMovddup, None).
Definition V (L : lclass) (p : ppfx) (m : omap) (w : wclass) (o : Z) := Some (mkForm L p m w o).
Definition EV (L : lclass) (p : ppfx) (m : omap) (w : wclass) (o : Z) (t : tuple * option Z) (rc : rclass) :=
  Some (mkEform (mkForm L p m w o) (fst t) (snd t) rc).
Definition no_vex : option form := None.
Definition no_evex : option eform := None.

(* ---- meaning of the header fields ---- *)
Definition pp_num (p : ppfx) : Z := match p with NP => 0 | P66 => 1 | PF3 => 2 | PF2 => 3 end.
Definition map_num (m : omap) : Z := match m with M0F => 1 | M0F38 => 2 | M0F3A => 3 | MAP5 => 5 | MAP6 => 6 end.
Definition W_ok (w : wclass) (b : bool) : bool := match w with WIG => true | W0 => negb b | W1 => b end.
(* vl is one of the lengths of the class *)
Definition vl_in (c : lclass) (vl : Z) : bool :=
  match c with
  | Lx => vl =? 128 | Ly => vl =? 256 | Lz => vl =? 512 | Lxy => (vl =? 128) || (vl =? 256)
  | Lyz => (vl =? 256) || (vl =? 512) | Lxyz => (vl =? 128) || (vl =? 256) || (vl =? 512)
  | LIG | L_0 | L_1 => true end.
(* the L field L is right for vector length vl *)
Definition L_ok (c : lclass) (vl L : Z) : bool :=
  match c with
  | LIG => true | L_0 => L =? 0 | L_1 => L =? 1
  | _ => vl_in c vl && (L =? (if vl =? 128 then 0 else if vl =? 256 then 1 else 2)) end.
Definition form_ok (f : form) (h : header) : Prop :=
  h_pp h = pp_num (f_pp f) /\ h_map h = map_num (f_map f) /\ W_ok (f_W f) (h_W h) = true /\ h_opc h = f_opc f
  /\ h_66 h = false /\ h_F2 h = false /\ h_F3 h = false /\ h_lock h = false /\ h_seg h = None.

(* ---- operands ---- *)
Definition vector (r : Reg) : bool := is_ r (XMM ||| YMM ||| ZMM) 0.
Definition rm_is (op : Operand) (h : header) (rm : rmop) : Prop :=
  match op, rm with
  | OReg b, RReg g v => if vector b then v = regno b else g = regno b
  | OMem a, RMem m => denotes (a_e a) h m
  | _, _ => False
  end.
Definition bcast (op : Operand) : bool := match op with OMem a => a_broadcast a | OReg _ => false end.
(* modifiers written on an operand: {k}, {z}, {rn-sae} .. {sae} *)
Definition omask (op : Operand) : Z := match op with OMem a => mask_ (a_op a) | OReg r => mask_ r end.
Definition ozero (op : Operand) : bool := match op with OMem _ => false | OReg r => zero_ r end.
Definition ornd (op : Operand) : Z := match op with OMem _ => 0 | OReg r => rounding_ r end.
(* v is the modifier given by the operands: no conflicting ones, 0 if there are none *)
Definition common (ms : list Z) (v : Z) : Prop := Forall (fun m => m = 0 \/ m = v) ms /\ (v = 0 \/ In v ms).

(* bs ++ rest starts with an instruction of the row: ModRM.reg is reg, vvvv is v, ModRM.rm is op, the
   bytes tail follow; its length is vl, the modifiers are those of the operands ops *)
Definition says_core (row : vrow) (vl reg v : Z) (op : Operand) (ops : list Operand) (tail bs rest : list Z) : Prop :=
  (exists f h rm, r_vex row = Some f
     /\ decode false 1 (bs ++ rest) = Some (h, reg, rm, tail ++ rest)
     /\ h_space h = Vex /\ form_ok f h /\ L_ok (f_L f) vl (h_L h) = true /\ h_V h = v /\ rm_is op h rm
     /\ bcast op = false /\ Forall (fun o => omask o = 0 /\ ornd o = 0) ops)
  \/ (exists f h rm rnd, r_evex row = Some f
     /\ decode false (disp8_factor (e_tuple f) vl (if bcast op then e_bcast f else None)) (bs ++ rest)
        = Some (h, reg, rm, tail ++ rest)
     /\ h_space h = Evex /\ form_ok (e_form f) h /\ h_V h = v /\ rm_is op h rm
     /\ vl_in (f_L (e_form f)) vl = true
     /\ (bcast op = true -> e_bcast f <> None)
     /\ common (map omask ops) (h_aaa h) /\ h_z h = negb (h_aaa h =? 0) && existsb ozero ops
     /\ common (map ornd ops) rnd /\ (rnd <> 0 -> exists r, op = OReg r)
     /\ (rnd = 0 -> h_b h = bcast op /\ L_ok (f_L (e_form f)) vl (h_L h) = true)
     /\ (rnd = 5 -> e_rc f = Sae /\ h_b h = true)
     /\ (1 <= rnd <= 4 -> e_rc f = Er /\ h_b h = true /\ h_L h = rnd - 1)).

(* the operand in a slot *)
Definition slot_eqb (a b : slot) : bool := match a, b with SR, SR | SV, SV | SM, SM | S4, S4 | SI, SI => true | _, _ => false end.
Fixpoint at_slot (s : slot) (enc : list slot) (ops : list Operand) : option Operand :=
  match enc, ops with
  | e :: enc', o :: ops' => if slot_eqb s e then Some o else at_slot s enc' ops'
  | _, _ => None
  end.
Definition slot_reg (o : option Operand) : Z := match o with Some (OReg r) => regno r | _ => 0 end.

(* bs ++ rest starts with the instruction of the row with operands ops (assembler order, without the
   immediate), vector length vl and immediate imm (if the row has one); a form without an operand in
   ModRM.rm has 11:000 there *)
Definition says (row : vrow) (vl : Z) (ops : list Operand) (imm : Z) (bs rest : list Z) : Prop :=
  let reg := match r_digit row with Some d => d | None => slot_reg (at_slot SR (r_enc row) ops) end in
  let v := slot_reg (at_slot SV (r_enc row) ops) in
  let tail := match at_slot S4 (r_enc row) ops with
              | Some (OReg r) => [16 * regno r]
              | _ => if existsb (slot_eqb SI) (r_enc row) then [imm] else [] end in
  let op := match at_slot SM (r_enc row) ops with Some op => op | None => OReg noReg end in
  says_core row vl reg v op ops tail bs rest.
