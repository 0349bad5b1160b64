(* Specification: instruction methods as functions of their operands, the static types of their
   parameters, and what it means for a method to implement a row of the instruction table. *)
From Coq Require Import ZArith List Bool String.
From Verif Require Import Base Types Emit EmitFacts SpecX86 SpecAddr SpecIsa Wf.
Import ListNotations.
Open Scope Z_scope.

(* ---- operands a caller can pass ---- *)
(* C++ types of the parameters: Xmm (so Ymm and Zmm as well), Ymm, Zmm, Opmask, Reg8 .. Reg64, Tmm,
   Address, Operand.  Narrower than a type: cX4, the operand of an is4 immediate, xmm0 .. xmm15; cG w,
   the general registers 0 .. 15; cMs w, cMn w, memory operands whose declared size is (is not) w.  General registers carry no
   vector modifiers. *)
Inductive cls := cX | cY | cZ | cK | cR (w : Z) | cRe | cT | cA | cO | cX4 | cG (w : Z) | cMs (w : Z) | cMn (w : Z).
Definition arg_ok (c : cls) (o : Operand) : Prop :=
  match c, o with
  | cX, OReg r => vec_reg r /\ mods_ok r
  | cY, OReg r => vec_reg r /\ mods_ok r /\ 256 <= bit_ r
  | cZ, OReg r => vec_reg r /\ mods_ok r /\ bit_ r = 512
  | cK, OReg r => opmask_reg r /\ mods_ok r
  | cR w, OReg r => gpr r /\ bare r /\ bit_ r = w
  | cRe, OReg r => gpr r /\ bare r /\ (bit_ r = 32 \/ bit_ r = 64)
  | cX4, OReg r => vec_reg r /\ bare r /\ regno r < 16
  | cT, OReg r => tmm_reg r /\ bare r
  | cG w, OReg r => gpr r /\ bare r /\ bit_ r = w /\ regno r < 16
  | cMs w, OMem a => mem_ok a /\ bit_ (a_op a) = w
  | cMn w, OMem a => mem_ok a /\ bit_ (a_op a) <> w
  | cO, OReg r => (vec_reg r /\ mods_ok r) \/ (gpr r /\ bare r)
  | cO, OMem a | cA, OMem a => mem_ok a
  | _, _ => False
  end.
(* a mask is written on the memory operand only if it is written nowhere else *)
Definition one_mask (ops : list Operand) : Prop :=
  forall a o, In (OMem a) ops -> mask_ (a_op a) <> 0 -> In o ops -> o = OMem a \/ omask o = 0.

(* ---- methods ---- *)
(* a method applied to a list of operands; None if the operands are not of its parameter types *)
Definition insn := list Operand -> Z -> option (E unit).
Definition rro (f : Reg -> Reg -> Operand -> E unit) : insn :=
  fun ops _ => match ops with [OReg a; OReg b; o] => Some (f a b o) | _ => None end.
Definition roo (f : Reg -> Operand -> Operand -> E unit) : insn :=
  fun ops _ => match ops with [OReg a; o1; o2] => Some (f a o1 o2) | _ => None end.
Definition rroi (f : Reg -> Reg -> Operand -> Z -> E unit) : insn :=
  fun ops i => match ops with [OReg a; OReg b; o] => Some (f a b o i) | _ => None end.
Definition rror (f : Reg -> Reg -> Operand -> Reg -> E unit) : insn :=
  fun ops _ => match ops with [OReg a; OReg b; o; OReg c] => Some (f a b o c) | _ => None end.
Definition rra (f : Reg -> Reg -> Address -> E unit) : insn :=
  fun ops _ => match ops with [OReg a; OReg b; OMem m] => Some (f a b m) | _ => None end.
Definition arr (f : Address -> Reg -> Reg -> E unit) : insn :=
  fun ops _ => match ops with [OMem m; OReg a; OReg b] => Some (f m a b) | _ => None end.
Definition rar (f : Reg -> Address -> Reg -> E unit) : insn :=
  fun ops _ => match ops with [OReg a; OMem m; OReg b] => Some (f a m b) | _ => None end.
Definition rrr (f : Reg -> Reg -> Reg -> E unit) : insn :=
  fun ops _ => match ops with [OReg a; OReg b; OReg c] => Some (f a b c) | _ => None end.
Definition ro (f : Reg -> Operand -> E unit) : insn :=
  fun ops _ => match ops with [OReg a; o] => Some (f a o) | _ => None end.
Definition roi (f : Reg -> Operand -> Z -> E unit) : insn :=
  fun ops i => match ops with [OReg a; o] => Some (f a o i) | _ => None end.
Definition or_ (f : Operand -> Reg -> E unit) : insn :=
  fun ops _ => match ops with [o; OReg a] => Some (f o a) | _ => None end.
Definition ori (f : Operand -> Reg -> Z -> E unit) : insn :=
  fun ops i => match ops with [o; OReg a] => Some (f o a i) | _ => None end.
Definition ra (f : Reg -> Address -> E unit) : insn :=
  fun ops _ => match ops with [OReg a; OMem m] => Some (f a m) | _ => None end.
Definition ar (f : Address -> Reg -> E unit) : insn :=
  fun ops _ => match ops with [OMem m; OReg a] => Some (f m a) | _ => None end.
Definition rr (f : Reg -> Reg -> E unit) : insn :=
  fun ops _ => match ops with [OReg a; OReg b] => Some (f a b) | _ => None end.
Definition rri (f : Reg -> Reg -> Z -> E unit) : insn :=
  fun ops i => match ops with [OReg a; OReg b] => Some (f a b i) | _ => None end.
Definition a1 (f : Address -> E unit) : insn :=
  fun ops _ => match ops with [OMem m] => Some (f m) | _ => None end.
Definition r1 (f : Reg -> E unit) : insn :=
  fun ops _ => match ops with [OReg a] => Some (f a) | _ => None end.

(* ---- vector length of an instruction ---- *)
Definition width (o : Operand) : Z := match o with OReg r => bit_ r | OMem _ => 0 end.
Definition longest (ws : list Z) : Z := fold_right Z.max 128 ws.
Definition owid (o : option Operand) : Z := match o with Some o => width o | None => 0 end.
(* that of the widest register operand *)
Inductive vlrule :=
| VlRegs    (* the operands in ModRM.reg and vvvv; the one in ModRM.rm is not wider *)
| VlAll     (* all register operands *)
| VlMem     (* all register operands, or the size of the memory operand *)
| VlHalf.   (* twice the first operand, down to 128 if the second is not 256 bits wide *)
Definition size_of (o : Operand) : Z := bit_ (ob o).
Definition vl_of (rule : vlrule) (row : vrow) (ops : list Operand) : Z :=
  match rule with
  | VlRegs => longest [owid (at_slot SR (r_enc row) ops); owid (at_slot SV (r_enc row) ops)]
  | VlAll => longest (map width ops)
  | VlMem => longest (map size_of ops)
  | VlHalf => match ops with
              | [d; o] => if 256 <=? width d then 512 else if size_of o =? 256 then 256 else 128
              | _ => 0 end
  end.

Record entry := mkEntry { en_name : string; en_sig : list cls; en_fun : insn; en_row : vrow; en_vl : vlrule }.

(* whatever the method emits is the instruction of the row with these operands; with rc = false only
   for operands without rounding modifiers *)
Definition implements (rc : bool) (e : entry) : Prop :=
  forall s ops imm act env pos its rest u,
    en_fun e ops imm = Some act -> Forall2 arg_ok (en_sig e) ops -> one_mask ops ->
    Forall (fun o => width o <= vl_of (en_vl e) (en_row e) ops) ops ->
    (rc = false -> Forall (fun o => ornd o = 0) ops) -> 0 <= imm < 256 ->
    emits act env pos its u ->
    says (en_row e) (vl_of (en_vl e) (en_row e) ops) ops imm (render s its) rest.

(* ---- gather, scatter, prefetch: memory operands with a vector index (SDM vol. 2, VSIB) ---- *)
(* length of the index relative to that of the data *)
Inductive vsib := GSame | GHalf | GTwice.
(* the vector length of an instruction with data of length d and an index of length i *)
Definition vsib_len (g : vsib) (d i : Z) : option Z :=
  let half n := Z.max 128 (n / 2) in
  match g with
  | GSame => if d =? i then Some d else None
  | GHalf => if i =? half d then Some d else None
  | GTwice => if d =? half i then Some i else None
  end.
Definition index_of (a : Address) : Reg := e_index (a_e a).
(* bs ++ rest starts with an instruction of the row with ModRM.reg reg, vvvv v and the memory operand a,
   whose index is a vector register (bit 4 of its number is EVEX.V', so vvvv has four bits); the EVEX
   form has a mask other than k0, no zeroing, no broadcast *)
Definition says_vsib (row : vrow) (vl reg v : Z) (a : Address) (ops : list Operand) (bs rest : list Z) : Prop :=
  (exists f h m, r_vex row = Some f /\ decode true 1 (bs ++ rest) = Some (h, reg, RMem m, rest)
     /\ h_space h = Vex /\ form_ok f h /\ L_ok (f_L f) vl (h_L h) = true /\ h_V h = v /\ denotes (a_e a) h m
     /\ a_broadcast a = false /\ Forall (fun o => omask o = 0 /\ ornd o = 0) ops)
  \/ (exists f h m, r_evex row = Some f
     /\ decode true (disp8_factor (e_tuple f) vl None) (bs ++ rest) = Some (h, reg, RMem m, rest)
     /\ h_space h = Evex /\ form_ok (e_form f) h /\ L_ok (f_L (e_form f)) vl (h_L h) = true
     /\ vl_in (f_L (e_form f)) vl = true /\ h_V h mod 16 = v /\ denotes (a_e a) h m
     /\ h_b h = false /\ h_z h = false /\ common (map omask ops) (h_aaa h)
     /\ Forall (fun o => ornd o = 0) ops).
(* AVX2 gather (data, memory, mask): the three vector registers differ, data and mask have one length *)
Definition gather_avx2 (row : vrow) (g : vsib) (f : Reg -> Address -> Reg -> E unit) : Prop :=
  forall s x m x' env pos its rest u,
    vec_reg x -> bare x -> bit_ x <= 256 -> vec_reg x' -> bare x' -> bit_ x' <= 256 ->
    mem_ok m -> regno (index_of m) < 16 ->
    emits (f x m x') env pos its u ->
    exists vl, vsib_len g (bit_ x) (bit_ (index_of m)) = Some vl /\ bit_ x' = bit_ x
      /\ says_vsib row vl (regno x) (regno x') m [OReg x; OMem m; OReg x'] (render s its) rest
      /\ regno x <> regno (index_of m) /\ regno x <> regno x' /\ regno (index_of m) <> regno x'.
(* AVX-512 gather (gather = true) and scatter: some mask other than k0; a gather's data and index differ *)
Definition gather_evex (gather : bool) (row : vrow) (g : vsib) (f : Reg -> Address -> E unit) : Prop :=
  forall s x m env pos its rest u,
    arg_ok cX (OReg x) -> mem_ok m -> one_mask [OReg x; OMem m] ->
    emits (f x m) env pos its u ->
    exists vl, vsib_len g (bit_ x) (bit_ (index_of m)) = Some vl
      /\ says_vsib row vl (regno x) 0 m [OReg x; OMem m] (render s its) rest
      /\ (mask_ x <> 0 \/ mask_ (a_op m) <> 0)
      /\ (gather = true -> regno x <> regno (index_of m)).
(* AVX-512 prefetch of zmm data (GSame: 512-bit index; GHalf: 256-bit index) *)
Definition gather_fetch (row : vrow) (ilen : Z) (f : Address -> E unit) : Prop :=
  forall s m env pos its rest u, mem_ok m -> emits (f m) env pos its u ->
    bit_ (index_of m) = ilen
    /\ exists d, r_digit row = Some d /\ says_vsib row 512 d 0 m [OMem m] (render s its) rest.
