(* Specification: instructions with the extended EVEX prefix of Intel APX (opcode map 4 and the promoted VEX
   and legacy instructions), in the vocabulary of the APX architecture specification: "EVEX.LLZ.NP.MAP4.SCALABLE
   01 /r, ND=1", NDD operand in vvvv, NF, ZU, source condition code and default flag values.
   Independent of xbyak. *)
From Coq Require Import ZArith List Bool String.
From Verif Require Import Base Types Emit EmitFacts SpecX86 SpecAddr SpecIsa SpecInsn SpecLeg Wf.
Import ListNotations.
Open Scope Z_scope.

(* where an operand is encoded: ModRM.reg, ModRM.rm, EVEX.vvvv with V4, or nowhere *)
Inductive aplace := AtReg | AtRm | AtV | AtImplied (n : Z).
Record aoper := mkAO { ao_at : aplace; ao_reg : option okind; ao_mem : bool; ao_size : osize }.
(* The ND bit: 0, 1, or 1 when zero-upper is asked for *)
Inductive ndk := Nd0 | Nd1 | NdZU.
(* The NF bit: 0; 1 when asked for; 1 as part of the opcode (CFCMOV) *)
Inductive nfk := NfNo | NfOpt | Nf1.
Record arow := mkA {
  a_pp : ppfx; a_map : Z; a_opc : Z; a_digit : option Z;
  a_ops : list aoper; a_osz : wsize; a_ndk : ndk;
  a_nf : nfk;
  a_sc : option Z;         (* source condition code (CCMP, CTEST) *)
  a_immk : immk }.

(* modifiers asked for by the caller *)
Definition wants_nf (ops : list Operand) : bool := existsb (fun o => NF_ (ob o)) ops.
Definition wants_zu (ops : list Operand) : bool := existsb (fun o => ZU_ (ob o)) ops.

Definition has_v (row : arow) : bool := existsb (fun o => match ao_at o with AtV => true | _ => false end) (a_ops row).
(* everything but the operands *)
Definition ahead (row : arow) (w dfv : Z) (ops : list Operand) (h : header) : Prop :=
  h_space h = Evex /\ w_in (a_osz row) w = true
  /\ h_66 h = false /\ h_F2 h = false /\ h_F3 h = false /\ h_lock h = false /\ h_seg h = None
  /\ h_map h = a_map row
  /\ h_pp h = (if w_66 (a_osz row) w then 1 else pp_num (a_pp row))
  /\ w_W (a_osz row) w (h_W h) = true
  /\ h_opc h = w_opc (a_osz row) w (a_opc row)
  /\ h_L h = 0 /\ h_z h = false
  /\ match a_sc row with
     | None =>
         h_nd h = match a_ndk row with Nd0 => false | Nd1 => true | NdZU => wants_zu ops end
         /\ (wants_zu ops = true -> a_ndk row <> Nd0)   (* an NDD destination is zero extended anyway *)
         /\ match a_nf row with NfNo => h_nf h = false /\ wants_nf ops = false | NfOpt => h_nf h = wants_nf ops | Nf1 => h_nf h = true end
         /\ h_sc h mod 4 = 0
         /\ (has_v row = false -> h_V h = 0)
     | Some c => h_nd h = false /\ h_sc h = c /\ 15 - h_V h mod 16 = dfv /\ 0 <= dfv < 16
                 /\ wants_nf ops = false /\ wants_zu ops = false
     end.
(* operand op written for o *)
Definition aoper_ok (w : Z) (h : header) (reg : Z) (rm : rmop) (o : aoper) (op : Operand) : Prop :=
  match op with
  | OReg r =>
      (exists k, ao_reg o = Some k /\ in_file k r)
      /\ size_is (ao_size o) w (bit_ r)
      /\ match ao_at o with
         | AtReg => reg = regno r
         | AtRm => (exists v, rm = RReg (regno r) v) /\ h_X h = 0
         | AtV => h_V h = regno r
         | AtImplied n => regno r = n
         end
      /\ (bit_ r = 8 -> byte_meaning r = BLow (regno r))
  | OMem a =>
      ao_mem o = true /\ ao_at o = AtRm /\ (bit_ (a_op a) = 0 \/ size_is (ao_size o) w (bit_ (a_op a)))
      /\ exists m, rm = RMem m /\ denotes (a_e a) h m
  end.
(* the operand size is that of some operand *)
Definition asized (row : arow) (w : Z) (ops : list Operand) : Prop :=
  w = 0 \/ Exists (fun p => ao_size (fst p) = Sv /\ bit_ (ob (snd p)) = w) (combine (a_ops row) ops).

(* bs ++ rest starts with the instruction of the row with operands ops, immediate imm and default flags dfv *)
Definition asays (row : arow) (ops : list Operand) (imm dfv : Z) (bs rest : list Z) : Prop :=
  exists w h reg rm tail,
    decode false 1 (bs ++ rest) = Some (h, reg, rm, tail ++ rest)
    /\ ahead row w dfv ops h
    /\ (forall d, a_digit row = Some d -> reg mod 8 = d)   (* the extension bits are not part of the digit *)
    /\ Forall2 (aoper_ok w h reg rm) (a_ops row) ops
    /\ asized row w ops
    /\ imm_ok (a_immk row) w imm tail.

(* ---- methods ---- *)
(* Parameters.  cG: a general register r0 .. r31 that is not ah, ch, dh, bh; cGv: not a byte register; cGy: of 32 or
   64 bits; cE, cEv, cEy: such a register or memory (declared with a fitting size or without a size);
   cA: memory; cRn n: a register of n bits, cEn n: that or memory of n bits; cCl: an 8-bit register.
   Memory operands have 64-bit (or no) address registers. *)
Inductive acls := cG | cGv | cGy | cE | cEv | cEy | cA | cRn (n : Z) | cEn (n : Z) | cCl.
Definition low8 (r : Reg) : Prop := bit_ r = 8 -> byte_meaning r = BLow (regno r).
Definition amem (a : Address) : Prop :=
  mem_ok a /\ (uses32 (a_e a) = false /\ ~ vec_reg (e_index (a_e a)))
  /\ NF_ (a_op a) = false /\ ZU_ (a_op a) = false
  /\ NF_ (e_base (a_e a)) = false /\ NF_ (e_index (a_e a)) = false
  /\ ZU_ (e_base (a_e a)) = false /\ ZU_ (e_index (a_e a)) = false.
Definition aarg_ok (c : acls) (o : Operand) : Prop :=
  match c, o with
  | cG, OReg r | cE, OReg r => gpr r /\ low8 r
  | cGv, OReg r | cEv, OReg r => gpr r /\ bit_ r <> 8
  | cGy, OReg r | cEy, OReg r => gpr r /\ (bit_ r = 32 \/ bit_ r = 64)
  | cE, OMem a | cA, OMem a => amem a
  | cEv, OMem a => amem a /\ bit_ (a_op a) <> 8
  | cEy, OMem a => amem a /\ bit_ (a_op a) <> 8 /\ bit_ (a_op a) <> 16
  | cRn n, OReg r | cEn n, OReg r => gpr r /\ low8 r /\ bit_ r = n
  | cEn n, OMem a => amem a /\ bit_ (a_op a) = n
  | cCl, OReg r => gpr r /\ low8 r /\ bit_ r = 8 /\ NF_ r = false /\ ZU_ r = false
  | _, _ => False
  end.
(* the operands that have the operand size agree on it; one of them has a size *)
Definition takes_size (c : acls) : bool := match c with cCl | cRn _ | cEn _ => false | _ => true end.
Definition same_size (sig : list acls) (ops : list Operand) : Prop :=
  existsb takes_size sig = false \/
  exists w, In w [8; 16; 32; 64] /\
    Forall (fun p => takes_size (fst p) = true ->
       match snd p with OReg r => bit_ r = w | OMem a => bit_ (a_op a) = 0 \/ bit_ (a_op a) = w end) (combine sig ops)
    /\ Exists (fun p => takes_size (fst p) = true /\ bit_ (ob (snd p)) = w) (combine sig ops).
(* some register is r16 .. r31, or a modifier is used: only then the forms without NDD operand are needed *)
Definition ext_reg (o : Operand) : bool :=
  match o with OReg r => 16 <=? regno r
             | OMem a => (16 <=? regno (e_base (a_e a))) || (16 <=? regno (e_index (a_e a))) end.
Definition extended (o : Operand) : bool := NF_ (ob o) || ZU_ (ob o) || ext_reg o.
(* when the rows are claimed: always; for extended operands; for r16 .. r31 or NF on the first operand; for r16 .. r31 *)
Inductive xk := XNo | XAny | XHd | XRegs.
Definition ext_ok (k : xk) (ops : list Operand) : bool :=
  match k with
  | XNo => true
  | XAny => existsb extended ops
  | XHd => existsb ext_reg ops || match ops with o :: _ => NF_ (ob o) | [] => false end
  | XRegs => existsb ext_reg ops
  end.

Definition ainsn := list Operand -> Z -> Z -> option (E unit).
Record aentry := mkAE { ae_name : string; ae_sig : list acls; ae_ext : xk; ae_fun : ainsn; ae_rows : list arow }.
(* whatever the method emits is the instruction of one of the rows *)
Definition aimplements (e : aentry) : Prop :=
  forall s ops imm dfv act env pos its rest u,
    ae_fun e ops imm dfv = Some act -> Forall2 aarg_ok (ae_sig e) ops -> same_size (ae_sig e) ops -> Forall lbare ops ->
    ext_ok (ae_ext e) ops = true ->
    - 2 ^ 31 <= dfv < 2 ^ 31 ->
    (wants_zu ops = true -> Forall (fun row => a_ndk row <> Nd0) (ae_rows e)) ->
    Forall (fun row => imm_in (a_immk row) imm) (ae_rows e) ->
    emits act env pos its u ->
    Exists (fun row => asays row ops imm dfv (render s its) rest) (ae_rows e).

(* argument lists *)
Definition a_roo (f : Reg -> Operand -> Operand -> E unit) : ainsn := fun ops imm dfv =>
  match ops with [OReg d; o1; o2] => Some (f d o1 o2) | _ => None end.
Definition a_roi (f : Reg -> Operand -> Z -> E unit) : ainsn := fun ops imm dfv =>
  match ops with [OReg d; o] => Some (f d o imm) | _ => None end.
Definition a_ro (f : Reg -> Operand -> E unit) : ainsn := fun ops imm dfv =>
  match ops with [OReg d; o] => Some (f d o) | _ => None end.
Definition a_rro (f : Reg -> Reg -> Operand -> E unit) : ainsn := fun ops imm dfv =>
  match ops with [OReg d; OReg r; o] => Some (f d r o) | _ => None end.
Definition a_ror (f : Reg -> Operand -> Reg -> E unit) : ainsn := fun ops imm dfv =>
  match ops with [OReg d; o; OReg r] => Some (f d o r) | _ => None end.
Definition a_rori (f : Reg -> Operand -> Reg -> Z -> E unit) : ainsn := fun ops imm dfv =>
  match ops with [OReg d; o; OReg r] => Some (f d o r imm) | _ => None end.
Definition a_rorr (f : Reg -> Operand -> Reg -> Reg -> E unit) : ainsn := fun ops imm dfv =>
  match ops with [OReg d; o; OReg r; OReg c] => Some (f d o r c) | _ => None end.
Definition a_rri (f : Reg -> Reg -> Z -> E unit) : ainsn := fun ops imm dfv =>
  match ops with [OReg d; OReg r] => Some (f d r imm) | _ => None end.
Definition a_mrr (f : Address -> Reg -> Reg -> E unit) : ainsn := fun ops imm dfv =>
  match ops with [OMem a; OReg r; OReg q] => Some (f a r q) | _ => None end.
Definition a_ori (f : Operand -> Reg -> Z -> E unit) : ainsn := fun ops imm dfv =>
  match ops with [o; OReg r] => Some (f o r imm) | _ => None end.
Definition a_orr (f : Operand -> Reg -> Reg -> E unit) : ainsn := fun ops imm dfv =>
  match ops with [o; OReg r; OReg c] => Some (f o r c) | _ => None end.
Definition a_or (f : Operand -> Reg -> E unit) : ainsn := fun ops imm dfv =>
  match ops with [o; OReg r] => Some (f o r) | _ => None end.
Definition a_oi (f : Operand -> Z -> E unit) : ainsn := fun ops imm dfv =>
  match ops with [o] => Some (f o imm) | _ => None end.
Definition a_o (f : Operand -> E unit) : ainsn := fun ops imm dfv =>
  match ops with [o] => Some (f o) | _ => None end.
Definition a_oo (f : Operand -> Operand -> E unit) : ainsn := fun ops imm dfv =>
  match ops with [o1; o2] => Some (f o1 o2) | _ => None end.
Definition a_mr (f : Address -> Reg -> E unit) : ainsn := fun ops imm dfv =>
  match ops with [OMem a; OReg r] => Some (f a r) | _ => None end.
Definition a_rm (f : Reg -> Address -> E unit) : ainsn := fun ops imm dfv =>
  match ops with [OReg r; OMem a] => Some (f r a) | _ => None end.
Definition a_rr (f : Reg -> Reg -> E unit) : ainsn := fun ops imm dfv =>
  match ops with [OReg r1; OReg r2] => Some (f r1 r2) | _ => None end.
(* with default flags *)
Definition a_oof (f : Operand -> Operand -> Z -> E unit) : ainsn := fun ops imm dfv =>
  match ops with [o1; o2] => Some (f o1 o2 dfv) | _ => None end.
Definition a_orf (f : Operand -> Reg -> Z -> E unit) : ainsn := fun ops imm dfv =>
  match ops with [o; OReg r] => Some (f o r dfv) | _ => None end.
Definition a_oif (f : Operand -> Z -> Z -> E unit) : ainsn := fun ops imm dfv =>
  match ops with [o] => Some (f o imm dfv) | _ => None end.

(* operand shapes of the rows *)
Definition v_ : aoper := mkAO AtV (Some KG) false Sv.
Definition rg_ : aoper := mkAO AtReg (Some KG) false Sv.
Definition rm_a : aoper := mkAO AtRm (Some KG) true Sv.
Definition rr_a : aoper := mkAO AtRm (Some KG) false Sv.
Definition mm_a : aoper := mkAO AtRm None true Sv.
Definition vn_ (n : Z) : aoper := mkAO AtV (Some KG) false (Sn n).
Definition rgn_ (n : Z) : aoper := mkAO AtReg (Some KG) false (Sn n).
Definition rmn_a (n : Z) : aoper := mkAO AtRm (Some KG) true (Sn n).
Definition rrn_a (n : Z) : aoper := mkAO AtRm (Some KG) false (Sn n).
Definition cl_a : aoper := mkAO (AtImplied 1) (Some KG) false (Sn 8).
