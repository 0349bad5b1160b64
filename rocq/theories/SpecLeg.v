(* Specification: legacy-encoded instructions (opcode maps 0, 0F, 0F38, 0F3A; with REX or REX2) in the
   vocabulary of the Intel SDM vol. 2 ("F2 0F 38 F1 /r", "REX.W + 81 /0 id", "r/m16", "xmm2/m128"), and what
   it means for bytes to be such an instruction with given operands.  Independent of xbyak. *)
From Coq Require Import ZArith List Bool String.
From Verif Require Import Base Types Emit EmitFacts SpecX86 SpecAddr SpecIsa SpecInsn Wf.
Import ListNotations.
Open Scope Z_scope.

(* register files *)
Inductive okind := KG | KX | KM | KB.
Definition in_file (k : okind) (r : Reg) : Prop :=
  match k with
  | KG => gpr r
  | KX => kind_ r = XMM /\ bit_ r = 128 /\ 0 <= idx_ r < 16
  | KM => mmx_reg r
  | KB => bnd_reg r
  end.
(* where an operand is encoded: ModRM.reg, ModRM.rm, low bits of the opcode (+rd), or nowhere: the
   register with that number is implied *)
Inductive place := InReg | InRm | InOpc | Implied (n : Z).
(* size of an operand: the operand size of the instruction, n bits, or not checked *)
Inductive osize := Sv | Sn (n : Z) | Sany.
Record oper := mkOper { o_at : place; o_reg : option okind; o_mem : bool; o_size : osize }.

(* How the instruction shows its operand size w *)
Inductive wsize :=
| OsN          (* it has none; REX.W is ignored *)
| Os0 | Os1    (* none; REX.W is 0 / 1 *)
| OsV          (* 16: prefix 66, 64: REX.W *)
| Os8          (* 8 only *)
| OsB          (* 8: this opcode; 16, 32, 64: the next opcode, as OsV *)
| OsY          (* 32, 64: REX.W *)
| Os64.        (* 16: prefix 66; 64 without REX.W *)
(* immediate bytes: ib; ib sign extended to w; iw/id by operand size (id sign extended for w = 64); w bits.
   I_8s and I_z belong to methods whose parameter is a 32-bit number, I_q to those with a 64-bit number. *)
Inductive immk := I_none | I_1 (* the constant 1 *) | I_8 | I_8s | I_z | I_q | I_d (* 4 bytes, zero extended *) | I_w.
Record lrow := mkL {
  l_pp : ppfx; l_map : Z; l_opc : Z;
  l_modrm : bool; l_digit : option Z;
  l_ops : list oper; l_osz : wsize; l_imm : immk }.

Definition w_in (o : wsize) (w : Z) : bool :=
  match o with
  | OsN | Os0 | Os1 => w =? 0
  | Os8 => w =? 8
  | OsV => (w =? 16) || (w =? 32) || (w =? 64)
  | OsB => (w =? 8) || (w =? 16) || (w =? 32) || (w =? 64)
  | OsY => (w =? 32) || (w =? 64)
  | Os64 => (w =? 16) || (w =? 64) end.
Definition w_66 (o : wsize) (w : Z) : bool := match o with OsV | OsB | Os64 => w =? 16 | _ => false end.
Definition w_W (o : wsize) (w : Z) (W : bool) : bool :=
  match o with OsN | Os8 | Os64 => true | Os0 => negb W | Os1 => W | _ => Bool.eqb W (w =? 64) end.
Definition w_opc (o : wsize) (w opc : Z) : Z := match o with OsB => if w =? 8 then opc else opc + 1 | _ => opc end.
Definition pp_is (p q : ppfx) : bool := pp_num p =? pp_num q.

(* everything but the operands *)
Definition lhead (row : lrow) (w : Z) (h : header) (opc : Z) : Prop :=
  h_space h = Legacy /\ w_in (l_osz row) w = true
  /\ h_66 h = pp_is (l_pp row) P66 || w_66 (l_osz row) w
  /\ h_F2 h = pp_is (l_pp row) PF2 /\ h_F3 h = pp_is (l_pp row) PF3 /\ h_lock h = false /\ h_seg h = None
  /\ h_map h = l_map row /\ w_W (l_osz row) w (h_W h) = true
  /\ opc = w_opc (l_osz row) w (l_opc row).

Definition size_is (s : osize) (w b : Z) : Prop := match s with Sv => b = w | Sn n => b = n | Sany => True end.
(* operand op written for o, in an instruction with header h, register field reg, operand rm *)
Definition oper_ok (w : Z) (h : header) (reg : Z) (rm : option rmop) (o : oper) (op : Operand) : Prop :=
  match op with
  | OReg r =>
      (exists k, o_reg o = Some k /\ in_file k r)
      /\ size_is (o_size o) w (bit_ r)
      /\ match o_at o with
         | InReg => reg = regno r
         | InRm => rm = Some (RReg (regno r) (regno r))
         | InOpc => h_B h + h_opc h mod 8 = regno r
         | Implied n => regno r = n
         end
      /\ (bit_ r = 8 -> match o_at o with
                        | Implied n => byte_meaning r = BLow n
                        | _ => byte_meaning r = byte_reg (h_rex h) (regno r) end)
  | OMem a =>
      o_mem o = true /\ o_at o = InRm /\ (bit_ (a_op a) = 0 \/ size_is (o_size o) w (bit_ (a_op a)))
      /\ exists m, rm = Some (RMem m) /\ denotes (a_e a) h m
  end.
(* the operand size is that of some operand: it is never guessed *)
Definition sized (row : lrow) (w : Z) (ops : list Operand) : Prop :=
  w = 0 \/ Exists (fun p => o_size (fst p) = Sv /\ bit_ (ob (snd p)) = w) (combine (l_ops row) ops).

(* the value of little-endian bytes *)
Fixpoint le_val (bs : list Z) : Z := match bs with [] => 0 | b :: bs' => b + 256 * le_val bs' end.
Definition imm_len (k : immk) (w : Z) : Z :=
  match k with I_none | I_1 => 0 | I_8 | I_8s => 1 | I_z | I_q => Z.min (w / 8) 4 | I_d => 4 | I_w => w / 8 end.
(* the parameter as a signed 32-bit number *)
Definition arg32 (imm : Z) : Z := signed 32 (imm mod 2 ^ 32).
Definition imm_ok (k : immk) (w imm : Z) (tail : list Z) : Prop :=
  Z.of_nat (List.length tail) = imm_len k w /\ Forall (fun b => 0 <= b < 256) tail
  /\ match k with
     | I_none => True
     | I_1 => imm = 1
     | I_8 => le_val tail = imm mod 256
     | I_d => le_val tail = imm mod 2 ^ 64
     | I_w => le_val tail = imm mod 2 ^ w
     | I_8s => signed 8 (le_val tail) mod 2 ^ w = arg32 imm mod 2 ^ w
     | I_z => signed (Z.min w 32) (le_val tail) mod 2 ^ w = arg32 imm mod 2 ^ w
     | I_q => signed (Z.min w 32) (le_val tail) mod 2 ^ w = imm mod 2 ^ w
     end.

(* bs ++ rest starts with the instruction of the row with operands ops and immediate imm *)
Definition lsays (row : lrow) (ops : list Operand) (imm : Z) (bs rest : list Z) : Prop :=
  exists w h reg rm opc tail,
    (if l_modrm row
     then (exists r, rm = Some r /\ decode false 1 (bs ++ rest) = Some (h, reg, r, tail ++ rest)) /\ opc = h_opc h
     else dec_header (bs ++ rest) = Some (h, tail ++ rest) /\ rm = None
          /\ opc = (if existsb (fun o => match o_at o with InOpc => true | _ => false end) (l_ops row)
                    then h_opc h - h_opc h mod 8 else h_opc h))
    /\ lhead row w h opc
    /\ (forall d, l_digit row = Some d -> reg = d)
    /\ Forall2 (oper_ok w h reg rm) (l_ops row) ops
    /\ sized row w ops
    /\ imm_ok (l_imm row) w imm tail.

(* ---- methods ---- *)
(* C++ types of the parameters.  tG: Reg, restricted to general registers; tO: Operand; tA: Address; tM: Mmx (so
   Xmm as well), tMm: mm0 .. mm7 only;
   tOx, tAx: a memory operand is not declared as word; tGv: no byte register;
   tOp sizes: a memory operand is declared with one of the sizes (0: without a size); tOl: moreover no
   register 16 .. 31 and no NF or ZU modifier (APX has other encodings for these).  No vector modifiers.
   tE: Operand, restricted to general registers and memory; tEl, tAl: tE and tA with the restriction of tOl;
   tEe: Reg32e with that restriction.  *)
Inductive lcls := tG | tGv | tGl | tR (w : Z) | tRe | tX | tM | tB | tMm | tA | tO | tAx | tOx | tOp (sizes : list Z) | tOl (sizes : list Z)
| tE | tEl | tAl | tEe.
Definition low_regs (o : Operand) : Prop :=
  NF_ (ob o) = false /\ ZU_ (ob o) = false
  /\ match o with OReg r => regno r < 16 | OMem a => regno (e_base (a_e a)) < 16 /\ regno (e_index (a_e a)) < 16 end.
Definition any_reg (r : Reg) : Prop :=
  gpr r \/ vec_reg r \/ mmx_reg r \/ opmask_reg r \/ tmm_reg r \/ bnd_reg r \/ fpu_reg r.
Definition larg_ok (c : lcls) (o : Operand) : Prop :=
  match c, o with
  | tG, OReg r => gpr r
  | tGv, OReg r => gpr r /\ bit_ r <> 8
  | tGl, OReg r => gpr r /\ bit_ r <> 8 /\ low_regs o
  | tR w, OReg r => gpr r /\ bit_ r = w
  | tRe, OReg r => gpr r /\ (bit_ r = 32 \/ bit_ r = 64)
  | tX, OReg r => vec_reg r
  | tM, OReg r => mmx_reg r \/ vec_reg r
  | tMm, OReg r => mmx_reg r
  | tB, OReg r => bnd_reg r
  | tO, OReg r => any_reg r
  | tOx, OReg r => any_reg r
  | tA, OMem a | tO, OMem a => mem_ok a
  | tAx, OMem a | tOx, OMem a => mem_ok a /\ bit_ (a_op a) <> 16
  | tOp _, OReg r => any_reg r
  | tOp l, OMem a => mem_ok a /\ In (bit_ (a_op a)) l
  | tOl _, OReg r => any_reg r /\ low_regs o
  | tOl l, OMem a => mem_ok a /\ In (bit_ (a_op a)) l /\ low_regs o
  | tE, OReg r => gpr r
  | tEe, OReg r => gpr r /\ (bit_ r = 32 \/ bit_ r = 64) /\ low_regs o
  | tE, OMem a => mem_ok a
  | tEl, OReg r => gpr r /\ low_regs o
  | tEl, OMem a | tAl, OMem a => mem_ok a /\ low_regs o
  | _, _ => False
  end.
(* no vector modifiers *)
Definition lbare (o : Operand) : Prop := match o with OReg r => bare r | OMem a => mask_ (a_op a) = 0 /\ a_broadcast a = false end.
Definition is_high (o : Operand) : Prop :=
  match o with OReg r => bit_ r = 8 /\ 4 <= idx_ r < 8 | OMem _ => False end.
(* ah, ch, dh, bh are not combined with something that needs a REX prefix: r8 .. r31 in an address, or a
   64-bit register.  Pairs of byte registers are not restricted. *)
Definition high_ok (ops : list Operand) : Prop :=
  Exists is_high ops -> Forall (fun o => match o with
    | OReg r => bit_ r <> 64
    | OMem a => regno (e_base (a_e a)) < 8 /\ regno (e_index (a_e a)) < 8 end) ops.
(* values of the immediate parameter: uint8_t; any *)
Definition imm_in (k : immk) (imm : Z) : Prop :=
  match k with I_8 => 0 <= imm < 256 | _ => True end.
(* argument lists *)
Definition f_0 (f : E unit) : insn := fun ops imm => match ops with [] => Some f | _ => None end.
Definition f_i (f : Z -> E unit) : insn := fun ops imm => match ops with [] => Some (f imm) | _ => None end.
Definition f_o (f : Operand -> E unit) : insn := fun ops imm => match ops with [o] => Some (f o) | _ => None end.
Definition f_oi (f : Operand -> Z -> E unit) : insn := fun ops imm => match ops with [o] => Some (f o imm) | _ => None end.
Definition f_oo (f : Operand -> Operand -> E unit) : insn := fun ops imm => match ops with [o1; o2] => Some (f o1 o2) | _ => None end.
Definition f_orr (f : Operand -> Reg -> Reg -> E unit) : insn := fun ops imm => match ops with [o; OReg r1; OReg r2] => Some (f o r1 r2) | _ => None end.
Record lentry := mkLE { le_name : string; le_sig : list lcls; le_fun : insn; le_rows : list lrow }.
(* whatever the method emits is the instruction of one of the rows *)
Definition limplements (e : lentry) : Prop :=
  forall s ops imm act env pos its rest u,
    le_fun e ops imm = Some act -> Forall2 larg_ok (le_sig e) ops -> Forall lbare ops -> high_ok ops ->
    Forall (fun row => imm_in (l_imm row) imm) (le_rows e) ->
    emits act env pos its u ->
    Exists (fun row => lsays row ops imm (render s its) rest) (le_rows e).
