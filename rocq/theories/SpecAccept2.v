(* Specification: which calls have to be accepted, continued: the extended forms of Intel APX (rows of SpecApx), and the 32-bit
   build (the rows of the 64-bit tables, without 64-bit general registers).  Independent of xbyak.  As SpecAccept. *)
From Coq Require Import ZArith List Bool String.
From Verif Require Import Base Types Emit EmitFacts SpecX86 SpecAddr SpecIsa SpecInsn SpecLeg SpecMix SpecApx Wf SpecAccept.
Import ListNotations.
Open Scope list_scope.
Open Scope Z_scope.

(* ---- APX ---- *)
(* an operand as a row has it, with the registers r16 .. r31 *)
Definition as_arow (n w : Z) (o : aoper) : list Operand :=
  let k := match ao_at o with AtImplied m => m | _ => n end in let sz := size_at (ao_size o) w in
  match ao_reg o with Some KG => if sz =? 8 then [OReg (Reg8 k)] else register KG k sz | Some f => register f k sz | None => [] end
  ++ if ao_mem o then [memory false n sz] else [].
Fixpoint as_arows (n w : Z) (l : list aoper) : list (list Operand) :=
  match l with [] => [] | o :: l => as_arow n w o :: as_arows (16 + (n + 1) mod 16) w l end.
(* with {nf} or {zu} on the first register, where the row has these *)
Fixpoint on_first (f : Reg -> Reg) (ops : list Operand) : list (list Operand) :=
  match ops with OReg r :: l => [OReg (f r) :: l] | o :: l => map (cons o) (on_first f l) | [] => [] end.
Definition nf_zu (row : arow) (ops : list Operand) : list (list Operand) :=
  (match a_nf row with NfOpt => on_first setNF ops | _ => [] end) ++ match a_ndk row with NdZU => on_first setZU ops | _ => [] end.
Definition acomplete (e : aentry) : Prop :=
  forall row w n ops act, In row (ae_rows e) -> In w (widths (a_osz row)) -> 16 <= n < 32 ->
    (In ops (prod (as_arows n w (a_ops row))) \/ exists ops', In ops' (prod (as_arows n w (a_ops row))) /\ In ops (nf_zu row ops')) ->
    ae_fun e ops (imm_for (a_immk row) w) 0 = Some act -> accepted act.

(* ---- the 32-bit build ---- *)
Definition address32 (n : Z) : RegExp :=
  match n mod 5 with
  | 0 => mkRegExp (Reg32 n) noReg 0 0 | 1 => mkRegExp (Reg32 n) noReg 0 8 | 2 => mkRegExp (Reg32 n) noReg 0 (2 ^ 64 - 0x12345)
  | 3 => mkRegExp (Reg32 n) (Reg32 (other n)) 4 1 | _ => mkRegExp noReg (Reg32 (other n)) 8 16 end.
Definition memory32 (bc : bool) (n sz : Z) : Operand := OMem (address0 sz bc (address32 n)).
Definition exists32 (o : Operand) : bool := match o with OReg r => negb ((kind_ r =? REG) && (bit_ r =? 64)) | OMem _ => true end.
Definition as_row32 (n w : Z) (o : oper) : list Operand :=
  match o_reg o with Some k => filter exists32 (register k (match o_at o with Implied m => m | _ => n end) (size_at (o_size o) w)) | None => [] end
  ++ if o_mem o then [memory32 false n (size_at (o_size o) w)] else [].
Fixpoint as_rows32 (n w : Z) (l : list oper) : list (list Operand) :=
  match l with [] => [] | o :: l => as_row32 n w o :: as_rows32 ((n + 1) mod 8) w l end.
Definition complete32 (f : insn) (rows : list lrow) (except : lrow -> Z -> list Operand -> Prop) : Prop :=
  forall row w n ops act, In row rows -> In w (widths (l_osz row)) -> w <> 64 -> 0 <= n < 8 -> In ops (prod (as_rows32 n w (l_ops row))) -> ~ except row w ops ->
    f ops (imm_for (l_imm row) w) = Some act -> accepted act.
(* vector methods: as due and takes, with the registers 0 .. 7 and without rounding *)
Definition takes32 (e : entry) (md : source_is) (vl : Z) : Prop := exists ops act,
  en_fun e ops 1 = Some act /\ accepted act /\ forallb exists32 ops = true
  /\ Forall (fun o => width o <= vl_of (en_vl e) (en_row e) ops) ops /\ (vl = 0 \/ vl_of (en_vl e) (en_row e) ops = vl)
  /\ Exists (has_source md) ops /\ Forall (numbered 1) ops.
Inductive due32 : entry -> source_is -> Z -> Prop :=
| D32_vex e f vl : r_vex (en_row e) = Some f -> In vl (lengths (f_L f)) -> due32 e AReg vl
| D32_evex e f vl : r_evex (en_row e) = Some f -> In vl (lengths (f_L (e_form f))) -> due32 e AReg vl
| D32_vex_mem e f vl : r_vex (en_row e) = Some f -> In vl (lengths (f_L f)) -> memory_source e = true -> due32 e AMem vl
| D32_evex_mem e f vl : r_evex (en_row e) = Some f -> In vl (lengths (f_L (e_form f))) -> memory_source e = true -> due32 e AMem vl
| D32_broadcast e f n vl : r_evex (en_row e) = Some f -> e_bcast f = Some n -> In vl (lengths (f_L (e_form f))) -> memory_source e = true -> due32 e ABroadcast vl.
