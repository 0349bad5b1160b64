(* Specification: which calls an instruction method has to accept.  A row of the instruction tables (SpecIsa, SpecLeg) lists
   the operand sizes, register files and memory operands of an instruction; the method of that name has to encode them.
   Independent of xbyak.  Calls are made on a generator in its initial state (xbyak.h:3181-3189), without modifiers unless
   said; the immediate is one number that fits. *)
From Coq Require Import ZArith List Bool String.
From Verif Require Import Base Types Emit EmitFacts SpecX86 SpecAddr SpecIsa SpecInsn SpecLeg SpecMix Wf.
Import ListNotations.
Open Scope list_scope.
Open Scope Z_scope.

Definition env0 : Env := mkEnv false 0 false false EvexEncoding PreAVX10v2Encoding.
(* the call emits an instruction *)
Definition accepted (m : E unit) : Prop := exists i its, emits m env0 0 (i :: its) tt.
Fixpoint prod (l : list (list Operand)) : list (list Operand) :=
  match l with [] => [[]] | a :: l => flat_map (fun r => map (fun x => x :: r) a) (prod l) end.
(* a memory operand declared with size sz: [rn], [rn + 8], [rn - 0x12345], [rn + rk * 4 + 1], [rk * 8 + 16] for n mod 5 *)
Definition other (n : Z) : Z := if n =? 3 then 5 else 3.
Definition address (n : Z) : RegExp :=
  match n mod 5 with
  | 0 => mkRegExp (Reg64 n) noReg 0 0 | 1 => mkRegExp (Reg64 n) noReg 0 8 | 2 => mkRegExp (Reg64 n) noReg 0 (2 ^ 64 - 0x12345)
  | 3 => mkRegExp (Reg64 n) (Reg64 (other n)) 4 1 | _ => mkRegExp noReg (Reg64 (other n)) 8 16 end.
Definition memory (bc : bool) (n sz : Z) : Operand := OMem (address0 sz bc (address n)).

(* ---- legacy encodings ---- *)
Definition widths (o : wsize) : list Z :=
  match o with OsN | Os0 | Os1 => [0] | Os8 => [8] | OsV => [16; 32; 64] | OsB => [8; 16; 32; 64] | OsY => [32; 64] | Os64 => [16; 64] end.
Definition size_at (s : osize) (w : Z) : Z := match s with Sv => w | Sn n => n | Sany => 0 end.
(* registers of a file, number n; byte registers al, cl, dl, bl, r8b .. r15b *)
Definition register (k : okind) (n sz : Z) : list Operand :=
  match k with
  | KG => match sz with
          | 8 => [OReg (Reg8 (if n <? 8 then n mod 4 else n))] | 16 => [OReg (Reg16 n)] | 32 => [OReg (Reg32 n)] | 64 => [OReg (Reg64 n)]
          | 0 => [OReg (Reg32 n); OReg (Reg64 n)] | _ => [] end
  | KX => [OReg (Xmm n)] | KM => [OReg (Mmx (n mod 8))] | KB => [OReg (BoundsReg (n mod 4))] end.
(* an operand as a row has it: a register of its file or memory, of its size *)
Definition as_row (n w : Z) (o : oper) : list Operand :=
  match o_reg o with Some k => register k (match o_at o with Implied m => m | _ => n end) (size_at (o_size o) w) | None => [] end
  ++ if o_mem o then [memory false n (size_at (o_size o) w)] else [].
Fixpoint as_rows (n w : Z) (l : list oper) : list (list Operand) :=
  match l with [] => [] | o :: l => as_row n w o :: as_rows ((n + 1) mod 16) w l end.
Definition imm_for (k : immk) (w : Z) : Z := match k with I_1 | I_8 | I_8s | I_none => 1 | _ => if w =? 8 then 100 else 1000 end.
(* every form of every row, if the parameter types admit it; the operands are registers n, n + 1, .. modulo 16 *)
Definition complete (f : insn) (rows : list lrow) (except : lrow -> Z -> list Operand -> Prop) : Prop :=
  forall row w n ops act, In row rows -> In w (widths (l_osz row)) -> 0 <= n < 16 -> In ops (prod (as_rows n w (l_ops row))) -> ~ except row w ops ->
    f ops (imm_for (l_imm row) w) = Some act -> accepted act.
(* forms of the rows that are not instructions (SDM vol. 2): movzx, movsx of a word to a word register, crc32 of a qword into a
   32-bit register, pinsrw from a 64-bit register, in and out of rax *)
Definition not_listed (name : string) (row : lrow) (w : Z) (ops : list Operand) : bool :=
  let is l := existsb (String.eqb name) l in
  if is ["movzx"; "movsx"]%string then (w =? 16) && ((l_opc row =? 0xB7) || (l_opc row =? 0xBF))
  else if is ["crc32"]%string then (w =? 64) && match ops with o :: _ => bit_ (ob o) =? 32 | [] => false end
  else if is ["pinsrw"]%string then match ops with [_; o] => bit_ (ob o) =? 64 | _ => false end
  else if is ["in_"; "out_"]%string then w =? 64 else false.

(* ---- VEX and EVEX ---- *)
(* the vector lengths of a form; 0: any *)
Definition lengths (c : lclass) : list Z := match c with LIG | L_0 | L_1 => [0] | _ => filter (vl_in c) [128; 256; 512] end.
(* what the operand in ModRM.rm is *)
Inductive source_is := AReg | AMem | ABroadcast | ARounded (n : Z).
Definition has_source (md : source_is) (o : Operand) : Prop :=
  match md, o with AReg, _ => True | AMem, OMem a => a_broadcast a = false | ABroadcast, OMem a => a_broadcast a = true | ARounded k, OReg r => rounding_ r = k | _, _ => False end.
(* vector registers have numbers from b *)
Definition numbered (b : Z) (o : Operand) : Prop := match o with OReg r => vec_reg r -> b <= regno r < b + 4 | _ => True end.
(* the method accepts operands with vector length vl for which C18 is stated *)
Definition takes (e : entry) (md : source_is) (b vl : Z) : Prop := exists ops act,
  en_fun e ops 1 = Some act /\ accepted act /\ Forall2 arg_ok (en_sig e) ops /\ one_mask ops
  /\ Forall (fun o => width o <= vl_of (en_vl e) (en_row e) ops) ops /\ (vl = 0 \/ vl_of (en_vl e) (en_row e) ops = vl)
  /\ Exists (has_source md) ops /\ Forall (numbered b) ops.
(* the operand in ModRM.rm may be memory *)
Definition memory_source (e : entry) : bool := existsb (fun c => match c with cO => true | _ => false end) (en_sig e).
(* what the method e has to take: every length of the VEX form with registers 0 .. 15 and of the EVEX form with registers
   16 .. 31, as register and as memory operand, and as broadcast and with rounding where the EVEX form has these *)
Inductive due : entry -> source_is -> Z -> Z -> Prop :=
| D_vex e f b vl : r_vex (en_row e) = Some f -> In vl (lengths (f_L f)) -> In b [1; 12] -> due e AReg b vl
| D_vex_mem e f b vl : r_vex (en_row e) = Some f -> In vl (lengths (f_L f)) -> In b [1; 12] -> memory_source e = true -> due e AMem b vl
| D_evex e f b vl : r_evex (en_row e) = Some f -> In vl (lengths (f_L (e_form f))) -> In b [17; 28] -> due e AReg b vl
| D_evex_mem e f b vl : r_evex (en_row e) = Some f -> In vl (lengths (f_L (e_form f))) -> In b [17; 28] -> memory_source e = true -> due e AMem b vl
| D_broadcast e f n b vl : r_evex (en_row e) = Some f -> e_bcast f = Some n -> In vl (lengths (f_L (e_form f))) -> In b [17; 28] -> memory_source e = true -> due e ABroadcast b vl
| D_rounding e f k : r_evex (en_row e) = Some f -> e_rc f = Er -> 1 <= k <= 4 -> memory_source e = true -> due e (ARounded k) 17 0
| D_sae e f : r_evex (en_row e) = Some f -> e_rc f = Sae -> memory_source e = true -> due e (ARounded 5) 17 0.
