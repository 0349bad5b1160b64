(* Specification: which calls an instruction method has to reject.  The C++ types of the parameters (xbyak_mnemonic.h) admit
   operands that the instruction does not have, since Operand and Reg stand for all registers, Mmx for xmm, ymm, zmm as well,
   Xmm for ymm and zmm, and memory operands carry any declared size; the method has to raise an error for these.  Independent of
   xbyak. *)
From Coq Require Import ZArith List Bool String.
From Verif Require Import Base Types Emit EmitFacts SpecX86 SpecAddr SpecIsa SpecInsn SpecLeg SpecMix Wf SpecAccept.
Import ListNotations.
Open Scope list_scope.
Open Scope Z_scope.

(* C++ types of parameters (xbyak.h:551-898): Operand, Reg, Reg32e, Reg8, Reg64, Xmm, Mmx, Address, BoundsReg *)
Inductive ptype := pO | pR | pE | pR8 | pR64 | pX | pM | pA | pB.
(* operands of every kind and size: general registers 0, 1, 2, other registers n, memory operands with registers as in SpecAccept.address n *)
Definition general (n : Z) : list Operand := [OReg (Reg8 n); OReg (Reg16 n); OReg (Reg32 n); OReg (Reg64 n)].
Definition generals (n : Z) : list Operand := general 0 ++ general 1 ++ general 2 ++ if n <? 3 then [] else general n.
Definition vectors (n : Z) : list Operand := [OReg (Xmm n); OReg (Ymm n); OReg (Zmm n)].
Definition registers (n : Z) : list Operand :=
  generals n ++ vectors n ++ [OReg (Mmx (n mod 8)); OReg (Opmask (n mod 8)); OReg (Tmm (n mod 8)); OReg (BoundsReg (n mod 4)); OReg (Fpu (n mod 8))].
Definition memories (n : Z) : list Operand := map (memory false n) [0; 8; 16; 32; 64; 80; 128; 256; 512].
Definition operands (n : Z) (c : ptype) : list Operand :=
  let g w := filter (fun o => bit_ (ob o) =? w) (generals n) in
  match c with
  | pO => registers n ++ memories n | pR => registers n | pE => g 32 ++ g 64 | pR8 => g 8 | pR64 => g 64
  | pX => vectors n | pM => OReg (Mmx (n mod 8)) :: vectors n | pA => memories n | pB => [OReg (BoundsReg (n mod 4))] end.

(* the instruction has these operands: those of some row, of one operand size; memory may be declared without a size *)
Definition of_file (k : okind) (r : Reg) : bool :=
  match k with KG => kind_ r =? REG | KX => kind_ r =? XMM | KM => kind_ r =? MMX | KB => kind_ r =? BNDREG end.
Definition is_operand (w : Z) (o : oper) (op : Operand) : bool :=
  let s b := match o_size o with Sv => b =? w | Sn n => b =? n | Sany => true end in
  match op with
  | OReg r => match o_reg o with Some k => of_file k r && s (bit_ r) && match o_at o with Implied m => idx_ r =? m | _ => true end | None => false end
  | OMem a => o_mem o && ((bit_ (a_op a) =? 0) || s (bit_ (a_op a))) end.
Fixpoint are_operands (w : Z) (l : list oper) (ops : list Operand) : bool :=
  match l, ops with [], [] => true | a :: l, b :: ops => if is_operand w a b then are_operands w l ops else false | _, _ => false end.
Definition legal (rows : list lrow) (ops : list Operand) : bool := existsb (fun row => existsb (fun w => are_operands w (l_ops row) ops) (widths (l_osz row))) rows.

(* a set of operand lists, as products of sets of kinds *)
Inductive kind := G (w : Z) | Cl | V (w : Z) | Mm | Kk | Tt | Bb | Ff | Me (w : Z).
Definition is_kind (o : Operand) (k : kind) : bool :=
  match k, o with
  | G w, OReg r => if kind_ r =? REG then bit_ r =? w else false | Cl, OReg r => if kind_ r =? REG then (bit_ r =? 8) && (idx_ r =? 1) else false
  | V w, OReg r => if (kind_ r =? XMM) || (kind_ r =? YMM) || (kind_ r =? ZMM) then bit_ r =? w else false
  | Mm, OReg r => kind_ r =? MMX | Kk, OReg r => kind_ r =? OPMASK | Tt, OReg r => kind_ r =? TMM | Bb, OReg r => kind_ r =? BNDREG | Ff, OReg r => kind_ r =? FPU
  | Me w, OMem a => bit_ (a_op a) =? w
  | _, _ => false end.
Fixpoint matches (p : list (list kind)) (ops : list Operand) : bool :=
  match p, ops with [], [] => true | k :: p, o :: ops => if existsb (is_kind o) k then matches p ops else false | _, _ => false end.
