(* Model: class StackFrame of xbyak_util.h:883-1017.  [win] selects XBYAK64_WIN.  The result None is undefined behaviour
   (signed overflow, or a table index out of range).  p_ and t_ are given as lists of registers; Pack is modelled in Pack.v. *)
From Coq Require Import ZArith List Bool.
From Verif Require Import Base Types Emit Encode Mnemonic.
Import ListNotations.
Open Scope Z_scope.

Record SF := mkSF { f_save : Z; f_P : Z; f_p : list Z; f_t : list Z }.
(* xbyak_util.h:884-893 *)
Definition noSaveNum (win : bool) : Z := if win then 6 else 8.
Definition rcxPos (win : bool) : Z := if win then 0 else 3.
Definition rdxPos (win : bool) : Z := if win then 1 else 2.
Definition maxRegNum : Z := 14.
(* xbyak_util.h:783-784 *)
Definition UseRCX : Z := 64.
Definition UseRDX : Z := 128.
(* xbyak_util.h:987-999 *)
Definition orderTbl (win : bool) : list Z :=
  (if win then [1; 2; 8; 9; 10; 11; 7; 6] else [7; 6; 2; 1; 8; 9; 10; 11]) ++ [3; 5; 12; 13; 14; 15].
(* xbyak_util.h:1000-1014: register and the new pos; None if the table index is out of range *)
Definition getRegIdx (win useRcx useRdx : bool) (pos : nat) : option (Z * nat) :=
  let tbl := orderTbl win in
  match nth_error tbl pos with
  | None => None
  | Some r =>
      let pos := S pos in
      if useRcx && (r =? 1) then Some (10, pos) else
      match (if useRcx && (r =? 10) then option_map (fun x => (x, S pos)) (nth_error tbl pos) else Some (r, pos)) with
      | None => None
      | Some (r, pos) =>
          if useRdx && (r =? 2) then Some (11, pos)
          else if useRdx && (r =? 11) then option_map (fun x => (x, S pos)) (nth_error tbl pos)
          else Some (r, pos)
      end
  end.
(* the loops of 953-959 *)
Fixpoint getRegs (win useRcx useRdx : bool) (n : nat) (pos : nat) : option (list Z * nat) :=
  match n with
  | O => Some ([], pos)
  | S n' =>
      match getRegIdx win useRcx useRdx pos with
      | None => None
      | Some (r, pos) => match getRegs win useRcx useRdx n' pos with None => None | Some (l, pos) => Some (r :: l, pos) end
      end
  end.
Fixpoint pushes (l : list Z) : E unit := match l with [] => ret tt | r :: l' => push_op (OReg (Reg64 r)) ;;; pushes l' end.
Fixpoint pops (l : list Z) : E unit := match l with [] => ret tt | r :: l' => pop_op (OReg (Reg64 r)) ;;; pops l' end.
(* the registers to save: tbl[0..saveNum_-1] of getOrderTbl() + noSaveNum *)
Definition saved (win : bool) (saveNum : Z) : list Z := firstn (Z.to_nat saveNum) (skipn (Z.to_nat (noSaveNum win)) (orderTbl win)).
(* int arithmetic of 949-951: the value of P_ before the multiplication, None on signed overflow *)
Definition INT_MAX : Z := 2147483647.
Definition frameSize (stackSizeByte saveNum : Z) : option Z :=
  if INT_MAX <? stackSizeByte + 7 then None else
  let P := Z.quot (stackSizeByte + 7) 8 in
  let P := if (0 <? P) && ((P &&& 1) =? (saveNum &&& 1)) then P + 1 else P in
  if INT_MAX <? P * 8 then None else Some (P * 8).
(* xbyak_util.h:927-964; arguments are int *)
Definition sf_new (win : bool) (pNum tNum stackSizeByte : Z) : E (option SF) := fn (Some (mkSF 0 0 [] []))
  (let tNum_ := tNum &&& Z.lnot (UseRCX ||| UseRDX) in
   let useRcx := has tNum UseRCX in
   let useRdx := has tNum UseRDX in
   if (pNum <? 0) || (4 <? pNum) then throw ERR_BAD_PNUM else
   let allRegNum := pNum + tNum_ + b2z useRcx + b2z useRdx in
   if (tNum_ <? 0) || (maxRegNum <? allRegNum) then throw ERR_BAD_TNUM else
   let saveNum := Z.max 0 (allRegNum - noSaveNum win) in
   pushes (saved win saveNum) ;;;
   match frameSize stackSizeByte saveNum with
   | None => ret None
   | Some P =>
       (when 0 <? P do i_sub_oi (OReg (Reg64 4)) P) ;;;
       match getRegs win useRcx useRdx (Z.to_nat pNum) 0 with
       | None => ret None
       | Some (p, pos) =>
           match getRegs win useRcx useRdx (Z.to_nat tNum_) pos with
           | None => ret None
           | Some (t, _) =>
               (when useRcx && (rcxPos win <? pNum) do mov_oo (OReg (Reg64 10)) (OReg (Reg64 1))) ;;;
               (when useRdx && (rdxPos win <? pNum) do mov_oo (OReg (Reg64 11)) (OReg (Reg64 2))) ;;;
               ret (Some (mkSF saveNum P p t))
           end
       end
   end).
(* xbyak_util.h:969-980 *)
Definition sf_close (win : bool) (f : SF) (callRet : bool) : E unit :=
  (when 0 <? f_P f do i_add_oi (OReg (Reg64 4)) (f_P f)) ;;;
  pops (rev (saved win (f_save f))) ;;;
  when callRet do i_ret 0.
