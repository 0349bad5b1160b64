(* Model: class Pack of xbyak_util.h:786-881.  [PUB] is undefined behaviour (access outside an array). *)
From Coq Require Import ZArith List Bool.
From Verif Require Import Base Types.
Import ListNotations.
Open Scope Z_scope.

Inductive pout (A : Type) := POk (a : A) | PErr (e : xerr) | PUB.
Arguments POk {A} a. Arguments PErr {A} e. Arguments PUB {A}.

(* xbyak_util.h:787-789 *)
Definition maxTblNum : Z := 15.
Record Pack := mkPack { k_tbl : list Reg; k_n : Z }.
(* xbyak_util.h:791; Reg64() is Reg64(0) (xbyak.h:889) *)
Definition pack0 : Pack := mkPack (repeat (Reg64 0) 15) 0.

Fixpoint set_at (l : list Reg) (i : nat) (r : Reg) : list Reg :=
  match l, i with [], _ => [] | _ :: l', O => r :: l' | x :: l', S i' => x :: set_at l' i' r end.
(* dst[i] = src[pos + i] for i <= .. < num; arrays are lists, an index outside is undefined behaviour.
   The fuel exceeds the length of every destination. *)
Fixpoint copy_loop (fuel : nat) (src dst : list Reg) (pos i num : Z) : pout (list Reg) :=
  match fuel with
  | O => PUB
  | S f =>
      if i <? num then
        match nth_error src (Z.to_nat (w64 (pos + i))) with
        | Some r => if i <? maxTblNum then copy_loop f src (set_at dst (Z.to_nat i) r) pos (i + 1) num else PUB
        | None => PUB
        end
      else POk dst
  end.
(* xbyak_util.h:792, 838-848 Pack(tbl, n), init *)
Definition pk_init (p : Pack) (src : list Reg) (n : Z) : pout Pack :=
  if maxTblNum <? n then PErr ERR_BAD_PARAMETER
  else match copy_loop 17 src (k_tbl p) 0 0 n with POk t => POk (mkPack t n) | PErr e => PErr e | PUB => PUB end.
(* xbyak_util.h:793-802 copy constructor and assignment *)
Definition pk_copy (dst rhs : Pack) : pout Pack :=
  match copy_loop 17 (k_tbl rhs) (k_tbl dst) 0 0 (k_n rhs) with POk t => POk (mkPack t (k_n rhs)) | PErr e => PErr e | PUB => PUB end.
(* xbyak_util.h:803-829 the constructors from 1 to 12 registers: the last argument is element 0 *)
Fixpoint fill (t : list Reg) (i : nat) (l : list Reg) : list Reg :=
  match l with [] => t | r :: l' => fill (set_at t i r) (S i) l' end.
Definition pk_args (args : list Reg) : Pack := mkPack (fill (k_tbl pack0) 0 (rev args)) (Z.of_nat (List.length args)).
(* xbyak_util.h:830-837 *)
Definition pk_append (p : Pack) (r : Reg) : pout Pack :=
  if k_n p =? maxTblNum then PErr ERR_BAD_PARAMETER
  else POk (mkPack (set_at (k_tbl p) (Z.to_nat (k_n p)) r) (k_n p + 1)).
(* xbyak_util.h:849-856 *)
Definition pk_index (p : Pack) (n : Z) : pout Reg :=
  if k_n p <=? n then PErr ERR_BAD_PARAMETER
  else match nth_error (k_tbl p) (Z.to_nat n) with Some r => POk r | None => PUB end.
(* xbyak_util.h:861-873; the default argument of num is size_t(-1) *)
Definition size_m1 : Z := 18446744073709551615.
Definition pk_sub (p : Pack) (pos num : Z) : pout Pack :=
  let num := if num =? size_m1 then w64 (k_n p - pos) else num in
  if k_n p <? w64 (pos + num) then PErr ERR_BAD_PARAMETER
  else match copy_loop 17 (k_tbl p) (k_tbl pack0) pos 0 num with POk t => POk (mkPack t num) | PErr e => PErr e | PUB => PUB end.

(* a variable of type Pack under a sequence of operations *)
Inductive pop :=
| PInit (src : list Reg) (n : Z) | PArgs (args : list Reg) | PAppend (r : Reg) | PSub (pos num : Z).
Definition pk_step (p : Pack) (o : pop) : pout Pack :=
  match o with
  | PInit src n => pk_init p src n
  | PArgs args => pk_copy p (pk_args args)
  | PAppend r => pk_append p r
  | PSub pos num => match pk_sub p pos num with POk q => pk_copy p q | e => e end
  end.
(* a caught exception leaves the variable as it was *)
Fixpoint pk_run (p : Pack) (ops : list pop) : pout Pack :=
  match ops with
  | [] => POk p
  | o :: ops' => match pk_step p o with POk q => pk_run q ops' | PErr _ => pk_run p ops' | PUB => PUB end
  end.
