(* Specification for C35: a sequence of at most 15 registers. *)
From Coq Require Import ZArith List Bool.
From Verif Require Import Base Types Pack.
Import ListNotations.
Open Scope Z_scope.

Definition zlen (l : list Reg) : Z := Z.of_nat (List.length l).
(* the elements [pos, pos + num) *)
Definition slice (l : list Reg) (pos num : Z) : list Reg := firstn (Z.to_nat num) (skipn (Z.to_nat pos) l).
(* None: ERR_BAD_PARAMETER *)
Definition s_step (l : list Reg) (o : pop) : option (list Reg) :=
  match o with
  | PInit src n => if n <=? 15 then Some (slice src 0 n) else None
  | PArgs args => Some (rev args)
  | PAppend r => if zlen l <? 15 then Some (l ++ [r]) else None
  | PSub pos num =>
      if num =? size_m1 then (if pos <=? zlen l then Some (skipn (Z.to_nat pos) l) else None)
      else if pos + num <=? zlen l then Some (slice l pos num) else None
  end.
Fixpoint s_run (l : list Reg) (ops : list pop) : list Reg :=
  match ops with
  | [] => l
  | o :: ops' => s_run (match s_step l o with Some l' => l' | None => l end) ops'
  end.
(* arguments in range: an array argument has n elements (or is refused), a constructor call has at most 12
   registers, and sub() is not called with pos beyond the end and the default num, nor with pos + num >= 2^64 *)
Definition op_ok (l : list Reg) (o : pop) : Prop :=
  match o with
  | PInit src n => 0 <= n < 2 ^ 64 /\ (n <= 15 -> n <= zlen src)
  | PArgs args => (List.length args <= 12)%nat
  | PAppend r => True
  | PSub pos num => 0 <= pos /\ 0 <= num /\ if num =? size_m1 then pos <= zlen l else pos + num < 2 ^ 64
  end.
Fixpoint ops_ok (l : list Reg) (ops : list pop) : Prop :=
  match ops with
  | [] => True
  | o :: ops' => op_ok l o /\ ops_ok (match s_step l o with Some l' => l' | None => l end) ops'
  end.
