(* Specification of the perf map written by Profiler over a history of calls (C45). *)
From Coq Require Import ZArith List Bool String.
From Verif Require Import Base CpuTopo.
Import ListNotations.
Open Scope Z_scope.
Open Scope list_scope.

(* calls: init(mode), where fopen succeeds or not; setNameSuffix, setStartAddr, close, set(name, start, size), set(name, end) *)
Inductive profCall := PInit (mode : Z) (opens : bool) | PSuffix (s : string) | PStart (a : Z) | PClose
  | PSet (name : string) (start size : Z) | PSetEnd (name : string) (end_ : Z).
(* looking backwards: the last init or close decides whether calls are recorded *)
Fixpoint recording (past : list profCall) : bool :=
  match past with
  | [] => false
  | PInit mode opens :: _ => (mode =? 1) && opens
  | PClose :: _ => false
  | _ :: p => recording p
  end.
Fixpoint suffix_now (past : list profCall) : string :=
  match past with [] => ""%string | PSuffix s :: _ => s | _ :: p => suffix_now p end.
(* the end of the previous function *)
Fixpoint start_now (past : list profCall) : Z :=
  match past with [] => 0 | PStart a :: _ => a | PSetEnd _ e :: _ => e | _ :: p => start_now p end.
(* a perf map line; perf ignores names of less than three characters *)
Definition padded (s : string) : string :=
  match String.length s with 0%nat => s ++ "___" | 1%nat => s ++ "__" | 2%nat => s ++ "_" | _ => s end%string.
Definition line (past : list profCall) (c : profCall) : list (Z * Z * string) :=
  if recording past then
    match c with
    | PSet name start size => [(start, size, padded (name ++ suffix_now past)%string)]
    | PSetEnd name e => [(start_now past, (e - start_now past) mod 2 ^ 64, padded (name ++ suffix_now past)%string)]
    | _ => []
    end
  else [].
Fixpoint map_lines (past todo : list profCall) : list (Z * Z * string) :=
  match todo with [] => [] | c :: l => line past c ++ map_lines (c :: past) l end.

Definition profCall_step (p : Profiler) (c : profCall) : Profiler :=
  match c with
  | PInit m o => profInit p m o
  | PSuffix s => profSuffix p s
  | PStart a => profStart p a
  | PClose => profClose p
  | PSet n a s => profSet p n a s
  | PSetEnd n e => profSetEnd p n e
  end.
