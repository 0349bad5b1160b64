(* Specification of error codes and texts (C30). *)
From Coq Require Import ZArith List Bool String Ascii.
From Verif Require Import Base Types ErrTables Errors.
Import ListNotations.
Open Scope Z_scope.

(* letters and digits, in upper case *)
Definition keep (c : ascii) : option ascii :=
  let n := nat_of_ascii c in
  if (48 <=? n)%nat && (n <=? 57)%nat then Some c
  else if (65 <=? n)%nat && (n <=? 90)%nat then Some c
  else if (97 <=? n)%nat && (n <=? 122)%nat then Some (ascii_of_nat (n - 32))
  else None.
Fixpoint norm (s : string) : string :=
  match s with EmptyString => EmptyString | String c s => match keep c with Some d => String d (norm s) | None => norm s end end.
(* the identifier without ERR_ *)
Definition bare_name (s : string) : string := match s with String _ (String _ (String _ (String _ t))) => t | _ => s end.
(* identifiers whose text is worded differently *)
Definition reworded : list (string * string) := [
  ("ERR_CANT_USE_64BIT_DISP", "can't use 64bit disp(use (void*))");
  ("ERR_ONLY_T_NEAR_IS_SUPPORTED_IN_AUTO_GROW", "T_SHORT is not supported in AutoGrow");
  ("ERR_BAD_LABEL_STR", "bad label string"); ("ERR_MUNMAP", "err munmap");
  ("ERR_SAE_IS_INVALID", "sae(suppress all exceptions) is invalid"); ("ERR_ER_IS_INVALID", "er(embedded rounding) is invalid");
  ("ERR_INVALID_REG_IDX", "invalid reg index"); ("ERR_CANT_USE_ABCDH", "can't use [abcd]h with rex");
  ("ERR_INTERNAL", "internal error")]%string.
Definition describes (name text : string) : bool :=
  String.eqb (norm (bare_name name)) (norm text)
  || existsb (fun p => String.eqb (fst p) name && String.eqb (snd p) text) reworded.

(* the value after the calls, oldest first: an error that was reported (nonzero) or a call of ClearError *)
Inductive errCall := EReport (e : xerr) | EClear.
Definition errStep (ref : Z) (c : errCall) : Z := match c with EReport e => SetError ref (err_code e) | EClear => ClearError end.
(* the first report after the last clear *)
Fixpoint since_clear (l : list errCall) : list errCall :=
  match l with
  | [] => []
  | c :: t => if existsb (fun x => match x with EClear => true | _ => false end) t then since_clear t
              else match c with EClear => t | _ => c :: t end
  end.
Definition first_report (l : list errCall) : Z := match since_clear l with EReport e :: _ => err_code e | _ => 0 end.
