(* Property theorems C30: error codes, their texts and the error value of the no-exception build (xbyak.h:182-345). *)
From Coq Require Import ZArith List Bool String Lia.
From Verif Require Import Base Types ErrTables Errors SpecErr ErrProofs.
Import ListNotations.
Open Scope Z_scope.

(* the table of texts is in step with the enumeration *)
Theorem C30_error_text : forall e, exists n t,
  nth_error errNames (Z.to_nat (err_code e)) = Some n /\ ConvertErrorToString (err_code e) = Some t /\ describes n t = true.
Proof. exact err_text. Qed.
Print Assumptions C30_error_text.
Theorem C30_error_codes : (forall e, 1 <= err_code e <= ERR_INTERNAL_) /\ (forall e f, err_code e = err_code f -> e = f) /\ NoDup errTbl.
Proof. exact (conj err_range (conj err_inj texts_distinct)). Qed.
Print Assumptions C30_error_codes.
(* an Error made of any int has a text; a valid code is kept *)
Theorem C30_what : forall err, exists t, what (Error_ctor err) = Some t /\ In t errTbl.
Proof. exact what_total. Qed.
Print Assumptions C30_what.
Theorem C30_error_value : forall e, Error_ctor (err_code e) = err_code e.
Proof. exact ctor_keeps. Qed.
Print Assumptions C30_error_value.
(* GetError() is the first error reported since the last ClearError() *)
Theorem C30_first_error : forall l, fold_left errStep l 0 = first_report l.
Proof. exact first_error. Qed.
Print Assumptions C30_first_error.
Example C30_first_error_ex : fold_left errStep [EReport ERR_BAD_SCALE; EClear; EReport ERR_BAD_ALIGN; EReport ERR_BAD_SCALE] 0 = err_code ERR_BAD_ALIGN.
Proof. reflexivity. Qed.
(* ConvertErrorToString of a negative int reads before the table *)
Theorem C30_negative_text_refuted : ConvertErrorToString (-1) = None.
Proof. reflexivity. Qed.
Print Assumptions C30_negative_text_refuted.
