(* Error codes and texts (C30). *)
From Coq Require Import ZArith List Bool String Lia.
From Verif Require Import Base Types ErrTables Errors SpecErr.
Import ListNotations.
Open Scope Z_scope.

Definition err_ok (e : xerr) : bool :=
  match nth_error errNames (Z.to_nat (err_code e)), ConvertErrorToString (err_code e) with
  | Some n, Some t => describes n t
  | _, _ => false
  end.
Lemma err_text e : exists n t, nth_error errNames (Z.to_nat (err_code e)) = Some n /\ ConvertErrorToString (err_code e) = Some t /\ describes n t = true.
Proof.
  assert (K : err_ok e = true) by (destruct e; vm_compute; reflexivity). unfold err_ok in K.
  destruct (nth_error errNames _) as [n|]; [|discriminate]. destruct (ConvertErrorToString _) as [t|]; [|discriminate]. exists n, t. auto.
Qed.
Lemma err_range e : 1 <= err_code e <= ERR_INTERNAL_.
Proof. destruct e; vm_compute; split; congruence. Qed.
Lemma err_inj e f : err_code e = err_code f -> e = f.
Proof.
  intros H. assert (K : nth_error all_errs (Z.to_nat (err_code e - 1)) = Some e) by (destruct e; vm_compute; reflexivity).
  assert (L : nth_error all_errs (Z.to_nat (err_code f - 1)) = Some f) by (destruct f; vm_compute; reflexivity).
  rewrite H, L in K. congruence.
Qed.
Fixpoint distinct (l : list string) : bool := match l with [] => true | x :: l => negb (existsb (String.eqb x) l) && distinct l end.
Lemma distinct_ok l : distinct l = true -> NoDup l.
Proof.
  induction l as [|x l IH]; cbn [distinct]; intros H; constructor.
  - intros N. apply andb_prop in H. destruct H as [H _]. apply negb_true_iff in H.
    assert (C : existsb (String.eqb x) l = true) by (apply existsb_exists; exists x; split; [exact N|apply String.eqb_refl]). congruence.
  - apply IH. apply andb_prop in H. tauto.
Qed.
Lemma texts_distinct : NoDup errTbl.
Proof. apply distinct_ok. vm_compute. reflexivity. Qed.
Lemma what_total err : exists t, what (Error_ctor err) = Some t /\ In t errTbl.
Proof.
  assert (R : 0 <= Error_ctor err <= 54).
  { unfold Error_ctor. change ERR_INTERNAL_ with 54. destruct (Z.ltb_spec err 0); cbn [orb]; [lia|]. destruct (Z.ltb_spec 54 err); lia. }
  unfold what, ConvertErrorToString. change ERR_INTERNAL_ with 54. destruct (Z.leb_spec (Error_ctor err) 54); [|lia].
  destruct (Z.ltb_spec (Error_ctor err) 0); [lia|].
  destruct (nth_error errTbl (Z.to_nat (Error_ctor err))) as [t|] eqn:N.
  - exists t. split; [reflexivity|]. eapply nth_error_In. exact N.
  - apply nth_error_None in N. change (List.length errTbl) with 55%nat in N. lia.
Qed.
Lemma ctor_keeps e : Error_ctor (err_code e) = err_code e.
Proof. destruct e; reflexivity. Qed.
Definition clears (l : list errCall) : bool := existsb (fun x => match x with EClear => true | _ => false end) l.
Lemma code_nz e : err_code e <> 0. Proof. pose proof (err_range e). lia. Qed.
Lemma no_clear l : forall r, clears l = false -> r <> 0 -> fold_left errStep l r = r.
Proof.
  induction l as [|[e|] l IH]; intros r C R; cbn [fold_left]; [reflexivity| |discriminate].
  cbn in C. cbn [errStep]. unfold SetError. apply Z.eqb_neq in R. rewrite R. apply IH; [exact C|]. apply Z.eqb_neq. exact R.
Qed.
Lemma clear_eq l : forall r r', clears l = true -> fold_left errStep l r = fold_left errStep l r'.
Proof.
  induction l as [|[e|] l IH]; intros r r' C; [discriminate| |reflexivity]. cbn in C. cbn [fold_left]. apply IH. exact C.
Qed.
Lemma first_error l : fold_left errStep l 0 = first_report l.
Proof.
  unfold first_report. induction l as [|c l IH]; [reflexivity|]. cbn [fold_left since_clear]. fold (clears l). destruct (clears l) eqn:C.
  - rewrite (clear_eq l _ 0 C). exact IH.
  - destruct c as [e|]; cbn [errStep].
    + rewrite no_clear; [unfold SetError; reflexivity|exact C|unfold SetError; cbn; apply code_nz].
    + unfold ClearError. destruct l as [|[e|] l]; [reflexivity| |discriminate].
      cbn in C. cbn [fold_left errStep]. rewrite no_clear; [unfold SetError; reflexivity|exact C|unfold SetError; cbn; apply code_nz].
Qed.
