(* The vector methods execute as the instructions of their names. *)
From Coq Require Import ZArith List Bool String Lia.
From Verif Require Import Base Types Emit EmitFacts SpecX86 SpecAddr SpecIsa SpecInsn IsaRows Wf SpecLeg SpecCond SpecExec SpecVec SpecVecRun VecIsa VecExec VexShapes VexTables.
Import ListNotations.
Open Scope list_scope.
Open Scope Z_scope.

Definition slot_eq (a b : slot) : {a = b} + {a <> b}. Proof. decide equality. Defined.
Definition form_eq (a b : form) : {a = b} + {a <> b}. Proof. repeat decide equality. Defined.
Definition eform_eq (a b : eform) : {a = b} + {a <> b}. Proof. repeat decide equality. Defined.
Definition oform_eq (a b : option form) : {a = b} + {a <> b}. Proof. decide equality. apply form_eq. Defined.
Definition oeform_eq (a b : option eform) : {a = b} + {a <> b}. Proof. decide equality. apply eform_eq. Defined.
Definition row_eq (a b : vrow) : {a = b} + {a <> b}.
Proof. decide equality; [apply oeform_eq|apply oform_eq|repeat decide equality|repeat decide equality]. Defined.

Definition veccls (c : cls) : bool := match c with cX | cY | cZ => true | _ => false end.
Definition dstcls (m : meaning) (c : cls) : bool := match c with cX | cY | cZ => negb (kdest m) | cK => kdest m | _ => false end.
Definition rmcls (m : meaning) (c : cls) : bool := match c with cX | cY | cZ | cO => negb (is_one m) | cA => true | _ => false end.
Definition sigb (m : meaning) (enc : list slot) (sg : list cls) : bool :=
  match enc, sg with
  | [SR; SV; SM], [d; a; b] | [SR; SV; SM; SI], [d; a; b] => dstcls m d && veccls a && rmcls m b
  | [SR; SM], [d; b] | [SR; SM; SI], [d; b] => dstcls m d && rmcls m b
  | [SM; SR], [d; b] => rmcls m d && veccls b && negb (kdest m)
  | _, _ => false end.
Lemma vec_not_k r : vec_reg r -> opmask r = false.
Proof. intros [[[-> _]|[[-> _]|[-> _]]] _] || (unfold opmask; intros [[[H _]|[[H _]|[H _]]] _]; rewrite H; reflexivity). Qed.
Lemma veccls_ok c o : veccls c = true -> arg_ok c o -> exists r, o = OReg r /\ vec_reg r.
Proof. destruct c; try discriminate; intros _; destruct o as [r|a]; cbn; try contradiction; intros H; exists r; tauto. Qed.
Lemma dstcls_ok m c o : dstcls m c = true -> arg_ok c o -> exists r, o = OReg r /\ opmask r = kdest m.
Proof.
  intros D A. destruct (veccls c) eqn:V.
  - destruct (veccls_ok _ _ V A) as (r & -> & Hr). exists r. rewrite (vec_not_k _ Hr). destruct c; try discriminate V; cbn in D; destruct (kdest m); auto; discriminate.
  - destruct c; try discriminate. destruct o as [r|a]; cbn in A; try contradiction. exists r. destruct A as [[K _] _]. unfold opmask. cbn in D. now rewrite K, D.
Qed.
Lemma rmcls_ok m c o : rmcls m c = true -> arg_ok c o -> (forall r, o = OReg r -> ~ gpr r) ->
  match o with OReg r => vector r = true /\ opmask r = false /\ is_one m = false | OMem _ => True end.
Proof.
  intros D A G. destruct o as [r|a]; [|exact I].
  assert (vec_reg r /\ is_one m = false) as [V O].
  { destruct c; try discriminate D; cbn in A; try contradiction; cbn in D; (split; [|now destruct (is_one m)]); try tauto.
    destruct A as [A|[A _]]; [tauto|]. destruct (G r eq_refl A). }
  repeat split; auto. apply (vec_kinds r V). now apply vec_not_k.
Qed.
Lemma sig_shaped m enc sg ops : sigb m enc sg = true -> Forall2 arg_ok sg ops -> (forall r, In (OReg r) ops -> ~ gpr r) -> shaped m enc ops.
Proof.
  intros Sg F G. unfold sigb in Sg.
  assert (forall c o, In o ops -> rmcls m c = true -> arg_ok c o -> match o with OReg r => vector r = true /\ opmask r = false /\ is_one m = false | OMem _ => True end) as RM.
  { intros c o Hi Hc Ha. apply (rmcls_ok m c o Hc Ha). intros r ->. now apply G. }
  assert (forall c o, veccls c = true -> arg_ok c o -> exists r, o = OReg r /\ opmask r = false) as VC.
  { intros c o Hc Ha. destruct (veccls_ok c o Hc Ha) as (r & -> & Hr). exists r. split; auto. now apply vec_not_k. }
  destruct enc as [|[] [|[] [|[] [|[] [|? ?]]]]]; try discriminate Sg; destruct sg as [|c1 [|c2 [|c3 [|? ?]]]]; try discriminate Sg;
    repeat match goal with H : Forall2 _ (_ :: _) _ |- _ => inversion H; clear H; subst | H : Forall2 _ [] _ |- _ => inversion H; clear H; subst end;
    repeat match goal with H : _ && _ = true |- _ => apply andb_prop in H as [H ?] end; cbn [shaped In] in *;
    repeat split; try (eapply dstcls_ok; eassumption); try (eapply VC; eassumption); try (eapply RM; [|eassumption|eassumption]; auto; tauto).
  now destruct (kdest m).
Qed.
Lemma arg_mods c o : arg_ok c o -> 0 <= omask o /\ 0 <= ornd o <= 5.
Proof.
  assert (forall r, mods_ok r -> 0 <= mask_ r /\ 0 <= rounding_ r <= 5) as Q1 by (unfold mods_ok; lia).
  assert (forall r, bare r -> 0 <= mask_ r /\ 0 <= rounding_ r <= 5) as Q2 by (unfold bare; lia).
  assert (forall a, mem_ok a -> 0 <= mask_ (a_op a) /\ 0 <= 0 <= 5) as Q3 by (intros a [] ; lia).
  destruct c, o as [r|a]; cbn; try contradiction; intros H; try (apply Q3; tauto); try (apply Q1; tauto); try (apply Q2; tauto).
  destruct H as [[_ H]|[_ H]]; auto.
Qed.

Theorem implements_executes rc isa e m : apart isa = true -> In (en_row e, m) isa -> good (en_row e) m = true ->
  sigb m (r_enc (en_row e)) (en_sig e) = true -> implements rc e -> executes rc isa e m.
Proof.
  intros Ap Hin G Sg Im s ops imm act env pos its rest u rip x vl Hf Ha Ho Hw Hg Hz Hrc Hrn Hi He.
  apply says_exec; auto.
  - eapply sig_shaped; eassumption.
  - clear - Ha. induction Ha as [|c o sg ops Hc Ha IH]; constructor; auto. exact (arg_mods _ _ Hc).
  - intros Hp. apply Hrn. intros F. apply Hp. now apply pick_zero.
  - apply (Im s ops imm act env pos its rest u); assumption.
Qed.

Definition entry_okb (e : entry) : bool :=
  match vec_named (en_name e) with
  | Some (row, m) => (if row_eq (en_row e) row then true else false) && good row m && sigb m (r_enc row) (en_sig e)
  | None => true end.
Lemma named_in n row m : vec_named n = Some (row, m) -> In (row, m) vec_proc.
Proof.
  unfold vec_named, vec_proc. destruct (find _ _) as [[[n' r'] m']|] eqn:F; [|discriminate]. apply find_some in F as [F _].
  intros H. injection H as <- <-. exact (in_map _ _ _ F).
Qed.
Lemma proc_apart : apart vec_proc = true. Proof. vm_compute. reflexivity. Qed.
Lemma table_check enc : forallb entry_okb (vex_table enc ++ vex_table_norc enc) = true.
Proof. destruct enc; vm_compute; reflexivity. Qed.
Lemma entry_executes rc e row m : entry_okb e = true -> vec_named (en_name e) = Some (row, m) -> implements rc e -> executes rc vec_proc e m.
Proof.
  intros C N Im. unfold entry_okb in C. rewrite N in C. apply andb_prop in C as [C Sg]. apply andb_prop in C as [C G].
  destruct (row_eq (en_row e) row) as [<-|]; [|discriminate]. exact (implements_executes rc vec_proc e m proc_apart (named_in _ _ _ N) G Sg Im).
Qed.
Theorem table_executes enc e row m : In e (vex_table enc) -> vec_named (en_name e) = Some (row, m) -> executes true vec_proc e m.
Proof.
  intros Hin N. pose proof (table_check enc) as C. rewrite forallb_forall in C. eapply entry_executes; [apply C, in_or_app; left; exact Hin|exact N|].
  pose proof (vex_table_ok enc) as F. rewrite Forall_forall in F. auto.
Qed.
Theorem table_norc_executes enc e row m : In e (vex_table_norc enc) -> vec_named (en_name e) = Some (row, m) -> executes false vec_proc e m.
Proof.
  intros Hin N. pose proof (table_check enc) as C. rewrite forallb_forall in C. eapply entry_executes; [apply C, in_or_app; right; exact Hin|exact N|].
  pose proof (vex_table_norc_ok enc) as F. rewrite Forall_forall in F. auto.
Qed.
(* every instruction of the processor is a method *)
Lemma proc_covered_check enc : forallb (fun t => existsb (fun e => String.eqb (fst (fst t)) (en_name e)) (vex_table enc ++ vex_table_norc enc)) vec_isa = true.
Proof. destruct enc; vm_compute; reflexivity. Qed.
Theorem proc_covered enc t : In t vec_isa -> exists e, In e (vex_table enc ++ vex_table_norc enc) /\ en_name e = fst (fst t).
Proof.
  intros H. pose proof (proc_covered_check enc) as C. rewrite forallb_forall in C. specialize (C _ H). cbv beta in C.
  apply existsb_exists in C as (e & He & Q). exists e. split; auto. symmetry. now apply String.eqb_eq.
Qed.
