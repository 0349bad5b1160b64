(* Tactics for VexTables.v, and guarded methods as restrictions of their unguarded bodies. *)
From Coq Require Import ZArith List Bool String Lia.
From Verif Require Import Base Types Emit Encode SpecX86 SpecAddr SpecIsa SpecInsn Wf EmitFacts MemFacts LegacyFacts VexFacts EncThms IsaFacts VexShapes VexShapes2.
Import ListNotations.
Open Scope Z_scope.

Definition below (F G : insn) : Prop :=
  forall ops imm act, F ops imm = Some act ->
  exists act', G ops imm = Some act' /\ forall env pos its u, emits act env pos its u -> emits act' env pos its u.
Lemma impl_below rc nm sg F G row vl : below F G ->
  implements rc (mkEntry nm sg G row vl) -> implements rc (mkEntry nm sg F row vl).
Proof.
  intros B I s ops imm act env pos its rest u Hf Ha Hm Hw Hr Hi H. cbn [en_fun en_sig en_row en_vl] in *.
  destruct (B _ _ _ Hf) as (act' & Hf' & E). eapply (I s ops imm act'); eauto.
Qed.
Lemma checkCvt1_nil x op env pos its u : emits (checkCvt1 x op) env pos its u -> its = [].
Proof.
  unfold checkCvt1. intros H. apply emits_fn in H.
  match type of H with emits (if ?c then _ else _) _ _ _ _ => destruct c; [einv H|] end. now apply emits_ret in H.
Qed.
Lemma seq_nil {A B} (m : E A) (f : A -> E B) env pos its b :
  (forall i a, emits m env pos i a -> i = []) -> emits (bind m f) env pos its b -> exists a, emits m env pos [] a /\ emits (f a) env pos its b.
Proof.
  intros N H. apply emits_bind in H as (i1 & i2 & a & H1 & H2 & ->). pose proof (N _ _ H1) as ->. exists a. split; auto.
  cbn [items_size fold_right app] in *. now rewrite Z.add_0_r in H2.
Qed.
Lemma kind_bits a b : vec_reg a -> vec_reg b -> (kind_ a =? kind_ b) = true -> bit_ a = bit_ b.
Proof. intros [[[H1 H2]|[[H1 H2]|[H1 H2]]] _] [[[K1 K2]|[[K1 K2]|[K1 K2]]] _]; rewrite H1, K1, H2, K2; intros E; auto; discriminate. Qed.

Ltac chk := vm_compute; reflexivity.
Ltac rcm := first [intros _; vm_compute; reflexivity | let Q := fresh in intros Q; discriminate Q].
Ltac incls := let x := fresh in let Q := fresh in intros x Q; cbn in Q; cbn; tauto.
Ltac ungrd H := apply emits_fn in H; cbv zeta in H;
  match type of H with emits (if ?c then throw _ else _) _ _ _ _ => let Q := fresh "G" in destruct c eqn:Q; [einv H|] end.
Ltac clear_w8 H := repeat match goal with Q : 0 <= ?i < 256 |- _ => rewrite (w8_small i Q) in H; revert Q end; intros.
Ltac ungrds H := cbv beta zeta in H;
  try (apply seq_nil in H; [destruct H as (? & _ & H)|intros; eapply checkCvt1_nil; eassumption]);
  try (unfold opVmov in H); try (unfold opAVX_K_X_XM in H); try ungrd H; clear_w8 H.
Ltac kinds := repeat match goal with
  | V : vec_reg ?a, G : context [isXMM ?a] |- _ => rewrite (proj1 (vec_kinds a V)) in G
  | V : vec_reg ?a, G : context [isYMM ?a] |- _ => rewrite (proj1 (proj2 (vec_kinds a V))) in G
  end.
Ltac bools := repeat match goal with
  | G : negb ?c = false |- _ => apply negb_false_iff in G
  | G : _ && _ = true |- _ => let G' := fresh "G" in apply andb_prop in G as [G G']
  end.
Ltac inbits := cbn [min_of] in *; repeat match goal with V : vec_reg ?a |- _ => let B := fresh "B" in pose proof (vec_bits a V) as B; revert V end; intros; cbn; lia.
(* a guarded method that calls opVex *)
Ltac dred f := intros; unfold isvec in *; match goal with Q : vec_reg _ /\ _ |- _ => destruct Q end;
  unfold reduces; let H := fresh "H" in intros ? ? ? ? H; unfold f in H; ungrds H; split; [exact H|]; kinds; bools; inbits.
Ltac dred2 f := intros; unfold isvec in *; repeat match goal with Q : vec_reg _ /\ _ |- _ => destruct Q end;
  split; [unfold reduces|]; let H := fresh "H" in intros ? ? ? ? H; unfold f in H; ungrds H; try (split; [exact H|]); kinds; bools;
  try (match goal with Q : (kind_ _ =? kind_ _) = true |- _ => apply kind_bits in Q; auto end); inbits.
Ltac dredk f := intros; match goal with
  | Q : emits (f _ _ _) _ _ _ _ |- _ => unfold f in Q; ungrds Q; exact Q
  | Q : emits (f _ _ _ _) _ _ _ _ |- _ => unfold f in Q; ungrds Q; exact Q end.
Ltac belows f := let E := fresh in let H := fresh "H" in intros ops imm act E;
  repeat match goal with
  | Q : context [match ?l with _ => _ end] |- _ => is_var l; destruct l; cbn in Q; try discriminate
  end.
