(* What the pseudo-operations emit: the comparison with the predicate of their name. *)
From Coq Require Import ZArith List Bool String Lia.
From Verif Require Import Base Types Emit Encode Mnemonic MnemonicAvx MnemonicOmit SpecX86 SpecAddr SpecIsa SpecInsn SpecLeg Wf EmitFacts IsaRows VexTables
  LegShapes LegTables SpecAlias AliasTables.
Import ListNotations.
Open Scope Z_scope.

Definition avx_row (t : ftype) : vrow := match t with Fps => r_vcmpps_xxoi | Fpd => r_vcmppd_xxoi | Fss => r_vcmpss_xxoi | Fsd => r_vcmpsd_xxoi end.
Definition mask_row (t : ftype) : vrow := match t with Fps => r_vcmpps_kxoi | Fpd => r_vcmppd_kxoi | Fss => r_vcmpss_kxoi | Fsd => r_vcmpsd_kxoi end.
Definition sse_row (t : ftype) : lrow := xrow (match t with Fps => NP | Fpd => P66 | Fss => PF3 | Fsd => PF2 end) 1 0xC2 OsN I_8.
Definition avx_entry (t : ftype) : entry := mkEntry "" [cX; cX; cO] (rroi (fun x1 x2 op imm => avx_compare_base t (x1, x2, op) imm)) (avx_row t) VlRegs.
Definition mask_entry (t : ftype) : entry := mkEntry "" [cK; cX; cO] (rroi (fun k x op imm => mask_compare_base t (k, x, op) imm)) (mask_row t) VlRegs.
Definition sse_entry (t : ftype) : lentry := mkLE "" [tX; tOx] (roi (fun x op imm => sse_compare_base t (x, op) imm)) [sse_row t].

Lemma rename_impl rc e e' : en_sig e = en_sig e' -> en_fun e = en_fun e' -> en_row e = en_row e' -> en_vl e = en_vl e' -> implements rc e -> implements rc e'.
Proof. destruct e, e'; cbn. intros -> -> -> -> H. exact H. Qed.
Lemma avx_entry_ok t : implements true (avx_entry t).
Proof.
  pose proof tab2_ok as H. rewrite Forall_forall in H.
  destruct t; [eapply (rename_impl true (nth 2 tab2 _))|eapply (rename_impl true (nth 3 tab2 _))|eapply (rename_impl true (nth 4 tab2 _))|eapply (rename_impl true (nth 5 tab2 _))];
    try reflexivity; apply H; apply nth_In; cbn; lia.
  Unshelve. all: exact (avx_entry Fps).
Qed.
Lemma mask_entry_ok t : implements true (mask_entry t).
Proof.
  pose proof tab37_ok as H. rewrite Forall_forall in H.
  destruct t; [eapply (rename_impl true (nth 0 tab37 _))|eapply (rename_impl true (nth 1 tab37 _))|eapply (rename_impl true (nth 2 tab37 _))|eapply (rename_impl true (nth 3 tab37 _))];
    try reflexivity; apply H; apply nth_In; cbn; lia.
  Unshelve. all: exact (avx_entry Fps).
Qed.
Lemma sse_entry_ok t : limplements (sse_entry t).
Proof. destruct t; [exact l_cmpps|exact l_cmppd|exact l_cmpss|exact l_cmpsd_xoi]. Qed.

Lemma pred_range imm p : predicate imm = Some p -> 0 <= imm < 32.
Proof. unfold predicate. destruct ((0 <=? imm) && (imm <? 32)) eqn:Q; [|discriminate]. apply andb_prop in Q. lia. Qed.

Lemma avx_compare_lemma : forall name r sf t f, In (name, (r, sf, t), f) avx_compare ->
  forall s x1 x2 op env pos its rest u,
    let ops := [OReg x1; OReg x2; op] in
    arg_ok cX (OReg x1) -> arg_ok cX (OReg x2) -> arg_ok cO op -> one_mask ops ->
    Forall (fun o => width o <= vl_of VlRegs (avx_row t) ops) ops ->
    emits (f (x1, x2, op)) env pos its u ->
    exists imm, predicate imm = Some (name_pred r sf) /\ says (avx_row t) (vl_of VlRegs (avx_row t) ops) ops imm (render s its) rest.
Proof.
  intros name r sf t f I s x1 x2 op env pos its rest u ops A1 A2 A3 M Wd H.
  pose proof avx_compare_ok as K. rewrite Forall_forall in K. destruct (K _ I) as (_ & imm & P & E).
  exists imm. split; [exact P|]. rewrite E in H. apply pred_range in P.
  eapply (avx_entry_ok t); [reflexivity|repeat (apply Forall2_cons; [assumption|]); apply Forall2_nil|exact M|exact Wd|discriminate|lia|exact H].
Qed.
Lemma mask_compare_lemma : forall name r sf t f, In (name, (r, sf, t), f) mask_compare ->
  forall s k x op env pos its rest u,
    let ops := [OReg k; OReg x; op] in
    arg_ok cK (OReg k) -> arg_ok cX (OReg x) -> arg_ok cO op -> one_mask ops ->
    Forall (fun o => width o <= vl_of VlRegs (mask_row t) ops) ops ->
    emits (f (k, x, op)) env pos its u ->
    exists imm, predicate imm = Some (name_pred r sf) /\ says (mask_row t) (vl_of VlRegs (mask_row t) ops) ops imm (render s its) rest.
Proof.
  intros name r sf t f I s x1 x2 op env pos its rest u ops A1 A2 A3 M Wd H.
  pose proof mask_compare_ok as K. rewrite Forall_forall in K. destruct (K _ I) as (_ & imm & P & E).
  exists imm. split; [exact P|]. rewrite E in H. apply pred_range in P.
  eapply (mask_entry_ok t); [reflexivity|repeat (apply Forall2_cons; [assumption|]); apply Forall2_nil|exact M|exact Wd|discriminate|lia|exact H].
Qed.
Definition pred_eqb (p q : pred) : bool :=
  Bool.eqb (p_gt p) (p_gt q) && Bool.eqb (p_lt p) (p_lt q) && Bool.eqb (p_eq p) (p_eq q) && Bool.eqb (p_un p) (p_un q) && Bool.eqb (p_sig p) (p_sig q).
Lemma pred_eqb_refl p : pred_eqb p p = true.
Proof. destruct p as [[] [] [] [] []]; reflexivity. Qed.
(* the relations of SSE have their predicates among the first eight *)
Lemma sse_first_eight name r sf t f imm : In (name, (r, sf, t), f) sse_compare -> predicate imm = Some (name_pred r sf) -> 0 <= imm < 8.
Proof.
  intros I P. pose proof (pred_range _ _ P) as R.
  assert (C : forallb (fun e => let '(_, (r, sf, _), _) := e in negb (existsb (fun p => pred_eqb p (name_pred r sf)) (skipn 8 predicates))) sse_compare = true) by (vm_compute; reflexivity).
  rewrite forallb_forall in C. specialize (C _ I). cbv beta iota in C. apply negb_true_iff in C.
  destruct (Z_lt_dec imm 8) as [L|L]; [lia|exfalso].
  unfold predicate in P. replace ((0 <=? imm) && (imm <? 32)) with true in P by lia.
  assert (X : existsb (fun p => pred_eqb p (name_pred r sf)) (skipn 8 predicates) = true).
  { apply existsb_exists. exists (name_pred r sf). split; [|apply pred_eqb_refl].
    apply (nth_error_In _ (Z.to_nat (imm - 8))). rewrite <- P. generalize (name_pred r sf). intros _.
    replace (Z.to_nat imm) with (8 + Z.to_nat (imm - 8))%nat by lia. reflexivity. }
  congruence.
Qed.
Lemma sse_compare_lemma : forall name r sf t f, In (name, (r, sf, t), f) sse_compare ->
  forall s x op env pos its rest u,
    larg_ok tX (OReg x) -> larg_ok tOx op -> lbare (OReg x) -> lbare op -> high_ok [OReg x; op] ->
    emits (f (x, op)) env pos its u ->
    exists imm, predicate imm = Some (name_pred r sf) /\ 0 <= imm < 8 /\ lsays (sse_row t) [OReg x; op] imm (render s its) rest.
Proof.
  intros name r sf t f I s x op env pos its rest u A1 A2 B1 B2 Hh H.
  pose proof sse_compare_ok as K. rewrite Forall_forall in K. destruct (K _ I) as (_ & imm & P & E).
  pose proof (sse_first_eight _ _ _ _ _ _ I P) as R.
  exists imm. split; [exact P|]. split; [exact R|]. rewrite E in H.
  assert (X : Exists (fun row => lsays row [OReg x; op] imm (render s its) rest) (le_rows (sse_entry t))).
  { eapply (sse_entry_ok t); [reflexivity|repeat (apply Forall2_cons; [assumption|]); apply Forall2_nil|repeat (apply Forall_cons; [assumption|]); apply Forall_nil|exact Hh| |exact H].
    apply Forall_cons; [|apply Forall_nil]. cbn. lia. }
  inversion X as [? ? Q|? ? Q]; [exact Q|inversion Q].
Qed.
Lemma w32_w32 x : w32 (w32 x) = w32 x.
Proof. unfold w32. now rewrite Z.mod_mod by lia. Qed.
Lemma operator_names_lemma :
  (forall a b, i_and_oo a b = i_and__oo a b) /\ (forall a b, i_or_oo a b = i_or__oo a b) /\ (forall a b, i_xor_oo a b = i_xor__oo a b)
  /\ (forall a n, i_and_oi a n = i_and__oi a n) /\ (forall a n, i_or_oi a n = i_or__oi a n) /\ (forall a n, i_xor_oi a n = i_xor__oi a n)
  /\ (forall a, i_not a = i_not__o a).
Proof.
  repeat match goal with |- _ /\ _ => split end; intros; try reflexivity.
  - unfold i_and_oi, i_and__oi. cbv zeta. now rewrite w32_w32.
  - unfold i_or_oi, i_or__oi. cbv zeta. now rewrite w32_w32.
  - unfold i_xor_oi, i_xor__oi. cbv zeta. now rewrite w32_w32.
Qed.
