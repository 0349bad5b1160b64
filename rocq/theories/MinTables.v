(* The sweep over the tables of VexTables.v: EVEX is emitted only for a reason. *)
From Coq Require Import ZArith List Bool String Lia.
From Verif Require Import Base Types Emit Encode SpecX86 SpecAddr SpecIsa SpecInsn IsaRows Wf EmitFacts BitFacts MemFacts LegacyFacts VexFacts EncThms IsaFacts VexShapes VexShapes2 VexTac VexShapes3 EncSel Mnemonic MnemonicAvx VexTables MinFacts.
Import ListNotations.
Open Scope Z_scope.

Ltac head t := match t with ?f _ => head f | _ => t end.
Ltac in_list := solve [repeat (first [left; reflexivity | right])].
(* q = true contradicts or gives a reason *)
Ltac why Q := lazymatch type of Q with
  | false = true => discriminate Q
  | has _ _ = true => vm_compute in Q; first [discriminate Q | right; right; split; [reflexivity|eexists; in_list]]
  | hasEvex (Xmm (getIdx ?r)) = true => left; apply (in_needs (OReg r)); [in_list|apply idx_needs; exact Q]
  | hasEvex (Ymm (getIdx ?r)) = true => left; apply (in_needs (OReg r)); [in_list|apply idx_needs'; exact Q]
  | hasEvex (Tmm _) = true => vm_compute in Q; discriminate Q
  | hasEvex (Xmm _) = true => vm_compute in Q; discriminate Q
  | needs ?o = true => left; apply (in_needs o); [in_list|exact Q]
  | hasEvex (cvtIdx0 (OReg ?x)) = true => left; apply (in_needs (OReg x)); [in_list|apply needs_zmm; [eapply arg_zmm; eassumption|apply idx0_zmm; exact Q]]
  | hasEvex (XmmK (kind_ ?x) ?d) = true => left; apply (in_needs (OReg x)); [in_list|apply needs_zmm; [eapply arg_zmm; eassumption|apply XmmK_zmm in Q; [exact Q|lia]]]
  | hasEvex (setKind ?x _) = true => apply kind_needs in Q; [|match goal with K : arg_ok cX (OReg x) |- _ => exact (proj1 K) end];
      destruct Q as [Q|Q]; [left; apply (in_needs (OReg x)); [in_list|exact Q]|
        right; left; cbn [vl_of width]; destruct (256 <=? bit_ x) eqn:Z6; [reflexivity|apply Z.leb_gt in Z6; lia]]
  | hasEvex ?x = true => left; apply (in_needs (OReg x)); [in_list|apply needs_reg; [eapply arg_zmm; eassumption|exact Q]]
  end.
Ltac sel H := cbv zeta beta in H; lazymatch type of H with
  | emits (fn _ _) _ _ _ _ => apply emits_fn in H; sel H
  | emits (throw _) _ _ _ _ => destruct (emits_throw _ _ _ _ _ H)
  | emits (if ?c then _ else _) _ _ _ _ => let G := fresh "G" in destruct c eqn:G; sel H
  | emits (let '(_, _) := if isNone (ob (OReg (Xmm _))) then _ else _ in _) _ _ _ _ => cbn [ob] in H; rewrite isNone_Xmm in H; sel H
  | emits (let '(_, _) := if isNone (ob ?o) then _ else _ in _) _ _ _ _ => erewrite (arg_some _ o) in H by eassumption; cbn [ob] in H; sel H
  | emits (let '(_, _) := ?c in _) _ _ _ _ => let G := fresh "G" in destruct c eqn:G; sel H
  | emits (bind _ _) _ _ _ _ => let H1 := fresh in let i1 := fresh in let i2 := fresh in let a := fresh in
      apply emits_bind in H as (i1 & i2 & a & H1 & H & ->); sel H1; sel H
  | emits (ret _) _ _ _ _ => let e := fresh in apply emits_ret in H as [-> e]; cbn [app] in *
  | emits (opVex (if ?c then _ else _) _ _ _ _ _) _ _ _ _ => let G := fresh "G" in destruct c eqn:G; sel H
  | emits (opVex _ _ (if ?c then _ else _) _ _ _) _ _ _ _ => let G := fresh "G" in destruct c eqn:G; sel H
  | emits (opVex _ _ _ (_ ||| if ?c then _ else _) _ _) _ _ _ _ => let G := fresh "G" in destruct c eqn:G; sel H
  | emits (opVex _ _ _ _ _ _) _ _ _ _ => idtac
  | emits ?t _ _ _ _ => let f := head t in unfold f in H; sel H
  end.
Ltac fin := match goal with
 | G : oREG (OMem _) = true |- _ => exfalso; eapply mem_not_reg; [|exact G]; eassumption
 | H : emits (opVex _ _ ?o _ _ _) _ _ ?its _ |- starts false (render ?s _) \/ _ =>
   apply (leaf s) in H; destruct H as [H|[St H]]; [left; exact H|right; split; [exact St|]]; try (is_var o; destruct o); let Q := fresh "Q" in
   first [apply uses_reg in H | apply uses_mem in H]; destruct H as [Q|[Q|[Q|Q]]]; unfold ogetIdx in Q; cbn [ovb ob] in Q; why Q end.
Ltac go := intros NV s ops imm act env pos its u Hf Ha H; cbn [en_fun en_sig en_row en_vl] in *;
  first [exfalso; apply NV; reflexivity | clear NV;
  repeat match goal with Q : Forall2 arg_ok _ _ |- _ => inversion Q; clear Q; subst end;
  repeat match goal with Q : arg_ok _ ?o |- _ => is_var o; destruct o; [|exfalso; exact Q] end;
  repeat match goal with Q : arg_ok _ ?o |- _ => is_var o; destruct o; [exfalso; exact Q|] end;
  match type of Hf with ?t = _ => let f := head t in unfold f in Hf end;
  repeat match type of Hf with match ?y with _ => _ end = _ => destruct y; try discriminate Hf end;
  apply some_inj in Hf; subst act; sel H; fin].
Ltac rows := repeat (apply Forall_cons; [first [left; reflexivity | right; solve [go]]|]); apply Forall_nil.
(* the AVX-IFMA instructions *)
Definition ifma : list string := ["vpmadd52luq/xxo"; "vpmadd52huq/xxo"]%string.
Definition skipped (l : list string) (e : entry) : bool := existsb (String.eqb (en_name e)) l.
Notation sweep := (Forall (fun e => skipped ifma e = true \/ minimal e)).

Lemma min0 : sweep tab0. Proof. unfold tab0. rows. Qed.
Lemma min1 : sweep tab1. Proof. unfold tab1. rows. Qed.
Lemma min2 : sweep tab2. Proof. unfold tab2. rows. Qed.
Lemma min3 : sweep tab3. Proof. unfold tab3. rows. Qed.
Lemma min4 : sweep tab4. Proof. unfold tab4. rows. Qed.
Lemma min5 : sweep tab5. Proof. unfold tab5. rows. Qed.
Lemma min6 : sweep tab6. Proof. unfold tab6. rows. Qed.
Lemma min7 : sweep tab7. Proof. unfold tab7. rows. Qed.
Lemma min8 : sweep tab8. Proof. unfold tab8. rows. Qed.
Lemma min9 : sweep tab9. Proof. unfold tab9. rows. Qed.
Lemma min10 : sweep tab10. Proof. unfold tab10. rows. Qed.
Lemma min11 : sweep tab11. Proof. unfold tab11. rows. Qed.
Lemma min12 : sweep tab12. Proof. unfold tab12. rows. Qed.
Lemma min13 : sweep tab13. Proof. unfold tab13. rows. Qed.
Lemma min14 : sweep tab14. Proof. unfold tab14. rows. Qed.
Lemma min15 : sweep tab15. Proof. unfold tab15. rows. Qed.
Lemma min16 : sweep tab16. Proof. unfold tab16. rows. Qed.
Lemma min17 : sweep tab17. Proof. unfold tab17. rows. Qed.
Lemma min18 : sweep tab18. Proof. unfold tab18. rows. Qed.
Lemma min19 : sweep tab19. Proof. unfold tab19. rows. Qed.
Lemma min20 : sweep tab20. Proof. unfold tab20. rows. Qed.
Lemma min21 : sweep tab21. Proof. unfold tab21. rows. Qed.
Lemma min23 : sweep tab23. Proof. unfold tab23. rows. Qed.
Lemma min24 : sweep tab24. Proof. unfold tab24. rows. Qed.
Lemma min25 : sweep tab25. Proof. unfold tab25. rows. Qed.
Lemma min26 : sweep tab26. Proof. unfold tab26. rows. Qed.
Lemma min27 : sweep tab27. Proof. unfold tab27. rows. Qed.
Lemma min28 : sweep tab28. Proof. unfold tab28. rows. Qed.
Lemma min29 : sweep tab29. Proof. unfold tab29. rows. Qed.
Lemma min30 : sweep tab30. Proof. unfold tab30. rows. Qed.
Lemma min31 : sweep tab31. Proof. unfold tab31. rows. Qed.
Lemma min32 : sweep tab32. Proof. unfold tab32. rows. Qed.
Lemma min33 : sweep tab33. Proof. unfold tab33. rows. Qed.
Lemma min34 : sweep tab34. Proof. unfold tab34. rows. Qed.
Lemma min35 : sweep tab35. Proof. unfold tab35. rows. Qed.
Lemma min36 : sweep tab36. Proof. unfold tab36. rows. Qed.
Lemma min37 : sweep tab37. Proof. unfold tab37. rows. Qed.
Lemma min38 : sweep tab38. Proof. unfold tab38. rows. Qed.
Lemma min39 : sweep tab39. Proof. unfold tab39. rows. Qed.
Lemma min40 : sweep tab40. Proof. unfold tab40. rows. Qed.
Lemma min41 : sweep tab41. Proof. unfold tab41. rows. Qed.
Lemma min42 : sweep tab42. Proof. unfold tab42. rows. Qed.
Lemma min43 : sweep tab43. Proof. unfold tab43. rows. Qed.
Lemma min44 : sweep tab44. Proof. unfold tab44. rows. Qed.
Lemma min45 : sweep tab45. Proof. unfold tab45. rows. Qed.
Lemma min46 : sweep tab46. Proof. unfold tab46. rows. Qed.
Lemma min47 : sweep tab47. Proof. unfold tab47. rows. Qed.
Lemma min48 : sweep tab48. Proof. unfold tab48. rows. Qed.
Lemma min49 : sweep tab49. Proof. unfold tab49. rows. Qed.
Lemma min50 : sweep tab50. Proof. unfold tab50. rows. Qed.
Lemma min51 : sweep tab51. Proof. unfold tab51. rows. Qed.
Lemma min52 : sweep tab52. Proof. unfold tab52. rows. Qed.
Lemma min53 : sweep tab53. Proof. unfold tab53. rows. Qed.
Lemma min54 : sweep tab54. Proof. unfold tab54. rows. Qed.
Lemma min55 : sweep tab55. Proof. unfold tab55. rows. Qed.
Lemma min56 : sweep tab56. Proof. unfold tab56. rows. Qed.
Lemma min57 : sweep tab57. Proof. unfold tab57. rows. Qed.
Lemma min58 : sweep tab58. Proof. unfold tab58. rows. Qed.
Lemma min59 : sweep tab59. Proof. unfold tab59. rows. Qed.
Lemma min60 : sweep tab60. Proof. unfold tab60. rows. Qed.
Lemma min61 : sweep tab61. Proof. unfold tab61. rows. Qed.
Lemma min62 : sweep tab62. Proof. unfold tab62. rows. Qed.
Lemma min63 : sweep tab63. Proof. unfold tab63. rows. Qed.
Lemma min64 : sweep tab64. Proof. unfold tab64. rows. Qed.
Lemma min65 : sweep tab65. Proof. unfold tab65. rows. Qed.
Lemma min66 : sweep tab66. Proof. unfold tab66. rows. Qed.
Lemma min68 : sweep tab68. Proof. unfold tab68. rows. Qed.
Lemma min69 : sweep tab69. Proof. unfold tab69. rows. Qed.
Lemma min70 : sweep tab70. Proof. unfold tab70. rows. Qed.
Lemma min71 : sweep tab71. Proof. unfold tab71. rows. Qed.
Lemma min72 : sweep tab72. Proof. unfold tab72. rows. Qed.
(* the methods with an encoding parameter, for which C32_selected_encoding says what is emitted *)
Definition with_parameter : list string := map en_name (tab22 DefaultEncoding ++ tab67 DefaultEncoding).
Lemma weaken l : sweep l -> Forall (fun e => skipped (ifma ++ with_parameter) e = true \/ minimal e) l.
Proof.
  intros H. eapply Forall_impl; [|exact H]. intros e [S|M]; [left|right; exact M]. unfold skipped in *. rewrite existsb_app, S. reflexivity.
Qed.
Lemma param22 enc : Forall (fun e => skipped (ifma ++ with_parameter) e = true \/ minimal e) (tab22 enc).
Proof. unfold tab22. repeat (apply Forall_cons; [left; reflexivity|]). apply Forall_nil. Qed.
Lemma param67 enc : Forall (fun e => skipped (ifma ++ with_parameter) e = true \/ minimal e) (tab67 enc).
Proof. unfold tab67. repeat (apply Forall_cons; [left; reflexivity|]). apply Forall_nil. Qed.
Lemma min_table_ok enc : Forall (fun e => skipped (ifma ++ with_parameter) e = true \/ minimal e) (vex_table enc ++ vex_table_norc enc).
Proof.
  unfold vex_table, vex_table_norc. repeat (apply Forall_app; split); first [apply param22 | apply param67 | apply weaken; first [exact min0 | exact min1 | exact min2 | exact min3 | exact min4 | exact min5 | exact min6 | exact min7 | exact min8 | exact min9 | exact min10 | exact min11 | exact min12 | exact min13 | exact min14 | exact min15 | exact min16 | exact min17 | exact min18 | exact min19 | exact min20 | exact min21 | exact min23 | exact min24 | exact min25 | exact min26 | exact min27 | exact min28 | exact min29 | exact min30 | exact min31 | exact min32 | exact min33 | exact min34 | exact min35 | exact min36 | exact min37 | exact min38 | exact min39 | exact min40 | exact min41 | exact min42 | exact min43 | exact min44 | exact min45 | exact min46 | exact min47 | exact min48 | exact min49 | exact min50 | exact min51 | exact min52 | exact min53 | exact min54 | exact min55 | exact min56 | exact min57 | exact min58 | exact min59 | exact min60 | exact min61 | exact min62 | exact min63 | exact min64 | exact min65 | exact min66 | exact min68 | exact min69 | exact min70 | exact min71 | exact min72]].
Qed.
