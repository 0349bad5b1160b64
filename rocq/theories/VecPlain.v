(* The vector methods emit at most 15 bytes and, without label operands, no label fields. *)
From Coq Require Import ZArith List Bool String Lia.
From Verif Require Import Base Types Emit EmitFacts Encode Mnemonic MnemonicAvx SpecX86 SpecIsa SpecInsn Wf SpecLeg SpecExec SpecLen LenFacts PlainFacts ProgInsn SpecVec VecIsa VexTables.
Import ListNotations.
Open Scope list_scope.
Open Scope Z_scope.

Lemma NP_vex a b c d e f : NP (vex a b c d e f). Proof. unfold vex. np. Qed.
Lemma NP_verifyDuplicate a b c e : NP (verifyDuplicate a b c e). Proof. unfold verifyDuplicate. np. Qed.
Lemma NP_verifySAE r b t : NP (verifySAE r b t). Proof. unfold verifySAE. np. Qed.
Lemma NP_verifyER r b t : NP (verifyER r b t). Proof. unfold verifyER. np. Qed.
#[global] Hint Resolve NP_verifyDuplicate NP_verifySAE NP_verifyER : np.
Lemma NP_evex r b p t c i bc aaa vl h : NP (evex r b p t c i bc aaa vl h). Proof. unfold evex. np. Qed.
#[global] Hint Resolve NP_vex NP_evex : np.
Lemma NP_opVex r p o t c i : omodrm o -> NP (opVex r p o t c i).
Proof.
  intros H. unfold opVex. apply NP_fn. apply NP_bind; [|intros; np]. destruct o as [b|a]; [np|]. cbv zeta. apply NP_bind; [np|intros _].
  apply NP_bind; [np|intros d8]. apply NP_opAddr. destruct (has t T_VSIB), (d8 =? 0), (i =? NONE); exact H.
Qed.
#[global] Hint Resolve NP_opVex : np.
Lemma NP_opAVX_X_X_XM x o1 o2 t c i : omodrm o1 -> omodrm o2 -> NP (opAVX_X_X_XM x o1 o2 t c i).
Proof. intros. unfold opAVX_X_X_XM. apply NP_fn. destruct (isNone (ob o2)); cbn [fst snd]; np. Qed.
Lemma NP_opAVX_K_X_XM k x o t c i : omodrm o -> NP (opAVX_K_X_XM k x o t c i). Proof. intros. unfold opAVX_K_X_XM. np. Qed.
#[global] Hint Resolve NP_opAVX_X_X_XM NP_opAVX_K_X_XM : np.
Lemma NP_opAVX_X_XM_IMM x o t c i : omodrm o -> NP (opAVX_X_XM_IMM x o t c i).
Proof. intros. unfold opAVX_X_XM_IMM. np. Qed.
#[global] Hint Resolve NP_opAVX_X_XM_IMM : np.

Definition plain_entry (e : entry) : Prop := forall ops imm act, en_fun e ops imm = Some act -> Forall omodrm ops -> within 15 act /\ NP act.
Definition plain_named (e : entry) : Prop := vec_named (en_name e) <> None -> plain_entry e.
Ltac ops_of H := match type of H with
  | match ?o with _ => _ end = Some _ => destruct o; try discriminate H; ops_of H
  | Some _ = Some _ => injection H as <-
  end.
Ltac inv_mod := repeat match goal with H : Forall _ (_ :: _) |- _ => inversion H; clear H; subst end.
Ltac pl := intros _ ops imm act H M; cbn [en_fun rro roo rroi rror rra arr rar rrr ro roi or_ ori ra ar rr rri a1 r1] in H;
  unfold rro, roo, rroi, rror, rra, arr, rar, rrr, ro, roi, or_, ori, ra, ar, rr, rri, a1, r1 in H; ops_of H; inv_mod;
  (split; [len_of|np_of]).
Ltac pln := first [solve [let N := fresh in intros N; exfalso; apply N; vm_compute; reflexivity] | solve [pl]].
Ltac tab := repeat (apply Forall_cons; [pln|]); apply Forall_nil.
Lemma tab0_plain : Forall plain_named tab0. Proof. unfold tab0. tab. Qed.
Lemma tab1_plain : Forall plain_named tab1. Proof. unfold tab1. tab. Qed.
Lemma tab2_plain : Forall plain_named tab2. Proof. unfold tab2. tab. Qed.
Lemma tab3_plain : Forall plain_named tab3. Proof. unfold tab3. tab. Qed.
Lemma tab4_plain : Forall plain_named tab4. Proof. unfold tab4. tab. Qed.
Lemma tab5_plain : Forall plain_named tab5. Proof. unfold tab5. tab. Qed.
Lemma tab6_plain : Forall plain_named tab6. Proof. unfold tab6. tab. Qed.
Lemma tab7_plain : Forall plain_named tab7. Proof. unfold tab7. tab. Qed.
Lemma tab8_plain : Forall plain_named tab8. Proof. unfold tab8. tab. Qed.
Lemma tab9_plain : Forall plain_named tab9. Proof. unfold tab9. tab. Qed.
Lemma tab10_plain : Forall plain_named tab10. Proof. unfold tab10. tab. Qed.
Lemma tab11_plain : Forall plain_named tab11. Proof. unfold tab11. tab. Qed.
Lemma tab12_plain : Forall plain_named tab12. Proof. unfold tab12. tab. Qed.
Lemma tab13_plain : Forall plain_named tab13. Proof. unfold tab13. tab. Qed.
Lemma tab14_plain : Forall plain_named tab14. Proof. unfold tab14. tab. Qed.
Lemma tab15_plain : Forall plain_named tab15. Proof. unfold tab15. tab. Qed.
Lemma tab16_plain : Forall plain_named tab16. Proof. unfold tab16. tab. Qed.
Lemma tab17_plain : Forall plain_named tab17. Proof. unfold tab17. tab. Qed.
Lemma tab18_plain : Forall plain_named tab18. Proof. unfold tab18. tab. Qed.
Lemma tab19_plain : Forall plain_named tab19. Proof. unfold tab19. tab. Qed.
Lemma tab20_plain : Forall plain_named tab20. Proof. unfold tab20. tab. Qed.
Lemma tab21_plain : Forall plain_named tab21. Proof. unfold tab21. tab. Qed.
Lemma tab22_plain enc : Forall plain_named (tab22 enc). Proof. unfold tab22. tab. Qed.
Lemma tab23_plain : Forall plain_named tab23. Proof. unfold tab23. tab. Qed.
Lemma tab24_plain : Forall plain_named tab24. Proof. unfold tab24. tab. Qed.
Lemma tab25_plain : Forall plain_named tab25. Proof. unfold tab25. tab. Qed.
Lemma tab26_plain : Forall plain_named tab26. Proof. unfold tab26. tab. Qed.
Lemma tab27_plain : Forall plain_named tab27. Proof. unfold tab27. tab. Qed.
Lemma tab28_plain : Forall plain_named tab28. Proof. unfold tab28. tab. Qed.
Lemma tab29_plain : Forall plain_named tab29. Proof. unfold tab29. tab. Qed.
Lemma tab30_plain : Forall plain_named tab30. Proof. unfold tab30. tab. Qed.
Lemma tab31_plain : Forall plain_named tab31. Proof. unfold tab31. tab. Qed.
Lemma tab32_plain : Forall plain_named tab32. Proof. unfold tab32. tab. Qed.
Lemma tab33_plain : Forall plain_named tab33. Proof. unfold tab33. tab. Qed.
Lemma tab34_plain : Forall plain_named tab34. Proof. unfold tab34. tab. Qed.
Lemma tab35_plain : Forall plain_named tab35. Proof. unfold tab35. tab. Qed.
Lemma tab36_plain : Forall plain_named tab36. Proof. unfold tab36. tab. Qed.
Lemma tab37_plain : Forall plain_named tab37. Proof. unfold tab37. tab. Qed.
Lemma tab38_plain : Forall plain_named tab38. Proof. unfold tab38. tab. Qed.
Lemma tab39_plain : Forall plain_named tab39. Proof. unfold tab39. tab. Qed.
Lemma tab40_plain : Forall plain_named tab40. Proof. unfold tab40. tab. Qed.
Lemma tab41_plain : Forall plain_named tab41. Proof. unfold tab41. tab. Qed.
Lemma tab42_plain : Forall plain_named tab42. Proof. unfold tab42. tab. Qed.
Lemma tab43_plain : Forall plain_named tab43. Proof. unfold tab43. tab. Qed.
Lemma tab44_plain : Forall plain_named tab44. Proof. unfold tab44. tab. Qed.
Lemma tab45_plain : Forall plain_named tab45. Proof. unfold tab45. tab. Qed.
Lemma tab46_plain : Forall plain_named tab46. Proof. unfold tab46. tab. Qed.
Lemma tab47_plain : Forall plain_named tab47. Proof. unfold tab47. tab. Qed.
Lemma tab48_plain : Forall plain_named tab48. Proof. unfold tab48. tab. Qed.
Lemma tab49_plain : Forall plain_named tab49. Proof. unfold tab49. tab. Qed.
Lemma tab50_plain : Forall plain_named tab50. Proof. unfold tab50. tab. Qed.
Lemma tab51_plain : Forall plain_named tab51. Proof. unfold tab51. tab. Qed.
Lemma tab52_plain : Forall plain_named tab52. Proof. unfold tab52. tab. Qed.
Lemma tab53_plain : Forall plain_named tab53. Proof. unfold tab53. tab. Qed.
Lemma tab54_plain : Forall plain_named tab54. Proof. unfold tab54. tab. Qed.
Lemma tab55_plain : Forall plain_named tab55. Proof. unfold tab55. tab. Qed.
Lemma tab56_plain : Forall plain_named tab56. Proof. unfold tab56. tab. Qed.
Lemma tab57_plain : Forall plain_named tab57. Proof. unfold tab57. tab. Qed.
Lemma tab58_plain : Forall plain_named tab58. Proof. unfold tab58. tab. Qed.
Lemma tab59_plain : Forall plain_named tab59. Proof. unfold tab59. tab. Qed.
Lemma tab60_plain : Forall plain_named tab60. Proof. unfold tab60. tab. Qed.
Lemma tab61_plain : Forall plain_named tab61. Proof. unfold tab61. tab. Qed.
Lemma tab62_plain : Forall plain_named tab62. Proof. unfold tab62. tab. Qed.
Lemma tab63_plain : Forall plain_named tab63. Proof. unfold tab63. tab. Qed.
Lemma tab64_plain : Forall plain_named tab64. Proof. unfold tab64. tab. Qed.
Lemma tab65_plain : Forall plain_named tab65. Proof. unfold tab65. tab. Qed.
Lemma tab66_plain : Forall plain_named tab66. Proof. unfold tab66. tab. Qed.
Lemma tab67_plain enc : Forall plain_named (tab67 enc). Proof. unfold tab67. tab. Qed.
Lemma tab68_plain : Forall plain_named tab68. Proof. unfold tab68. tab. Qed.
Lemma tab69_plain : Forall plain_named tab69. Proof. unfold tab69. tab. Qed.
Lemma tab70_plain : Forall plain_named tab70. Proof. unfold tab70. tab. Qed.
Lemma tab71_plain : Forall plain_named tab71. Proof. unfold tab71. tab. Qed.
Lemma tab72_plain : Forall plain_named tab72. Proof. unfold tab72. tab. Qed.
Theorem table_plain enc e : In e (vex_table enc ++ vex_table_norc enc) -> vec_named (en_name e) <> None -> plain_entry e.
Proof.
  intros H. assert (Forall plain_named (vex_table enc ++ vex_table_norc enc)) as F.
  { unfold vex_table, vex_table_norc. rewrite ?Forall_app. intuition auto using tab0_plain, tab1_plain, tab2_plain, tab3_plain, tab4_plain, tab5_plain, tab6_plain, tab7_plain, tab8_plain, tab9_plain, tab10_plain, tab11_plain, tab12_plain, tab13_plain, tab14_plain, tab15_plain, tab16_plain, tab17_plain, tab18_plain, tab19_plain, tab20_plain, tab21_plain, tab22_plain, tab23_plain, tab24_plain, tab25_plain, tab26_plain, tab27_plain, tab28_plain, tab29_plain, tab30_plain, tab31_plain, tab32_plain, tab33_plain, tab34_plain, tab35_plain, tab36_plain, tab37_plain, tab38_plain, tab39_plain, tab40_plain, tab41_plain, tab42_plain, tab43_plain, tab44_plain, tab45_plain, tab46_plain, tab47_plain, tab48_plain, tab49_plain, tab50_plain, tab51_plain, tab52_plain, tab53_plain, tab54_plain, tab55_plain, tab56_plain, tab57_plain, tab58_plain, tab59_plain, tab60_plain, tab61_plain, tab62_plain, tab63_plain, tab64_plain, tab65_plain, tab66_plain, tab67_plain, tab68_plain, tab69_plain, tab70_plain, tab71_plain, tab72_plain. }
  rewrite Forall_forall in F. exact (F e H).
Qed.
