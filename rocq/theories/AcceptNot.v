(* Calls that should be accepted (SpecAccept) and are not: for all operands. *)
From Coq Require Import ZArith List Bool String Lia.
From Verif Require Import Base Types Emit EmitFacts MemFacts VexFacts Encode Mnemonic MnemonicAvx SpecX86 SpecAddr SpecIsa SpecInsn Wf VexShapes.
Import ListNotations.
Open Scope list_scope.
Open Scope Z_scope.

Ltac head H := match type of H with emits (if ?c then _ else _) _ _ _ _ => let E := fresh "Q" in destruct c eqn:E; [try solve [einv H]|] end.
Lemma no_ymm x y o type code imm env pos its u : has type T_YMM = false -> emits (opAVX_X_X_XM x (OReg y) o type code imm) env pos its u -> isXMM x = true.
Proof.
  intros T H. unfold opAVX_X_X_XM in H. apply emits_fn in H. rewrite T in H. destruct (if isNone (ob o) then _ else _) as [x2 op]. head H.
  apply negb_false_iff in Q. rewrite orb_false_r in Q. now apply andb_prop in Q as [Q _].
Qed.
Theorem vsm4_lengths x y o env pos its u : emits (i_vsm4key4 x y o) env pos its u \/ emits (i_vsm4rnds4 x y o) env pos its u -> isXMM x = true.
Proof. intros [H|H]; (eapply no_ymm; [|exact H]); reflexivity. Qed.

Lemma no_bcast x y a type code imm env pos its u : has type (T_B32 ||| T_B64) = false -> a_broadcast a = true -> emits (opVex x y (OMem a) type code imm) env pos its u -> False.
Proof.
  intros T B H. unfold opVex in H. apply emits_fn in H. apply emits_bind in H as (i1 & i2 & z & H & _ & _). cbv zeta in H.
  apply emits_bind in H as (i3 & i4 & z' & _ & H & _). apply emits_bind in H as (i5 & i6 & z2 & H & _ & _). rewrite B, T in H. rewrite !orb_true_r in H. cbn [orb andb negb] in H. einv H.
Qed.
Theorem valign_broadcast x y a imm env pos its u : vec_reg x -> vec_reg y -> wf_modrm a ->
  emits (i_valignd x y (OMem a) imm) env pos its u \/ emits (i_valignq x y (OMem a) imm) env pos its u -> a_broadcast a = false.
Proof.
  intros Vx Vy W H. destruct (a_broadcast a) eqn:B; [|reflexivity]. exfalso.
  assert (isNone (ob (OMem a)) = false) as NN by (unfold isNone; cbn; rewrite (wm_kind a W); reflexivity).
  destruct H as [H|H]; unfold i_valignd, i_valignq in H; cbv zeta in H; apply (avx3_inv _ _ _ _ _ _ _ _ _ _ Vx Vy NN) in H as [H _]; eapply no_bcast; [|exact B|exact H| |exact B|exact H]; reflexivity.
Qed.
(* {sae} *)
Lemma no_sae x y r type code imm env pos its u : has type T_MUST_EVEX = true ->
  (has type T_SAE_X || has type T_SAE_Y = false) -> (has type T_SAE_Z = false \/ kind_ r = XMM) -> rounding_ r = 5 -> rounding_ x = 0 -> rounding_ y = 0 ->
  emits (opVex x (Some y) (OReg r) type code imm) env pos its u -> False.
Proof.
  intros T S1 S2 R Rx Ry H. unfold opVex in H. apply emits_fn in H. apply emits_bind in H as (i1 & i2 & z & H & _ & _).
  apply emits_bind in H as (i3 & i4 & z' & H & _ & _). rewrite T in H. cbn [orb] in H. apply emits_bind in H as (i5 & i6 & z2 & H & _ & _).
  unfold evex in H. apply emits_fn in H. head H. cbv zeta in H. apply emits_bind in H as (i7 & i8 & v & Hv & H & _).
  rewrite R, Rx, Ry in Hv. unfold verifyDuplicate in Hv. apply emits_fn in Hv. cbn in Hv. apply emits_ret in Hv as [_ ->]. cbn [Z.lor Z.eqb negb] in H.
  apply emits_bind in H as (i9 & i10 & w & H & _ & _). cbn [Z.eqb negb Pos.eqb] in H. apply emits_bind in H as (i11 & i12 & w' & H & _ & _).
  unfold verifySAE in H. apply emits_fn in H. apply orb_false_iff in S1 as [S1 S3]. rewrite S1, S3 in H. cbn [andb orb] in H. destruct S2 as [S2|S2].
  - rewrite S2 in H. cbn [andb orb] in H. einv H.
  - assert (isYMM r = false /\ isZMM r = false) as [Y Z0] by (unfold isYMM, isZMM, is_; rewrite S2; split; reflexivity).
    rewrite Y, Z0, !andb_false_r in H. cbn in H. einv H.
Qed.
Lemma avx_sae x y r type code imm env pos its u : has type T_MUST_EVEX = true ->
  (has type T_SAE_X || has type T_SAE_Y = false) -> (has type T_SAE_Z = false \/ kind_ r = XMM) -> vec_reg r -> rounding_ r = 5 -> rounding_ x = 0 -> rounding_ y = 0 ->
  emits (opAVX_X_X_XM x (OReg y) (OReg r) type code imm) env pos its u -> False.
Proof.
  intros T S1 S2 V R Rx Ry H. unfold opAVX_X_X_XM in H. apply emits_fn in H. cbn [ob] in H.
  assert (isNone r = false) as NN by (unfold isNone; destruct V as [[[K _]|[[K _]|[K _]]] _]; rewrite K; reflexivity). rewrite NN in H. head H. exact (no_sae _ _ _ _ _ _ _ _ _ _ T S1 S2 R Rx Ry H).
Qed.
Theorem fixupimm_sae x y r imm env pos its u : vec_reg r -> kind_ r = XMM -> rounding_ x = 0 -> rounding_ y = 0 ->
  emits (i_vfixupimmss x y (OReg r) imm) env pos its u \/ emits (i_vfixupimmsd x y (OReg r) imm) env pos its u -> rounding_ r <> 5.
Proof. intros V K Rx Ry H R. destruct H as [H|H]; (eapply avx_sae; [| | | | | | |exact H]); auto; reflexivity. Qed.
Theorem cvtt_sae x r env pos its u : vec_reg r -> rounding_ x = 0 ->
  emits (i_vcvttps2ibs x (OReg r)) env pos its u \/ emits (i_vcvttps2iubs x (OReg r)) env pos its u
  \/ emits (i_vcvttph2ibs x (OReg r)) env pos its u \/ emits (i_vcvttph2iubs x (OReg r)) env pos its u -> rounding_ r <> 5.
Proof.
  intros V Rx H R. destruct H as [H|[H|[H|H]]]; (eapply avx_sae; [| | | | | | |exact H]); auto; try reflexivity; unfold cvtIdx0; repeat match goal with |- context [if ?c then _ else _] => destruct c end; reflexivity.
Qed.
