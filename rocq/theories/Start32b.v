(* The 32-bit build: what the encoder helpers emit begins alike in both modes, helper by helper. *)
From Coq Require Import ZArith List Bool Lia.
From Verif Require Import Base Types Emit EmitFacts MemFacts LegacyFacts SpecX86 Encode Encode32 Spec32 SpecB32 SpecStart32 Sim32 Sim32b Start32.
Import ListNotations.
Open Scope Z_scope.

Definition lb (r : Reg) : Prop := low r /\ nomods r.
Lemma okr_lb r : okr r -> lb r. Proof. intros (H & K & _). now split. Qed.
Lemma oko_ob o : oko o -> okr (ob o).
Proof. destruct o as [r|a]; intros H; [exact H|]. destruct H as ((K & R & _) & B & _). split; [apply R|]. split; [exact B|now apply isREGb_64]. Qed.
Lemma low_regOf i k b : 0 <= i < 8 -> low (regOf i k b false).
Proof. intros H. unfold low, regOf. cbn [idx_]. rewrite Z.lor_0_r, Z.mod_small; lia. Qed.
Lemma bare_regOf i k b e : nomods (regOf i k b e). Proof. repeat split. Qed.
Lemma lb_regOf i k b : 0 <= i < 8 -> lb (regOf i k b false). Proof. intros H. split; [now apply low_regOf|apply bare_regOf]. Qed.
Lemma okr_regOf i k b : 0 <= i < 8 -> has k REG && has (b mod 16384) 64 = false -> okr (regOf i k b false).
Proof. intros H K. split; [now apply low_regOf|]. split; [apply bare_regOf|]. exact K. Qed.
Lemma okr_kb r k b : lb r -> has k REG && has b 64 = false -> okr (set_kindbit r k b).
Proof. intros ((L1 & L2) & B) K. split; [now split|]. split; [exact B|]. exact K. Qed.
Lemma okr_setKind r k : okr r -> okr (setKind r k).
Proof. intros H. unfold setKind. destruct (has k (XMM ||| YMM ||| ZMM ||| TMM)); [|exact H]. apply okr_kb; [now apply okr_lb|]. destruct (k =? XMM), (k =? YMM), (k =? ZMM); apply andb_false_r. Qed.
Lemma lb_setKind r k : lb r -> lb (setKind r k).
Proof. intros ((L1 & L2) & B). unfold setKind. destruct (has k _); (split; [now split|exact B]). Qed.
Lemma low_idx r : low r -> 0 <= getIdx r < 8. Proof. intros H. rewrite low_getIdx by exact H. exact H. Qed.
Lemma okr_idx r : okr r -> 0 <= getIdx r < 8. Proof. intros H. apply low_idx, H. Qed.
Lemma okr_noR : okr noReg. Proof. exact okr_noReg. Qed.
Lemma okr_cvtIdx0 o : okr (cvtIdx0 o). Proof. unfold cvtIdx0. destruct (isZMM _); [|destruct (isYMM _)]; (apply okr_regOf; [lia|reflexivity]). Qed.
Lemma oka_set a : oka a -> forall n, oka (set_immSize a n). Proof. intros (H & B) n. split; [now apply addr32_imm|exact B]. Qed.

Definition opcok (c : Z) : bool := negb (pfx (w8 c)) && plain (w8 c).
Lemma SL_op c : opcok c = true -> SL (db c).
Proof. intros H. apply andb_true_iff in H as [H1 H2]. apply negb_true_iff in H1. now apply SL_db. Qed.
Lemma codeok_plain t c : opcok c = true -> opcok (c ||| 1) = true -> codeok t c = true.
Proof. intros H1 H2. apply andb_true_iff in H1 as [H1 H3], H2 as [H2 H4]. unfold codeok. apply orb_true_iff. right. cbv zeta. now rewrite H1, H2, H3, H4. Qed.
Lemma Nn_True {A} (m : E A) P (Q : A -> Prop) : Nn m P -> (forall x, P x -> Q x) -> Nn m Q.
Proof. intros H K s env pos its a J. destruct (H s _ _ _ _ J). auto. Qed.

Lemma SL_rr {B} o1 o2 t (f : bool -> E B) : oko o1 -> oko o2 -> SL (f false) -> SL (bind (rex o1 o2 t) f).
Proof. intros H1 H2 F. eapply SL_pre; [now apply Pp_rex|]. intros x ->. exact F. Qed.
Lemma SL_opRR r1 r2 t c : okr r1 -> okr r2 -> codeok t c = true -> SL (opRR r1 r2 t c).
Proof. intros H1 H2 C. apply T_fn. destruct (_ && _ && _ && _); [apply T_throw|]. destruct (_ && _); [apply T_throw|]. apply SL_rr; auto. apply SL_head. now apply SL_writeCode. Qed.
Lemma nfzu_r r : okr r -> hasRex2NFZU (OReg r) = false. Proof. intros H. exact (oko_nfzu (OReg r) H). Qed.
Lemma Nn_opROO d o1 o2 t c im sc : okr d -> oko o1 -> oko o2 -> has t T_MUST_EVEX = false -> isREG d = false -> Nn (opROO d o1 o2 t c im sc) (fun x => x = false).
Proof. intros D H1 H2 M R. apply T_fn. rewrite M, R, (nfzu_r d D), !oko_nfzu by assumption. cbn [negb orb andb]. now apply Nn_ret. Qed.
Lemma isREG_noReg : isREG noReg = false. Proof. reflexivity. Qed.
Lemma SL_opMR a r t c t2 c2 : oka a -> okr r -> codeok t c = true -> has t2 T_MUST_EVEX = false -> SL (opMR a r t c t2 c2).
Proof.
  intros A R C M. apply T_fn. cbv zeta. eapply SL_N.
  - instantiate (1 := fun x => x = false). destruct (negb (t2 =? 0)); [apply Nn_opROO; auto using okr_noR|now apply Nn_ret].
  - intros x ->. cbv iota. destruct (is64bitDisp a); [apply T_throw|]. destruct (_ && _ && _ && _); [apply T_throw|]. apply SL_rr; auto. apply SL_head. now apply SL_writeCode.
Qed.
Lemma SL_opLoadSeg a r t c : oka a -> okr r -> has t T_0F || opcok c = true -> SL (opLoadSeg a r t c).
Proof.
  intros A R C. apply T_fn. destruct (isBit r 8); [apply T_throw|]. destruct (is64bitDisp a); [apply T_throw|]. apply SL_rr; auto.
  destruct (has t T_0F); [apply SL_head, SL_op; reflexivity|]. apply SL_ret, SL_head, SL_op, C.
Qed.
Lemma oka_clone a : oka a -> oka (cloneNoOptimize a).
Proof. intros ((K & R & M & L & X) & B). split; [exact (conj K (conj R (conj M (conj L X))))|exact B]. Qed.
Lemma SL_opMIB a r t c : oka a -> okr r -> codeok t c = true -> SL (opMIB a r t c).
Proof. intros A R C. apply T_fn. destruct (negb _); [apply T_throw|]. apply SL_opMR; auto using oka_clone. Qed.
Lemma Nn_setBit r b : okr r -> (b =? 64) = false -> Nn (setBit r b) okr.
Proof.
  intros H B. apply T_fn. destruct (negb _) eqn:Q; [apply T_throw|]. destruct (isBit r b); [now apply Nn_ret|].
  assert (B6 : has b 64 = false). { apply negb_false_iff in Q. rewrite B in Q. repeat (apply orb_true_iff in Q as [Q|Q]); try (apply Z.eqb_eq in Q; subst b; reflexivity); discriminate Q. }
  destruct (is_ r _ 0); [apply Nn_ret, okr_kb; [now apply okr_lb|rewrite B6; apply andb_false_r]|]. destruct (is_ r _ 0); [|apply T_throw]. cbv zeta. destruct (_ && _ && _); [apply T_throw|].
  destruct H as (L & (B1 & B2 & B3) & R). pose proof (low_idx r L) as I0.
  assert (F : forall k, Nn (ret (if 128 <=? b then mkReg (getIdx r) k b (zero_ r) (mask_ r) (rounding_ r) (NF_ r) (ZU_ r) else mkReg (getIdx r) k b (zero_ r) 0 0 (NF_ r) (ZU_ r))) okr).
  { intros k. apply Nn_ret. destruct (128 <=? b); (split; [exact I0|]); (split; [repeat split; assumption|]); (unfold isREGb, is_; cbn [bit_]; rewrite B6; apply andb_false_r). }
  clear Q. destruct (b =? 8); [destruct (4 <=? _); [apply T_throw|apply F]|]. destruct (_ || _ || _); [destruct (16 <=? _); [apply T_throw|apply F]|].
  destruct (b =? 128); [apply F|]. destruct (b =? 256); [apply F|]. destruct (b =? 512); apply F.
Qed.
Lemma Nn_cvt32 r : okr r -> Nn (cvt32 r) okr.
Proof. intros H. eapply Nn_bind; [apply Nn_setBit; auto|]. intros x X. apply Nn_ret, okr_regOf; [now apply okr_idx|reflexivity]. Qed.
Lemma Nn_cvt16 r : okr r -> Nn (cvt16 r) okr.
Proof. intros H. eapply Nn_bind; [apply Nn_setBit; auto|]. intros x X. apply Nn_ret, okr_regOf; [now apply okr_idx|reflexivity]. Qed.
Lemma has_mod z : has z 64 = false -> has (z mod 16384) 64 = false.
Proof.
  unfold has. intros W. apply negb_false_iff, Z.eqb_eq in W. apply negb_false_iff, Z.eqb_eq. change 16384 with (2 ^ 14). rewrite <- Z.land_ones by lia.
  now rewrite <- Z.land_assoc, (Z.land_comm (Z.ones 14)), Z.land_assoc, W.
Qed.
Definition noq (o : Operand) : Prop := match o with OMem a => isBit (a_op a) 64 = false | OReg _ => True end.
Lemma SL_opRext o b ext t c dr im : oko o -> noq o -> 0 <= ext < 8 -> codeok t c = true -> codeok (t ||| T_ALLOW_ABCDH) c = true -> SL (opRext o b ext t c dr im None).
Proof.
  intros H Q X C C'. apply T_fn. cbv zeta. rewrite oko_nfzu by exact H. rewrite orb_false_r, andb_false_r. apply SL_ret. cbv iota.
  destruct o as [q|a].
  - destruct (isREGb q b) eqn:R; [|apply T_throw]. set (ob' := if dr && (ogetBit (OReg q) =? 64) then 32 else ogetBit (OReg q)).
    assert (K : isREG q = true). { unfold isREGb, isREG, is_ in *. apply andb_true_iff in R as [-> _]. reflexivity. }
    assert (W : has (bit_ q) 64 = false). { destruct H as (_ & _ & H). unfold isREGb, isREG, is_ in *. cbn in K. rewrite andb_true_r in K. cbn in H. rewrite K in H. exact H. }
    assert (ob' = bit_ q) as ->. { unfold ob'. change (ogetBit (OReg q)) with (bit_ q). destruct (Z.eqb_spec (bit_ q) 64) as [E0|]; [rewrite E0 in W; discriminate W|]. now rewrite andb_false_r. }
    eapply SL_N. + instantiate (1 := okr). apply Nn_setBit; [exact H|]. destruct (Z.eqb_spec (bit_ q) 64) as [E0|]; [rewrite E0 in W; discriminate W|reflexivity].
    + intros x Hx. apply SL_opRR; auto. apply okr_regOf; [exact X|]. rewrite (has_mod _ W). apply andb_false_r.
  - apply SL_opMR; auto. apply okr_regOf; [exact X|]. cbn in Q. match goal with |- _ && has (?y mod _) 64 = _ => set (z := y) end.
    assert (W : has z 64 = false). { unfold z. change (ogetBit (OMem a)) with (bit_ (a_op a)). destruct (_ && _); [reflexivity|exact Q]. }
    rewrite (has_mod _ W). apply andb_false_r.
Qed.
Lemma SL_opRO r o t c b im : okr r -> oko o -> codeok t c = true -> SL (opRO r o t c b im).
Proof. intros R H C. apply T_fn. destruct o as [q|a]; [destruct b; [now apply SL_opRR|apply T_throw]|]. apply SL_opMR; auto. Qed.
Lemma SL_opSSE r o t c v i : okr r -> oko o -> codeok t c = true -> SL (opSSE r o t c v i).
Proof. intros R H C. apply T_fn. destruct (match v with Some _ => _ | None => _ end); [apply T_throw|]. destruct (_ || _); [apply T_throw|]. apply SL_head. now apply SL_opRO. Qed.
Lemma SL_opMMX_IMM r i c ext : okr r -> 0 <= ext < 8 -> SL (opMMX_IMM r i c ext).
Proof. intros R X. apply T_fn. destruct (negb _); [apply T_throw|]. cbv zeta. apply SL_head, SL_opRR; auto. - apply okr_regOf; [exact X|reflexivity]. - destruct (isXMM r); reflexivity. Qed.
Lemma SL_opMMX r o c t pref i : okr r -> oko o -> codeok t c = true -> codeok (t ||| pref) c = true -> SL (opMMX r o c t pref i).
Proof. intros R H C C'. apply SL_opSSE; auto. now destruct (isXMM r). Qed.
Lemma SL_opMovXMM o1 o2 t c : oko o1 -> oko o2 -> codeok t c = true -> codeok t (c ||| 1) = true -> SL (opMovXMM o1 o2 t c).
Proof. intros H1 H2 C C'. apply T_fn. destruct (_ || _); [apply T_throw|]. destruct o1 as [r|a], o2 as [r2|a2]; try apply T_throw; (destruct (isXMM _); [|apply T_throw]; now apply SL_opMR). Qed.
Lemma SL_opExt o r c i b : oko o -> okr r -> SL (opExt o r c i b).
Proof.
  intros H R. apply T_fn. destruct (_ || _); [apply T_throw|]. destruct (_ && _).
  - eapply SL_pre; [apply Pp_when; reflexivity|intros _ _]. apply SL_head, SL_opRR; auto using oko_ob.
  - apply SL_opSSE; auto.
Qed.
Lemma SL_opSetCC o ext : oko o -> noq o -> SL (opSetCC o ext).
Proof.
  intros H Q. unfold opSetCC. eapply SL_N; [apply Nn_opROO; auto using okr_noR; exact okr_noR|]. intros x ->. apply SL_opRext; auto. lia.
Qed.
Lemma Nn_vms o : Nn (verifyMemHasSize o) (fun _ => True).
Proof. apply T_fn. destruct (_ && _); [apply T_throw|now apply Nn_ret]. Qed.
Lemma Nn_immBit o i : Nn (getImmBit o i) (fun _ => True).
Proof. apply T_fn. eapply Nn_bind; [apply Nn_vms|intros _ _]. cbv zeta. destruct (_ <? _); [apply T_throw|now apply Nn_ret]. Qed.
Lemma land7_r e : 0 <= e &&& 7 < 8.
Proof. change 7 with (Z.ones 3). rewrite Z.land_ones by lia. apply Z.mod_pos_bound. lia. Qed.
Lemma SL_opShift o i ext : oko o -> noq o -> SL (opShift o i ext None).
Proof.
  intros H Q. apply T_fn. eapply SL_N; [apply Nn_vms|intros _ _]. apply SL_head, SL_opRext; auto using land7_r; (apply codeok_plain; destruct (i =? 1); reflexivity).
Qed.
Lemma SL_opShiftCL o cl ext : oko o -> noq o -> SL (opShiftCL o cl ext None).
Proof. intros H Q. apply T_fn. destruct (negb _); [apply T_throw|]. apply SL_opRext; auto using land7_r; now apply codeok_plain. Qed.
Lemma SL_opShxd o r i c c2 cl : oko o -> okr r -> SL (opShxd noReg o r i c c2 cl).
Proof.
  intros H R. apply T_fn. destruct (match cl with Some _ => _ | None => _ end); [apply T_throw|]. destruct (negb _); [apply T_throw|]. cbv zeta.
  eapply SL_N; [apply Nn_opROO; auto; exact okr_noR|]. intros x ->. cbn [negb]. apply SL_head, SL_opRO; auto.
Qed.
Lemma SL_opRO_MR o1 o2 c : oko o1 -> oko o2 -> codeok 0 c = true -> codeok 0 (c ||| 2) = true -> SL (opRO_MR o1 o2 c).
Proof. intros H1 H2 C C'. apply T_fn. destruct o2 as [r|a]; [now apply SL_opRO|]. destruct (negb _); [apply T_throw|]. apply SL_opMR; auto using oko_ob. Qed.
Lemma oko_noOp : oko noOp. Proof. exact okr_noR. Qed.
Lemma SL_opOI o i c ext : oko o -> noq o -> 0 <= ext < 8 -> opcok (c ||| 4 ||| 0) = true -> opcok (c ||| 4 ||| 1) = true -> SL (opOI o i c ext).
Proof.
  intros H Q X C C'. unfold opOI. cbv zeta. eapply SL_N; [apply Nn_immBit|intros b _]. apply SL_head. destruct (_ && _ && _).
  - apply SL_rr; auto using oko_noOp. destruct (b =? 8); now apply SL_op.
  - apply SL_opRext; auto; (apply codeok_plain; destruct (b <? _); reflexivity).
Qed.
Lemma reg64 r : okr r -> isREG r = true -> (getBit r =? 64) = false.
Proof. intros (_ & _ & H) K. unfold isREGb, isREG, is_ in *. cbn in *. rewrite andb_true_r in K. rewrite K in H. destruct (Z.eqb_spec (getBit r) 64) as [E0|]; [|reflexivity]. unfold getBit in E0. rewrite E0 in H. discriminate H. Qed.
Lemma SL_mov_imm r i : okr r -> isREG r = true -> SL (mov_imm r i).
Proof.
  intros R K. unfold mov_imm. cbv zeta. rewrite reg64 by assumption. cbn [andb]. intros s env pos its a J rest. ebind J i1 i2 x J1 J2. ebind J1 i3 i4 y J1 J3. apply emits_ret in J3 as [-> ->].
  destruct (Pp_rex (OReg r) noOp 0 R oko_noOp s _ _ _ _ J1) as [P ->]. rewrite !render_app, <- !app_assoc. apply pfx_leg; [exact P|]. cbn [render app]. ebind J2 i5 i6 z J2 J4. apply EmitFacts.emits_db in J2 as ->.
  cbn [render render1 app starts_leg].
  assert (K0 : forall b : bool, opcok (176 ||| ((if b then 0 else 1) <<< 3) ||| (getIdx r &&& 7)) = true). { intros b. apply (land7_cases (fun q => opcok (176 ||| ((if b then 0 else 1) <<< 3) ||| q) = true)); destruct b; reflexivity. }
  specialize (K0 (getBit r =? 8)). apply andb_true_iff in K0 as [K1 K2]. apply negb_true_iff in K1. unfold pfx in K1. now rewrite K1.
Qed.
Lemma SL_opMovxx r o c : okr r -> oko o -> SL (opMovxx r o c).
Proof. intros R H. apply T_fn. destruct (oBit o 32); [apply T_throw|]. cbv zeta. destruct (negb _); [apply T_throw|]. apply SL_opRO; auto. Qed.
Lemma SL_opFpuMem a m1 m2 m3 e1 e2 : oka a -> (opcok m1 || (m1 =? 0)) && (opcok m2 || (m2 =? 0)) && (opcok m3 || (m3 =? 0)) = true -> SL (opFpuMem a m1 m2 m3 e1 e2).
Proof.
  intros A C. apply T_fn. destruct (is64bitDisp a); [apply T_throw|]. cbv zeta. apply andb_true_iff in C as [C C3]. apply andb_true_iff in C as [C1 C2].
  assert (F : forall c, opcok c || (c =? 0) = true -> SL (if c =? 0 then throw ERR_BAD_MEM_SIZE else rex (OMem a) (OReg (Fpu 0)) 0;;; db c;;; opAddr a (if negb (e2 =? 0) && isBit (a_op a) 64 then e2 else e1))).
  { intros c K. destruct (c =? 0); [apply T_throw|]. rewrite orb_false_r in K. apply SL_rr; auto. - apply okr_regOf; [lia|reflexivity]. - now apply SL_head, SL_op. }
  destruct (isBit (a_op a) 16); [now apply F|]. destruct (isBit (a_op a) 32); [now apply F|]. destruct (isBit (a_op a) 64); [now apply F|now apply (F 0)].
Qed.
Lemma oka_low a : oka a -> lb (e_base (getRegExp a)) /\ lb (e_index (getRegExp a)).
Proof.
  intros (A & _ & B1 & B2). destruct (getRegExp_32 a A) as (B & X & _). apply low_base in B. apply low_index in X. split; (split; [assumption|]); unfold getRegExp, optimize; destruct (a_optimize a); auto; destruct (_ && _ && _); auto.
Qed.
Definition lbv (p : option Reg) : Prop := match p with Some p => lb p | None => True end.
Definition lbo (o : Operand) : Prop := match o with OReg r => lb r | OMem a => oka a end.
Lemma oko_lbo o : oko o -> lbo o. Proof. destruct o; [apply okr_lb|auto]. Qed.
Lemma lbo_ob o : lbo o -> lb (ob o). Proof. destruct o as [r|a]; [auto|]. intros H. exact (okr_lb _ (oko_ob (OMem a) H)). Qed.
Lemma lbv_v p : lbv p -> lowv p /\ barev p. Proof. destruct p; [intros H; exact H|auto]. Qed.
Lemma SS_opVex r p o t c i : lb r -> lbv p -> lbo o -> mapok t = true -> SS (opVex r p o t c i).
Proof.
  intros (R1 & R2) P H Mp. destruct (lbv_v p P) as [P1 P2]. apply T_fn. apply SS_head. destruct o as [q|a].
  - destruct H as (Q1 & Q2). apply SS_head. destruct (_ || _ || _ || _).
    + apply SS_head. apply SS_evex; auto. exact Logic.I.
    + now apply SS_vex.
  - destruct (oka_low a H) as ((B1 & B2) & (X1 & X2)). cbv zeta. apply SS_head. rewrite (low_ext2 _ X1), (low_ext _ X1), andb_false_r. destruct (_ || _ || _ || _ || _ || _).
    + destruct (_ && _); [apply T_throw|]. destruct (_ && _); [apply T_throw|]. now apply SS_evex.
    + apply SS_head. now apply SS_vex.
Qed.
Lemma SS_opRRO d r o t c i : lb d -> lb r -> oko o -> mapok (t ||| T_W1) = true -> mapok (t ||| T_W0) = true -> SS (opRRO d r o t c i).
Proof.
  intros D R H C1 C0. apply T_fn. cbv zeta. destruct (_ || _); [apply T_throw|]. unfold hasRex2 at 1 2. 
  rewrite (low_rex2 d), (low_rex2 r), (oko_rex2 o H) by (apply D || apply R). pose proof D as (D1 & (D2 & D3 & D4)). rewrite D3. cbn [orb].
  apply SS_opVex; [exact D|exact R|now apply oko_lbo|]. now destruct (getBit d =? 64).
Qed.
Lemma SS_opAVX_X_X_XM x o1 o2 t c i : lb x -> lbo o1 -> lbo o2 -> mapok t = true -> SS (opAVX_X_X_XM x o1 o2 t c i).
Proof.
  intros X H1 H2 Mp. apply T_fn. destruct (isNone (ob o2)); (destruct (negb _); [apply T_throw|]); apply SS_opVex; auto. exact (lbo_ob o1 H1).
Qed.
Lemma SS_opAVX_K_X_XM k x o t c i : lb k -> lb x -> lbo o -> mapok t = true -> SS (opAVX_K_X_XM k x o t c i).
Proof. intros K X H Mp. apply T_fn. destruct (_ && _); [apply T_throw|]. now apply SS_opVex. Qed.
Lemma lb_Xmm0 : lb (Xmm 0). Proof. apply lb_regOf. lia. Qed.
Lemma SS_opCvt x o t c : lb x -> lbo o -> mapok t = true -> SS (opCvt x o t c).
Proof. intros X H Mp. apply SS_opVex; auto using lb_setKind. exact lb_Xmm0. Qed.
Ltac nchk := repeat match goal with |- context [if ?b then _ else _] => destruct b end; first [now apply Nn_ret|apply T_throw].
Lemma Nn_checkCvt2 x o : Nn (checkCvt2 x o) (fun _ => True).
Proof. apply T_fn. nchk. Qed.
Lemma Nn_checkCvt1 x o : Nn (checkCvt1 x o) (fun _ => True).
Proof. apply T_fn. nchk. Qed.
Lemma Nn_checkCvt4 x o : Nn (checkCvt4 x o) (fun _ => True).
Proof. apply T_fn. nchk. Qed.
Lemma Nn_checkGather2 x o m : Nn (checkGather2 x o m) (fun _ => True).
Proof. apply T_fn. repeat match goal with |- context [if ?b then _ else _] => destruct b end; first [now apply Nn_ret|apply T_throw]. Qed.
Lemma SS_opCvt2 x o t c : lb x -> lbo o -> mapok t = true -> SS (opCvt2 x o t c).
Proof. intros X H Mp. eapply SS_N; [apply Nn_checkCvt2|intros _ _]. now apply SS_opCvt. Qed.
Lemma SS_opCvt3 x y o t t64 t32 c : lb x -> lb y -> lbo o -> mapok (t ||| t64) = true -> mapok (t ||| t32) = true -> SS (opCvt3 x y o t t64 t32 c).
Proof.
  intros X Y H M1 M2. apply T_fn. destruct (negb _); [apply T_throw|]. cbv zeta. apply SS_opVex; auto.
  - destruct (oREG o); [|exact H]. apply lb_regOf. apply (low_idx (ob o)). exact (proj1 (lbo_ob o H)).
  - now destruct (oBit o 64).
Qed.
Lemma SS_opCvt5 x o t c : lb x -> lbo o -> mapok t = true -> SS (opCvt5 x o t c).
Proof. intros X H Mp. apply T_fn. destruct (negb _); [apply T_throw|]. apply SS_opVex; auto using lb_setKind. exact lb_Xmm0. Qed.
Lemma SS_opCvt6 x y o t c : lb x -> lb y -> lbo o -> mapok t = true -> SS (opCvt6 x y o t c).
Proof. intros X Y H Mp. apply T_fn. cbv zeta. destruct (_ || _); [|apply T_throw]. now apply SS_opVex. Qed.
Lemma SS_opAVX_X_XM_IMM x o t c i : lb x -> lbo o -> mapok t = true -> SS (opAVX_X_XM_IMM x o t c i).
Proof. intros X H Mp. apply SS_opAVX_X_X_XM; auto. exact (okr_lb _ (okr_cvtIdx0 _)). Qed.
Lemma SL_opCnt r o c : okr r -> oko o -> SL (opCnt r o c).
Proof. intros R H. apply T_fn. destruct (isBit r 8); [apply T_throw|]. cbv zeta. destruct (_ && _); [apply T_throw|]. now apply SL_opRO. Qed.
Lemma lb_Ymm x : lb x -> lb (Ymm (getIdx x)). Proof. intros H. apply lb_regOf. apply low_idx, H. Qed.
Lemma SS_opGather x a y t c m : lb x -> oka a -> lb y -> mapok t = true -> SS (opGather x a y t c m).
Proof.
  intros X A Y Mp. apply T_fn. cbv zeta. destruct (negb _); [apply T_throw|]. destruct ((_ || _ || _) && _); [apply T_throw|]. destruct (_ || _ || _); [apply T_throw|].
  apply SS_opAVX_X_X_XM; auto; destruct (_ =? 256); auto; cbn [lbo]; auto using lb_Ymm.
Qed.
Lemma SS_opGather2 x a t c m : lb x -> oka a -> mapok t = true -> SS (opGather2 x a t c m).
Proof. intros X A Mp. apply T_fn. destruct (zero_ x); [apply T_throw|]. cbv zeta. eapply SS_N; [apply Nn_checkGather2|intros _ _]. destruct (_ =? 0); [apply T_throw|]. destruct (_ && _); [apply T_throw|]. apply SS_opVex; auto. exact Logic.I. Qed.
Lemma SS_opVmov o x t c m : lbo o -> lb x -> mapok t = true -> SS (opVmov o x t c m).
Proof. intros H X Mp. apply T_fn. match goal with |- context [if ?b then throw _ else _] => destruct b end; [apply T_throw|]. apply SS_opVex; auto. exact Logic.I. Qed.
Lemma SS_opGatherFetch a x t c k : oka a -> lb x -> mapok t = true -> SS (opGatherFetch a x t c k).
Proof. intros A X Mp. apply T_fn. destruct (zero_ _); [apply T_throw|]. destruct (negb _); [apply T_throw|]. apply SS_opVex; auto. exact Logic.I. Qed.
Lemma Nn_getEncoding e s : Nn (getEncoding e s) (fun _ => True).
Proof. apply T_fn. intros sg env pos its a J. ebind J i1 i2 x J1 J2. apply emits_ask in J1 as [-> ->]. cbv zeta in J2. match type of J2 with emits (if ?b then _ else _) _ _ _ _ => destruct b end; [destruct (emits_throw _ _ _ _ _ J2)|]. apply emits_ret in J2 as [-> ->]. auto. Qed.
Lemma Nn_orEvexIf e t1 t2 s : Nn (orEvexIf e t1 t2 s) (fun x => x = t1 \/ x = T_MUST_EVEX ||| t2).
Proof. eapply Nn_bind; [apply Nn_getEncoding|intros x _]. apply Nn_ret. destruct (_ || _); auto. Qed.
Lemma SS_opEncoding x y o t c e i t1 t2 s : lb x -> lb y -> lbo o -> mapok (t ||| t1) = true -> mapok (t ||| (T_MUST_EVEX ||| t2)) = true -> SS (opEncoding x y o t c e i t1 t2 s).
Proof. intros X Y H M1 M2. eapply SS_N; [apply Nn_orEvexIf|]. intros z [->| ->]; apply SS_opAVX_X_X_XM; auto. Qed.
Lemma SS_opKmov k o rev n : okr k -> oko o -> SS (opKmov k o rev n).
Proof.
  intros K H. apply T_fn. cbv zeta. match goal with |- context [if ?b =? 0 then throw _ else _] => generalize b end. intros c. destruct (c =? 0); [apply T_throw|].
  set (t := T_0F ||| _). assert (Q : has (T_APX ||| t) T_MUST_EVEX = false /\ mapok (T_L0 ||| t) = true).
  { unfold t. generalize (oREGb o (if n <? 64 then 32 else 64)). intros []; destruct (n =? 8), (n =? 16), (n =? 32), (n =? 64); split; reflexivity. }
  destruct Q as [Q1 Q2]. assert (F : forall p1 p2, oko p1 -> oko p2 -> SS (done <- opROO noReg p2 p1 (T_APX ||| t) c 0 NONE;; (if done then ret tt else opVex (ob p1) None p2 (T_L0 ||| t) c NONE))).
  { intros p1 p2 H1 H2. eapply SS_N; [apply Nn_opROO; auto; exact okr_noR|]. intros x ->. apply SS_opVex; auto using oko_lbo, okr_lb, oko_ob. exact Logic.I. }
  destruct (c =? 147); now apply F.
Qed.
Lemma SL_opEncodeKey r1 r2 c1 c2 : okr r1 -> okr r2 -> SL (opEncodeKey r1 r2 c1 c2).
Proof.
  intros R1 R2. unfold opEncodeKey. pose proof (okr_idx r1 R1). pose proof (okr_idx r2 R2). replace (getIdx r1 <? 8) with true by (symmetry; apply Z.ltb_lt; lia). replace (getIdx r2 <? 8) with true by (symmetry; apply Z.ltb_lt; lia). cbn [andb].
  eapply SL_pre; [apply (Pp_db _ (fun _ => True)); [reflexivity|exact Logic.I]|intros _ _]. apply SL_head. apply SL_op. reflexivity.
Qed.
Lemma SL_opSSE_APX x o t1 c1 t2 c2 i : okr x -> oko o -> codeok t1 c1 = true -> SL (opSSE_APX x o t1 c1 t2 c2 i).
Proof. intros X H C. unfold opSSE_APX. rewrite oko_rex2, andb_false_r by exact H. apply SL_ret. now apply SL_opSSE. Qed.
Lemma mapok_nth l n : forallb mapok l = true -> mapok (nth n l 0) = true.
Proof. intros H. destruct (nth_in_or_default n l 0) as [J| ->]; [|reflexivity]. rewrite forallb_forall in H. auto. Qed.
Lemma SS_opAVX10ZeroExt o1 o2 tt_ ct e b : oko o1 -> oko o2 -> forallb mapok tt_ = true -> SS (opAVX10ZeroExt o1 o2 tt_ ct e b).
Proof.
  intros H1 H2 Mp. apply T_fn.
  assert (F : forall p1 p2 (rev : bool), oko p1 -> oko p2 -> SS (if isMEM p1 then throw ERR_BAD_COMBINATION else
   let '(p1, p2, rev) := if oXMM p1 then (p2, p1, negb rev) else (p1, p2, rev) in
   enc <- getEncoding e 1 ;;
   let sel := if oXMM p1 || (isMEM p1 && PreferredEncoding_beq enc AVX10v2Encoding) then 2 + b2z rev
              else if oREGb p1 b || isMEM p1 then b2z rev else -1 in
   if sel =? -1 then throw ERR_BAD_COMBINATION else
   opAVX_X_X_XM (ob p2) (OReg (Xmm 0)) p1 (nth (Z.to_nat sel) tt_ 0) (nth (Z.to_nat sel) ct 0) NONE)).
  { intros p1 p2 rev P1 P2. destruct (isMEM p1); [apply T_throw|].
    assert (G : forall q1 q2 (r : bool), oko q1 -> oko q2 -> SS (enc <- getEncoding e 1 ;;
      let sel := if oXMM q1 || (isMEM q1 && PreferredEncoding_beq enc AVX10v2Encoding) then 2 + b2z r else if oREGb q1 b || isMEM q1 then b2z r else -1 in
      if sel =? -1 then throw ERR_BAD_COMBINATION else
      opAVX_X_X_XM (ob q2) (OReg (Xmm 0)) q1 (nth (Z.to_nat sel) tt_ 0) (nth (Z.to_nat sel) ct 0) NONE)).
    { intros q1 q2 r Q1 Q2. eapply SS_N; [apply Nn_getEncoding|intros z _]. cbv zeta. destruct (_ =? -1); [apply T_throw|]. apply SS_opAVX_X_X_XM; auto using oko_lbo, okr_lb, oko_ob, mapok_nth. exact lb_Xmm0. }
    destruct (oXMM p1); now apply G. }
  destruct (isMEM o1); now apply F.
Qed.
Lemma SL_test o r : oko o -> okr r -> SL (test_ o r). Proof. intros H R. now apply SL_opRO. Qed.
Lemma SL_test_imm o i : oko o -> noq o -> SL (test_imm o i).
Proof.
  intros H Q. unfold test_imm. cbv zeta. eapply SL_N; [apply Nn_vms|intros _ _]. apply SL_head. destruct (_ && _).
  - apply SL_rr; auto using oko_noOp. destruct (oBit o 8); now apply SL_op.
  - apply SL_opRext; auto. lia.
Qed.
Lemma SL_imul_imm r o i : okr r -> oko o -> SL (imul_imm r o i).
Proof.
  intros R H. unfold imul_imm. cbv zeta. eapply SL_N; [apply Nn_opROO; auto; exact okr_noR|]. intros x ->. cbn [negb]. apply SL_head, SL_opRO; auto. destruct (IsInDisp8 i); reflexivity.
Qed.
Lemma SL_mov_oi o i : oko o -> noq o -> SL (mov_oi o i).
Proof.
  intros H Q. apply T_fn. cbv zeta. destruct o as [r|a].
  - destruct (isREG r) eqn:K; [|apply T_throw]. now apply SL_head, SL_mov_imm.
  - eapply SL_N; [apply Nn_vms|intros _ _]. match goal with |- context [if ?b then throw _ else _] => destruct b end; [apply T_throw|]. apply SL_head, SL_opMR; auto. apply okr_regOf; [lia|]. change (ogetBit (OMem a)) with (bit_ (a_op a)). rewrite (has_mod _ Q). apply andb_false_r.
Qed.
Lemma okr_seg s : okr (Reg8 (segIdx s)). Proof. apply okr_regOf; [destruct s; cbn; lia|reflexivity]. Qed.
Lemma SL_mov_o_seg o s : oko o -> SL (mov_o_seg o s).
Proof. intros H. apply SL_opRO; auto using okr_seg. Qed.
Lemma SL_mov_seg_o s o : oko o -> SL (mov_seg_o s o).
Proof.
  intros H. unfold mov_seg_o. eapply SL_N.
  - instantiate (1 := oko). destruct (oREGb o _); [|now apply Nn_ret]. eapply Nn_bind; [apply Nn_cvt32; now apply oko_ob|]. intros x X. now apply Nn_ret.
  - intros x X. apply SL_opRO; auto using okr_seg.
Qed.
