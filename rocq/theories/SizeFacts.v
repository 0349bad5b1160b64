(* Which operand sizes the encoder functions accept. *)
From Coq Require Import ZArith List Bool Lia.
From Verif Require Import Base Types Emit EmitFacts LegacyFacts Encode SpecLen SpecSize.
Import ListNotations.
Open Scope Z_scope.

Definition G {A} (x y : Operand) (m : E A) : Prop := forall env pos its u, emits m env pos its u -> agree x y.
Lemma agree_sym x y : agree x y -> agree y x.
Proof. intros H a b Ha Hb. symmetry. now apply H. Qed.
Lemma agree_refl x : agree x x.
Proof. intros a b Ha Hb. congruence. Qed.
Lemma G_sym {A} x y (m : E A) : G x y m -> G y x m.
Proof. intros H env pos its u J. apply agree_sym. eapply H; eauto. Qed.
Lemma G_l {A C} x y (m : E A) (f : A -> E C) : G x y m -> G x y (bind m f).
Proof. intros H env pos its u J. ebind J i1 i2 v J1 J2. eapply H; eauto. Qed.
Lemma G_r {A C} x y (m : E A) (f : A -> E C) : (forall v, G x y (f v)) -> G x y (bind m f).
Proof. intros H env pos its u J. ebind J i1 i2 v J1 J2. eapply H; eauto. Qed.
Lemma G_fn {A} (d : A) x y m : G x y m -> G x y (fn d m).
Proof. intros H env pos its u J. apply emits_fn in J. eapply H; eauto. Qed.
Lemma G_throw {A} x y e : G x y (@throw A e).
Proof. intros env pos its u J. destruct (emits_throw _ _ _ _ _ J). Qed.

Lemma G_opRR r1 r2 t c : has t T_ALLOW_DIFF_SIZE = false -> G (OReg r1) (OReg r2) (opRR r1 r2 t c).
Proof.
  intros Ht env pos its u J. unfold opRR in J. apply emits_fn in J. rewrite Ht in J. cbn [negb andb] in J.
  intros a b Ha Hb. unfold gp_size in *. destruct (isREG r1); [|discriminate]. destruct (isREG r2); [|discriminate]. cbn [andb] in J.
  injection Ha as <-. injection Hb as <-. destruct (getBit r1 =? getBit r2) eqn:E; [lia|]. cbn [negb] in J. destruct (emits_throw _ _ _ _ _ J).
Qed.
Lemma G_opMR a r t c : has t T_ALLOW_DIFF_SIZE = false -> narrow (OReg r) -> G (OMem a) (OReg r) (opMR a r t c 0 NONE).
Proof.
  intros Ht Hn env pos its u J. unfold opMR in J. apply emits_fn in J. change (negb (0 =? 0)) with false in J. cbv iota in J.
  ebind J i1 i2 x J1 J2. apply emits_ret in J1 as [-> ->]. destruct (is64bitDisp a); [destruct (emits_throw _ _ _ _ _ J2)|].
  rewrite Ht in J2. cbn [negb andb] in J2. intros p q Hp Hq. unfold gp_size in *. destruct (isREG r) eqn:HR; [|discriminate].
  destruct (0 <? getBit (a_op a)) eqn:E0; [|discriminate]. injection Hp as <-. injection Hq as <-. specialize (Hn HR). cbn [ob] in Hn.
  destruct (getBit (a_op a) =? getBit r) eqn:E; [lia|]. cbn [negb] in J2. rewrite andb_true_r in J2.
  replace (getBit r <=? BIT) with true in J2 by (symmetry; apply Z.leb_le; exact Hn).
  destruct (emits_throw _ _ _ _ _ J2).
Qed.
Lemma agree_immSize a n y : agree (OMem (set_immSize a n)) y -> agree (OMem a) y.
Proof. exact (fun H => H). Qed.
Lemma G_opRO r o t c cnd i : has t T_ALLOW_DIFF_SIZE = false -> narrow (OReg r) -> G (OReg r) o (opRO r o t c cnd i).
Proof.
  intros Ht Hn. unfold opRO. apply G_fn. destruct o as [q|a].
  - destruct cnd; [now apply G_opRR|apply G_throw].
  - apply G_sym. exact (G_opMR (set_immSize a i) r t c Ht Hn).
Qed.
Lemma G_opRO_MR o1 o2 c : narrow o1 -> narrow o2 -> G o1 o2 (opRO_MR o1 o2 c).
Proof.
  intros H1 H2. unfold opRO_MR. apply G_fn. destruct o2 as [r2|a2].
  - apply G_sym. now apply G_opRO.
  - destruct (negb (oREG o1)) eqn:HR; [apply G_throw|]. apply G_sym. intros env pos its u J. apply G_opMR in J; [|reflexivity|destruct o1; exact H1].
    unfold oREG in HR. destruct o1 as [r1|a1]; [exact J|]. intros a b Ha Hb. apply J; auto. cbn [gp_size ob] in *. apply negb_false_iff in HR. rewrite HR.
    destruct (0 <? getBit (a_op a1)); [exact Hb|discriminate].
Qed.
(* without r16-r31, {nf} and {zf} there is no APX form *)
Definition plain (o : Operand) : Prop := hasRex2NFZU o = false.
Lemma G_undone x y d o1 o2 t c i sc (f : bool -> E unit) : has t T_MUST_EVEX = false -> isREG d = false -> plain (OReg d) -> plain o1 -> plain o2 ->
  G x y (f false) -> G x y (bind (opROO d o1 o2 t c i sc) f).
Proof.
  intros Ht Hd P0 P1 P2 H env pos its u J. ebind J i1 i2 v J1 J2. unfold opROO in J1. rewrite Ht, Hd, P0, P1, P2 in J1. cbn [negb orb andb] in J1.
  apply emits_fn, emits_ret in J1 as [-> ->]. eapply H; eauto.
Qed.
Lemma pairs2 x y m : G x y m -> checks_sizes [x; y] m.
Proof.
  intros H env pos its u J p q [<-|[<-|[]]] [<-|[<-|[]]]; try apply agree_refl.
  - eapply H; eauto.
  - apply agree_sym. eapply H; eauto.
Qed.
Lemma pairs3 x y z m : G x y m -> G x z m -> G y z m -> checks_sizes [x; y; z] m.
Proof.
  intros H1 H2 H3 env pos its u J p q [<-|[<-|[<-|[]]]] [<-|[<-|[<-|[]]]]; try apply agree_refl; try (apply agree_sym; eauto; fail); eauto.
Qed.
(* the forms of BMI: the register operands *)
Lemma G_opRRO d r o t c i : G (OReg d) (OReg r) (opRRO d r o t c i).
Proof.
  unfold opRRO. apply G_fn. cbv zeta. intros env pos its u J a b Ha Hb. unfold gp_size in *.
  destruct (isREG d); [|discriminate]. destruct (isREG r); [|discriminate]. injection Ha as <-. injection Hb as <-.
  destruct (getBit r =? getBit d) eqn:E; [lia|]. cbn [negb orb] in J. destruct (emits_throw _ _ _ _ _ J).
Qed.
Lemma G_opRRO2 d r q t c i : G (OReg d) (OReg q) (opRRO d r (OReg q) t c i).
Proof.
  unfold opRRO. apply G_fn. cbv zeta. intros env pos its u J a b Ha Hb. unfold gp_size in *. unfold oREG, ogetBit in J. cbn [ob] in J.
  destruct (isREG d); [|discriminate]. destruct (isREG q); [|discriminate]. injection Ha as <-. injection Hb as <-.
  destruct (getBit q =? getBit d) eqn:E; [lia|]. cbn [negb orb andb] in J. rewrite orb_true_r in J. destruct (emits_throw _ _ _ _ _ J).
Qed.
Lemma S_opRRO d r q t c i : checks_sizes [OReg d; OReg r; OReg q] (opRRO d r (OReg q) t c i).
Proof.
  apply pairs3; [apply G_opRRO|apply G_opRRO2|]. intros env pos its u J a b Ha Hb. pose proof (G_opRRO _ _ _ _ _ _ _ _ _ _ J) as K1.
  pose proof (G_opRRO2 _ _ _ _ _ _ _ _ _ _ J) as K2. destruct (isREG d) eqn:HD.
  - rewrite <- (K1 (getBit d) a), <- (K2 (getBit d) b); auto; cbn [gp_size]; now rewrite HD.
  - unfold opRRO in J. apply emits_fn in J. cbv zeta in J. unfold gp_size in *. unfold oREG, ogetBit in J. cbn [ob] in J.
    destruct (isREG r); [|discriminate]. destruct (isREG q); [|discriminate]. injection Ha as <-. injection Hb as <-.
    destruct (getBit r =? getBit d) eqn:E1; [|cbn [negb orb] in J; destruct (emits_throw _ _ _ _ _ J)].
    destruct (getBit q =? getBit d) eqn:E2; [lia|]. cbn [negb orb andb] in J. destruct (emits_throw _ _ _ _ _ J).
Qed.
