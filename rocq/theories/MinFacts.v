(* When a VEX/EVEX method emits EVEX although its instruction has a VEX form. *)
From Coq Require Import ZArith List Bool String Lia.
From Verif Require Import Base Types Emit Encode SpecX86 SpecAddr SpecIsa SpecInsn Wf EmitFacts BitFacts MemFacts LegacyFacts VexFacts EncThms IsaFacts VexShapes VexShapes2 VexTac VexShapes3 EncSel Mnemonic MnemonicAvx.
Import ListNotations.
Open Scope Z_scope.

(* ---- specification ---- *)
(* what only EVEX can express: 512 bits, registers 16 .. 31, {k}, rounding; in memory operands broadcast, {k}, r16 .. r31 *)
Definition needs (o : Operand) : bool :=
  match o with
  | OReg r => (bit_ r =? 512) || (16 <=? regno r) || negb (mask_ r =? 0) || negb (rounding_ r =? 0)
  | OMem a => a_broadcast a || negb (mask_ (a_op a) =? 0) || (16 <=? regno (e_base (a_e a))) || (16 <=? regno (e_index (a_e a)))
  end.
(* a reason for EVEX: an operand needs it, the vector length is 512, or, for shifts by an immediate (operands in vvvv and
   ModRM.rm), the operand is in memory, which the VEX form does not have *)
Definition evex_reason (row : vrow) (vl : Z) (ops : list Operand) : Prop :=
  existsb needs ops = true \/ vl = 512 \/ (r_enc row = VMI /\ exists a, In (OMem a) ops).
(* a method whose instruction has a VEX form emits VEX, or EVEX for a reason *)
Definition minimal (e : entry) : Prop := r_vex (en_row e) <> None ->
  forall s ops imm act env pos its u, en_fun e ops imm = Some act -> Forall2 arg_ok (en_sig e) ops -> emits act env pos its u ->
    starts false (render s its) \/ (starts true (render s its) /\ evex_reason (en_row e) (vl_of (en_vl e) (en_row e) ops) ops).

(* ---- *)
Lemma leaf s r p1 op type code imm8 env pos its u : emits (opVex r p1 op type code imm8) env pos its u ->
  starts false (render s its) \/ (starts true (render s its) /\ uses_evex r p1 op type = true).
Proof. intros H. apply (opVex_starts s) in H as [H _]. destruct (uses_evex r p1 op type); auto. Qed.
Lemma ext2_regno x : isExtIdx2 x = true -> (16 <=? regno x) = true.
Proof.
  rewrite isExtIdx2_bit4. intros H. pose proof (idx_split x) as E. pose proof (low3_range x). rewrite H in E. unfold getIdx in E. rewrite land31 in E.
  unfold regno. apply Z.leb_le. destruct (bit3 x); cbn [z01] in E; lia.
Qed.
Definition plain_zmm (r : Reg) : Prop := isZMM r = true -> bit_ r = 512.
Lemma needs_reg r : plain_zmm r -> hasEvex r = true -> needs (OReg r) = true.
Proof.
  unfold hasEvex, needs. intros P H. rewrite !orb_true_iff in *. destruct H as [[[H|H]|H]|H]; auto.
  - rewrite (P H). auto.
  - apply ext2_regno in H. auto.
Qed.
Lemma needs_mem a : addrHasRex2 a = true -> needs (OMem a) = true.
Proof.
  unfold addrHasRex2, regHasRex2, needs. rewrite !orb_true_iff, !andb_true_iff. intros [[_ H]|[_ H]]; apply ext2_regno in H; auto.
Qed.
Lemma vec_zmm r : vec_reg r -> plain_zmm r.
Proof. intros [[[K B]|[[K B]|[K B]]] _] Q; auto; exfalso; unfold isZMM, is_ in Q; rewrite K in Q; vm_compute in Q; discriminate. Qed.
Lemma nokind_zmm k r : kind_ r = k -> k = REG \/ k = OPMASK \/ k = TMM -> plain_zmm r.
Proof. intros K H Q. exfalso. unfold isZMM, is_ in Q. rewrite K in Q. destruct H as [-> | [-> | ->]]; vm_compute in Q; discriminate. Qed.
Lemma arg_zmm c r : arg_ok c (OReg r) -> plain_zmm r.
Proof.
  destruct c; cbn; try tauto; intros H.
  1-3: apply vec_zmm; tauto.
  1: eapply nokind_zmm; [apply (proj1 (proj1 H))|auto].
  1,2: eapply nokind_zmm; [apply (proj1 (proj1 H))|auto].
  1: eapply nokind_zmm; [apply (proj1 (proj1 H))|auto].
  1: destruct H as [H|H]; [apply vec_zmm; tauto|eapply nokind_zmm; [apply (proj1 (proj1 H))|auto]].
  1: apply vec_zmm; tauto.
  eapply nokind_zmm; [apply (proj1 (proj1 H))|auto].
Qed.
Lemma in_needs o ops : In o ops -> needs o = true -> existsb needs ops = true.
Proof. intros H N. apply existsb_exists. eauto. Qed.
Lemma needs_zmm r : plain_zmm r -> isZMM r = true -> needs (OReg r) = true.
Proof. intros P H. unfold needs. rewrite (P H). reflexivity. Qed.
Lemma idx0_zmm x : hasEvex (cvtIdx0 (OReg x)) = true -> isZMM x = true.
Proof. unfold cvtIdx0. cbn [ob]. destruct (isZMM x); auto. destruct (isYMM x); vm_compute; auto. Qed.
Lemma XmmK_zmm x d : 0 <= d < 8 -> hasEvex (XmmK (kind_ x) d) = true -> isZMM x = true.
Proof.
  intros D. unfold hasEvex. change (isZMM (XmmK (kind_ x) d)) with (isZMM x). change (mask_ (XmmK (kind_ x) d)) with 0. change (rounding_ (XmmK (kind_ x) d)) with 0.
  destruct (isZMM x); auto. assert (C : isExtIdx2 (XmmK (kind_ x) d) = isExtIdx2 (Xmm d)) by reflexivity. rewrite C.
  assert (d = 0 \/ d = 1 \/ d = 2 \/ d = 3 \/ d = 4 \/ d = 5 \/ d = 6 \/ d = 7) as Q by lia.
  repeat (destruct Q as [-> | Q]; [vm_compute; auto|]). subst. vm_compute. auto.
Qed.
Lemma uses_reg r p1 b type : uses_evex r p1 (OReg b) type = true ->
  has type T_MUST_EVEX = true \/ hasEvex r = true \/ ovb p1 hasEvex = true \/ hasEvex b = true.
Proof. cbn [uses_evex]. unfold uses_evex_reg. rewrite !orb_true_iff. tauto. Qed.
Lemma uses_mem r p1 a type : uses_evex r p1 (OMem a) type = true ->
  has type (T_MUST_EVEX ||| T_MEM_EVEX) = true \/ hasEvex r = true \/ ovb p1 hasEvex = true \/ needs (OMem a) = true.
Proof.
  cbn [uses_evex]. unfold uses_evex_mem. rewrite !orb_true_iff. intros [[[[[H|H]|H]|H]|H]|H]; auto; do 3 right.
  - cbn. rewrite H. reflexivity.
  - cbn. rewrite H. rewrite !orb_true_r. reflexivity.
  - apply needs_mem. exact H.
Qed.
(* the destination of a narrowing conversion gets the kind of the source *)
Lemma kind_needs x b : vec_reg x -> hasEvex (setKind x (if isXMM x then if b : bool then YMM else XMM else ZMM)) = true ->
  needs (OReg x) = true \/ 256 <= bit_ x.
Proof.
  intros V H. destruct (vec_kinds x V) as [X _]. destruct (vec_bits x V) as [B|[B|B]]; try (right; lia). left.
  rewrite X, B in H. cbn [Z.eqb] in H. apply needs_reg; [now apply vec_zmm|]. unfold hasEvex in *. rewrite !orb_true_iff in *.
  destruct b; (destruct H as [[[H|H]|H]|H];
  [exfalso; vm_compute in H; discriminate|left; left; right; exact H|left; right; exact H|right; exact H]).
Qed.
Lemma idx_needs r : hasEvex (Xmm (getIdx r)) = true -> needs (OReg r) = true.
Proof.
  unfold hasEvex. change (mask_ (Xmm (getIdx r))) with 0. change (rounding_ (Xmm (getIdx r))) with 0. rewrite !orb_true_iff.
  intros [[[H|H]|H]|H]; try discriminate. unfold needs. rewrite (ext2_regno r); [rewrite orb_true_r; reflexivity|].
  rewrite isExtIdx2_bit4 in *. revert H. unfold bit4, Xmm, regOf, getIdx. cbn [idx_]. rewrite Z.lor_0_r.
  change 64 with (2 ^ 6). rewrite Z.mod_pow2_bits_low, Z.land_spec by lia. rewrite andb_true_iff. tauto.
Qed.
Lemma idx_needs' r : hasEvex (Ymm (getIdx r)) = true -> needs (OReg r) = true.
Proof. intros H. apply idx_needs. exact H. Qed.
Lemma isNone_Xmm n : isNone (Xmm n) = false. Proof. reflexivity. Qed.
Lemma mem_not_reg c a : arg_ok c (OMem a) -> oREG (OMem a) = true -> False.
Proof.
  intros H. assert (K : kind_ (a_op a) = MEM) by (destruct c; cbn in H; try tauto; try destruct H as [H _]; apply H).
  unfold oREG, isREG, is_. cbn [ob]. rewrite K. vm_compute. discriminate.
Qed.
