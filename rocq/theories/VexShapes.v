(* The instruction methods of each family implement the table rows their attribute words agree with. *)
From Coq Require Import ZArith List Bool String Lia.
From Verif Require Import Base Types Emit Encode SpecX86 SpecAddr SpecIsa SpecInsn Wf EmitFacts BitFacts MemFacts LegacyFacts VexFacts EncThms IsaFacts.
Import ListNotations.
Open Scope Z_scope.

(* ---- lengths ---- *)
Definition vexL (type : Z) (y : bool) : Z := if has type T_L1 then 1 else if has type T_L0 then 0 else if y then 1 else 0.
(* vls: the vector lengths that can occur; vec: the register in ModRM.reg is a vector register of that length *)
Definition len_ok (type : Z) (row : vrow) (vec : bool) (vl : Z) : bool :=
  match r_vex row with
  | Some f => (vec && (vl =? 512)) || L_ok (f_L f) vl (vexL type (vec && (vl =? 256)))
  | None => true end
  && match r_evex row with
     | Some f => vl_in (f_L (e_form f)) vl && match f_L (e_form f) with L_0 | L_1 => false | _ => true end
     | None => true end.
Definition lens_ok type row vec vls : bool := forallb (len_ok type row vec) vls.
Definition check type code row vec vls : bool := row_match type code row && lens_ok type row vec vls.

Lemma len_ok_vex type row vec vl r : len_ok type row vec vl = true ->
  (if vec then isYMM r = (vl =? 256) /\ isZMM r = (vl =? 512) else isYMM r = false) -> vex_lengths type r vl row.
Proof.
  unfold len_ok, vex_lengths. intros H V f E Z. rewrite E in H. apply andb_prop in H as [H _].
  unfold vex_L. unfold vexL in H. destruct vec; cbn [andb orb] in H.
  - destruct V as [-> V]. rewrite <- V, Z in H. exact H.
  - rewrite V. exact H.
Qed.
Lemma len_ok_evex type row vec vl : len_ok type row vec vl = true -> evex_lengths vl row.
Proof.
  unfold len_ok, evex_lengths. intros H f E. rewrite E in H. apply andb_prop in H as [_ H]. apply andb_prop in H as [H K].
  repeat split; auto; destruct (f_L (e_form f)); congruence.
Qed.

(* ---- register facts ---- *)
Lemma vec_bits r : vec_reg r -> bit_ r = 128 \/ bit_ r = 256 \/ bit_ r = 512.
Proof. intros [[[_ H]|[[_ H]|[_ H]]] _]; auto. Qed.
Lemma vec_kinds r : vec_reg r -> isXMM r = (bit_ r =? 128) /\ isYMM r = (bit_ r =? 256) /\ isZMM r = (bit_ r =? 512) /\ vector r = true.
Proof. intros [[[H1 H2]|[[H1 H2]|[H1 H2]]] _]; unfold isXMM, isYMM, isZMM, vector, is_; rewrite H1, H2; repeat split; reflexivity. Qed.
Lemma vec_width r : vec_reg r -> width_ok (bit_ r).
Proof. intros H. apply vec_bits in H. unfold width_ok. tauto. Qed.
Lemma gpr_width r : gpr r -> width_ok (bit_ r) /\ isREG r = true /\ isYMM r = false /\ isZMM r = false /\ isXMM r = false.
Proof.
  intros [K H]. unfold isREG, isYMM, isZMM, isXMM, is_. rewrite K. split; [|repeat split; reflexivity].
  unfold width_ok. intuition.
Qed.
Lemma opmask_width r : opmask_reg r -> width_ok (bit_ r) /\ regno r < 16 /\ isYMM r = false /\ isZMM r = false.
Proof.
  intros (K & B & I). unfold isYMM, isZMM, is_. rewrite K, B. unfold regno. rewrite Z.mod_small by lia.
  split; [unfold width_ok; tauto|]. split; [lia|]. split; reflexivity.
Qed.
Lemma arg_width c o : arg_ok c o -> c <> cT -> match o with OReg b => width_ok (bit_ b) /\ mods_ok b | OMem a => mem_ok a end.
Proof.
  destruct c, o; cbn; try tauto.
  - intros [V M] _. split; auto. now apply vec_width.
  - intros (V & M & _) _. split; auto. now apply vec_width.
  - intros (V & M & _) _. split; auto. now apply vec_width.
  - intros [V M] _. split; auto. now apply opmask_width.
  - intros (V & M & _) _. split; [now apply gpr_width|now apply bare_mods].
  - intros (V & M & _) _. split; [now apply gpr_width|now apply bare_mods].
  - intros [[V M]|[V M]] _; split; auto; [now apply vec_width|now apply gpr_width|now apply bare_mods].
  - intros (V & M & _) _. split; [now apply vec_width|now apply bare_mods].
  - intros (V & M & _) _. split; [now apply gpr_width|now apply bare_mods].
Qed.
(* op is encoded in ModRM.rm as if it were op' (the same, or a register of another class with the same number) *)
Definition rm_kind (op op' : Operand) : Prop :=
  match op, op' with
  | OReg b, OReg b' => (b = b' /\ (vector b' = true \/ isREG b' = true)) \/ (regno b = regno b' /\ regno b' < 16)
  | OMem a, OMem a' => a = a' | _, _ => False end.
Lemma arg_rm c o : arg_ok c o -> rm_kind o o.
Proof.
  destruct c, o; cbn; try tauto.
  - intros [V _]. left; split; auto. left. now apply vec_kinds.
  - intros [V _]. left; split; auto. left. now apply vec_kinds.
  - intros [V _]. left; split; auto. left. now apply vec_kinds.
  - intros [V _]. right; split; auto. now apply opmask_width.
  - intros [V _]. left; split; auto. right. now apply gpr_width.
  - intros [V _]. left; split; auto. right. now apply gpr_width.
  - intros [(_ & _ & I) _]. right; split; auto. unfold regno. rewrite Z.mod_small; lia.
  - intros [[V _]|[V _]]; left; split; auto; [left; now apply vec_kinds | right; now apply gpr_width].
Qed.

(* ---- the encoder path for both kinds of operand ---- *)
Lemma core_says s row r p1 op op' type code imm8 vl reg v ops env pos its rest u :
  row_match type code row = true ->
  (row_rc type row = true \/ Forall (fun o => ornd o = 0) ops) ->
  mods_ok r -> omods_ok p1 -> width_ok (bit_ r) -> Forall width_ok (ow p1) ->
  match op' with OReg b => width_ok (bit_ b) /\ mods_ok b | OMem a => mem_ok a end -> rm_kind op op' ->
  (forall a, op' = OMem a -> mask_ (a_op a) <> 0 -> mask_ r = 0 /\ ovl p1 mask_ = 0) ->
  (tuple_of type = TMovddup -> 128 <= bit_ r) ->
  same_mods (OReg r :: oreg p1 ++ [op']) ops -> regno r = reg -> vreg p1 = v ->
  vl = veclen (bit_ r :: width op' :: ow p1) ->
  vex_lengths type r vl row -> evex_lengths vl row ->
  emits (opVex r p1 op' type code imm8) env pos its u ->
  says_core row vl reg v op ops (imm_bytes imm8) (render s its) rest.
Proof.
  intros RM RC Mr Mp Wr Wp Ok Kd MM Dup SM <- <- Evl VL EL H. apply (says_core_mods _ _ _ _ _ _ _ _ _ _ SM).
  assert (K : row_rc type row = true \/ (forall o, In o (OReg r :: oreg p1 ++ [op']) -> ornd o = 0)).
  { destruct RC as [RC|RC]; auto. right. rewrite Forall_forall in RC. 
    intros o Ho. destruct (Z.eq_dec (ornd o) 0) as [|N]; auto. apply (in_map ornd) in Ho.
    apply (sm_rnd _ _ SM) in Ho; auto. apply in_map_iff in Ho as (o' & E & I). rewrite <- E. auto. }
  destruct op' as [b|a], op as [b'|a']; try contradiction; cbn [width] in Evl.
  - destruct Ok as [Wb Mb]. eapply opVex_reg_says; eauto.
    + destruct K as [K|K]; auto. right. split; [|split].
      * apply (K (OReg r)). left; auto.
      * destruct p1 as [p|]; auto. apply (K (OReg p)). right; left; auto.
      * apply (K (OReg b)). right. apply in_or_app. right; left; auto.
    + rewrite Evl. unfold veclen. cbn [fold_right]. destruct p1; cbn [ow fold_right]; lia.
  - cbn [rm_kind] in Kd. subst a'. eapply opVex_mem_says; eauto.
    + destruct K as [K|K].
      * left. unfold row_rc in K. apply andb_prop in K as [_ K]. now apply negb_true_iff in K.
      * right. split; [apply (K (OReg r)); left; auto|]. destruct p1 as [p|]; auto. apply (K (OReg p)). right; left; auto.
    + rewrite Evl. unfold veclen. cbn [fold_right]. destruct p1; cbn [ow fold_right]; lia.
Qed.

Lemma one_mask_mem ops a o : one_mask ops -> In (OMem a) ops -> mask_ (a_op a) <> 0 -> In o ops -> o <> OMem a -> omask o = 0.
Proof. intros H I N Io D. destruct (H a o I N Io); congruence. Qed.

Lemma same_mods_refl a : same_mods a a.
Proof. split; intros; tauto. Qed.
Lemma imm_bytes_small i : 0 <= i < 256 -> imm_bytes i = [i].
Proof. intros H. unfold imm_bytes. replace (i =? NONE) with false by (symmetry; apply Z.eqb_neq; unfold NONE; lia). unfold w8. rewrite Z.mod_small by lia. reflexivity. Qed.
Lemma w8_small i : 0 <= i < 256 -> w8 i = i.
Proof. intros; unfold w8; apply Z.mod_small; lia. Qed.

(* vector lengths accepted by opAVX_X_X_XM *)
Definition avx_lens (type min : Z) : list Z := filter (fun vl => min <=? vl) (if has type T_YMM then [128; 256; 512] else [128]).
Lemma avx3_inv type code imm x1 x2 op env pos its u :
  vec_reg x1 -> vec_reg x2 -> isNone (ob op) = false ->
  emits (opAVX_X_X_XM x1 (OReg x2) op type code imm) env pos its u ->
  emits (opVex x1 (Some x2) op type code imm) env pos its u
  /\ bit_ x1 = bit_ x2 /\ forall min, min <= bit_ x1 -> In (bit_ x1) (avx_lens type min).
Proof.
  intros V1 V2 NN H. unfold opAVX_X_X_XM in H. apply emits_fn in H. rewrite NN in H. cbn [ob] in H.
  destruct (vec_kinds _ V1) as (X1 & Y1 & Z1 & _), (vec_kinds _ V2) as (X2 & Y2 & Z2 & _).
  rewrite X1, X2, Y1, Y2, Z1, Z2 in H.
  match type of H with emits (if negb ?c then _ else _) _ _ _ _ => destruct c eqn:C; cbn [negb] in H; [|einv H] end.
  split; auto. apply orb_prop in C as [C|C].
  - apply andb_prop in C as [C1 C2]. split; [lia|]. intros min M. unfold avx_lens. apply filter_In. split; [|lia].
    apply Z.eqb_eq in C1. rewrite C1. destruct (has type T_YMM); left; auto.
  - apply andb_prop in C as [C0 C]. split; [lia|]. intros min M. unfold avx_lens. rewrite C0. apply filter_In. split; [|lia].
    cbn. apply orb_prop in C as [C|C]; apply andb_prop in C as [C1 C2]; lia.
Qed.

Definition min_of (c : cls) : Z := match c with cY => 256 | cZ => 512 | _ => 128 end.
Definition vcls (c : cls) : bool := match c with cX | cY | cZ => true | _ => false end.
Lemma vcls_arg c r : vcls c = true -> arg_ok c (OReg r) -> vec_reg r /\ mods_ok r /\ min_of c <= bit_ r.
Proof.
  destruct c; try discriminate; cbn.
  - intros _ [V M]. repeat split; auto; try apply M; try apply V. apply vec_bits in V. lia.
  - tauto.
  - intros _ (V & M & E). repeat split; auto; try apply M; try apply V. lia.
Qed.
Lemma arg_some c o : arg_ok c o -> isNone (ob o) = false.
Proof.
  assert (VN : forall r, vec_reg r -> isNone r = false).
  { intros r [[[K _]|[[K _]|[K _]]] _]; unfold isNone; rewrite K; reflexivity. }
  assert (GN : forall r, gpr r -> isNone r = false). { intros r [K _]; unfold isNone; rewrite K; reflexivity. }
  destruct c, o; cbn; try tauto.
  - intros [V _]; auto.
  - intros [V _]; auto.
  - intros [V _]; auto.
  - intros [[K _] _]. unfold isNone; rewrite K; reflexivity.
  - intros [V _]; auto.
  - intros [V _]; auto.
  - intros [[K _] _]. unfold isNone; rewrite K; reflexivity.
  - intros [W _ _ _ _ _ _]. unfold isNone. rewrite (wm_kind _ W). reflexivity.
  - intros [[V _]|[V _]]; auto.
  - intros [W _ _ _ _ _ _]. unfold isNone. rewrite (wm_kind _ W). reflexivity.
  - intros [V _]; auto.
  - intros [V _]; auto.
  - intros [[W _ _ _ _ _ _] _]. unfold isNone. rewrite (wm_kind _ W). reflexivity.
  - intros [[W _ _ _ _ _ _] _]. unfold isNone. rewrite (wm_kind _ W). reflexivity.
Qed.

Lemma avx3_core s row x1 x2 op type code imm8 min reg v ops env pos its rest u :
  check type code row true (avx_lens type min) = true ->
  (row_rc type row = true \/ Forall (fun o => ornd o = 0) ops) ->
  vec_reg x1 -> mods_ok x1 -> vec_reg x2 -> mods_ok x2 -> min <= bit_ x1 ->
  (exists c, arg_ok c op /\ c <> cT) -> width op <= Z.max (bit_ x1) (bit_ x2) ->
  (forall a, op = OMem a -> mask_ (a_op a) <> 0 -> mask_ x1 = 0 /\ mask_ x2 = 0) ->
  same_mods [OReg x1; OReg x2; op] ops -> regno x1 = reg -> regno x2 = v ->
  emits (opAVX_X_X_XM x1 (OReg x2) op type code imm8) env pos its u ->
  bit_ x1 = bit_ x2 /\ says_core row (bit_ x1) reg v op ops (imm_bytes imm8) (render s its) rest.
Proof.
  intros CH RC V1 M1 V2 M2 MN (c & Oc & NT) W MM SM E1 E2 H.
  apply avx3_inv in H as (H & EB & IN); auto; [|eapply arg_some; eauto]. split; auto.
  unfold check in CH. apply andb_prop in CH as [RM LN].
  unfold lens_ok in LN. rewrite forallb_forall in LN. specialize (LN _ (IN min MN)).
  destruct (vec_kinds _ V1) as (_ & Y1 & Z1 & _).
  refine (core_says s row x1 (Some x2) op op type code imm8 (bit_ x1) reg v ops env pos its rest u RM RC M1 M2 (vec_width _ V1) _
    (arg_width _ _ Oc NT) (arg_rm _ _ Oc) MM _ SM E1 E2 _ (len_ok_vex _ _ true _ _ LN (conj Y1 Z1)) (len_ok_evex _ _ _ _ LN) H).
  - constructor; auto. apply vec_width; auto.
  - intros _. apply vec_bits in V1. lia.
  - apply vec_bits in V1. unfold veclen. cbn [fold_right ow]. lia.
Qed.

Lemma longest1 a : 128 <= a -> longest [a; 0] = a.
Proof. unfold longest; cbn [fold_right]. lia. Qed.
Lemma longest2 a : 128 <= a -> longest [a; a] = a.
Proof. unfold longest; cbn [fold_right]. lia. Qed.
Lemma longest0 a : 128 <= a -> longest [0; a] = a.
Proof. unfold longest; cbn [fold_right]. lia. Qed.
Lemma longest12 a b : 128 <= a -> longest [a; b] = Z.max a b.
Proof. unfold longest; cbn [fold_right]. lia. Qed.

Ltac opn :=
  intros s ops imm act env pos its rest u Hf Ha Hm Hw Hr Hi H; unfold en_fun, en_sig, en_row, en_vl in *;
  repeat match goal with
  | Q : Forall2 _ (_ :: _) _ |- _ => inversion Q; clear Q; subst
  | Q : Forall2 _ [] _ |- _ => inversion Q; clear Q; subst
  end.
Ltac rcs := match goal with Hr : ?rc = false -> _, RC : ?rc = true -> _ |- _ => destruct rc; [left; auto|right; auto] end.
Ltac mask1 := let a := fresh in let E := fresh in let N := fresh in
  intros a E N; subst;
  match goal with Hm : one_mask ?l |- _ => split; match goal with |- mask_ ?x = 0 => apply (one_mask_mem l a (OReg x)); auto; [cbn; tauto|cbn; tauto|discriminate] end end.

Lemma cvtIdx0_ok x : vec_reg x -> let z := cvtIdx0 (OReg x) in vec_reg z /\ bit_ z = bit_ x /\ regno z = 0 /\ bare z.
Proof.
  intros V. destruct (vec_kinds _ V) as (X & Y & Z & _). unfold cvtIdx0. cbn [ob]. rewrite Y, Z.
  destruct (vec_bits _ V) as [E|[E|E]]; rewrite E; cbn [Z.eqb Pos.eqb];
    (split; [split; [cbn; tauto|cbn; lia] | repeat split]).
Qed.
Lemma Xmm0_ok : vec_reg (Xmm 0) /\ bare (Xmm 0) /\ regno (Xmm 0) = 0 /\ bit_ (Xmm 0) = 128.
Proof. split; [split; [left; split; reflexivity|cbn; lia]|repeat split]. Qed.
Lemma bare_in_mods x l : bare x -> same_mods (OReg x :: l) l.
Proof.
  intros (M & R & Z). split.
  - intros m N. cbn [map In omask]. rewrite M. split; [intros [E|E]; [congruence|auto]|auto].
  - intros m N. cbn [map In ornd]. rewrite R. split; [intros [E|E]; [congruence|auto]|auto].
  - cbn [existsb ozero]. rewrite Z. reflexivity.
Qed.
Lemma same_mods_swap a b l : same_mods (a :: b :: l) (b :: a :: l).
Proof.
  split.
  - intros m _. cbn [map In]. tauto.
  - intros m _. cbn [map In]. tauto.
  - cbn [existsb]. destruct (ozero a), (ozero b); reflexivity.
Qed.
Lemma same_mods_cons a l l' : same_mods l l' -> same_mods (a :: l) (a :: l').
Proof.
  intros [M R Z]. split.
  - intros m N. cbn [map In]. rewrite (M m N). tauto.
  - intros m N. cbn [map In]. rewrite (R m N). tauto.
  - cbn [existsb]. now rewrite Z.
Qed.
Lemma same_mods_trans a b c : same_mods a b -> same_mods b c -> same_mods a c.
Proof.
  intros [M R Z] [M' R' Z']. split; [| |congruence].
  - intros m N. rewrite (M m N). auto.
  - intros m N. rewrite (R m N). auto.
Qed.
(* a bare second register does not matter *)
Lemma same_mods2 x z o : bare z -> same_mods [OReg x; OReg z; o] [OReg x; o].
Proof. intros B. apply same_mods_cons, bare_in_mods, B. Qed.
Lemma same_mods2' x z o : bare z -> same_mods [OReg x; OReg z; o] [o; OReg x].
Proof. intros B. eapply same_mods_trans; [apply same_mods2; auto|apply same_mods_swap]. Qed.

Ltac widths := repeat match goal with Q : Forall (fun o => width o <= _) (_ :: _) |- _ => inversion Q; clear Q; subst end.
Lemma some_inj {A} (a b : A) : Some a = Some b -> b = a.
Proof. congruence. Qed.
Ltac fun_ := match goal with Hf : Some _ = Some ?act |- _ => apply some_inj in Hf; subst act end.
Ltac vargs := repeat match goal with
  | Q : arg_ok ?c (OReg ?r), K : vcls ?c = true |- _ => let V := fresh "V" in let M := fresh "M" in let L := fresh "L" in let B := fresh "B" in
      pose proof (vcls_arg c r K Q) as (V & M & L); pose proof (vec_bits r V) as B; clear Q
  end.
Ltac slots EE ED := unfold vl_of, says in *; rewrite EE, ED in *;
  cbn [at_slot RVM RM MR VM RMV MVR RVM4 RVMI RMI MRI VMI M_ R_ slot_eqb owid width slot_reg existsb orb] in *.
Ltac vl2 := rewrite longest12 in * by lia.

(* three operands in ModRM.reg, vvvv and ModRM.rm *)
Lemma rvm_core s row x1 x2 op type code imm8 c1 ops tail rc env pos its rest u :
  check type code row true (avx_lens type (min_of c1)) = true -> (rc = true -> row_rc type row = true) ->
  (rc = false -> Forall (fun o => ornd o = 0) ops) ->
  vec_reg x1 -> mods_ok x1 -> vec_reg x2 -> mods_ok x2 -> min_of c1 <= bit_ x1 ->
  (exists c, arg_ok c op /\ c <> cT) -> width op <= Z.max (bit_ x1) (bit_ x2) ->
  one_mask ops -> In (OReg x1) ops -> In (OReg x2) ops -> In op ops ->
  same_mods [OReg x1; OReg x2; op] ops -> tail = imm_bytes imm8 ->
  emits (opAVX_X_X_XM x1 (OReg x2) op type code imm8) env pos its u ->
  says_core row (Z.max (bit_ x1) (bit_ x2)) (regno x1) (regno x2) op ops tail (render s its) rest.
Proof.
  intros CH RC Hr V1 M1 V2 M2 MN OC W OM I1 I2 I3 SM -> H.
  destruct (avx3_core s row x1 x2 op type code imm8 (min_of c1) (regno x1) (regno x2) ops env pos its rest u) as [EB S]; auto.
  - rcs.
  - intros a -> N. split; [apply (one_mask_mem ops a (OReg x1))|apply (one_mask_mem ops a (OReg x2))]; auto; discriminate.
  - rewrite <- EB, Z.max_id. exact S.
Qed.
Ltac fin := eauto; try solve [cbn; tauto | apply same_mods_refl | discriminate].

Section Rvm.
Variables (type code : Z) (row : vrow) (c1 c2 c3 : cls) (rc : bool) (nm : string).
Hypothesis (K1 : vcls c1 = true) (K2 : vcls c2 = true) (NT : c3 <> cT).
Hypothesis (CH : check type code row true (avx_lens type (min_of c1)) = true) (RC : rc = true -> row_rc type row = true).
Hypothesis (ED : r_digit row = None).
Lemma impl_rvm : r_enc row = RVM ->
  implements rc (mkEntry nm [c1; c2; c3] (rro (fun a b o => opAVX_X_X_XM a (OReg b) o type code NONE)) row VlRegs).
Proof.
  intros EE. opn. destruct y as [x1|], y0 as [x2|]; try discriminate. cbn [rro] in Hf. fun_. vargs. slots EE ED. vl2. widths.
  eapply (rvm_core s row x1 x2 y1 type code NONE c1); fin.
Qed.
Lemma impl_rvm_oo : r_enc row = RVM ->
  implements rc (mkEntry nm [c1; c2; c3] (roo (fun a o1 o => opAVX_X_X_XM a o1 o type code NONE)) row VlRegs).
Proof.
  intros EE. opn. destruct y as [x1|], y0 as [x2|]; try discriminate; [|exfalso; destruct c2; try contradiction; discriminate]. cbn [roo] in Hf. fun_. vargs. slots EE ED. vl2. widths.
  eapply (rvm_core s row x1 x2 y1 type code NONE c1); fin.
Qed.
Lemma impl_rvm_a : r_enc row = RVM -> c3 = cA ->
  implements rc (mkEntry nm [c1; c2; c3] (rra (fun a b o => opAVX_X_X_XM a (OReg b) (OMem o) type code NONE)) row VlRegs).
Proof.
  intros EE ->. opn. destruct y as [x1|], y0 as [x2|], y1 as [x3|x3]; try discriminate. cbn [rra] in Hf. fun_. vargs. slots EE ED. vl2. widths.
  eapply (rvm_core s row x1 x2 (OMem x3) type code NONE c1); fin.
Qed.
Lemma impl_rvm_r : r_enc row = RVM -> 
  implements rc (mkEntry nm [c1; c2; c3] (rrr (fun a b o => opAVX_X_X_XM a (OReg b) (OReg o) type code NONE)) row VlRegs).
Proof.
  intros EE. opn. destruct y as [x1|], y0 as [x2|], y1 as [x3|x3]; try discriminate. cbn [rrr] in Hf. fun_.
  assert (OC : exists c, arg_ok c (OReg x3) /\ c <> cT) by eauto. vargs. slots EE ED. vl2. widths.
  eapply (rvm_core s row x1 x2 (OReg x3) type code NONE c1); fin.
Qed.
Lemma impl_rvmi : r_enc row = RVMI ->
  implements rc (mkEntry nm [c1; c2; c3] (rroi (fun a b o i => let i := w8 i in opAVX_X_X_XM a (OReg b) o type code i)) row VlRegs).
Proof.
  intros EE. opn. destruct y as [x1|], y0 as [x2|]; try discriminate. cbn [rroi] in Hf. fun_. vargs. slots EE ED. vl2. widths.
  cbv beta zeta in H. rewrite w8_small in H by auto.
  eapply (rvm_core s row x1 x2 y1 type code imm c1); fin. symmetry; now apply imm_bytes_small.
Qed.
Lemma impl_mvr : r_enc row = MVR -> 
  implements rc (mkEntry nm [cA; c2; c1] (arr (fun o b a => opAVX_X_X_XM a (OReg b) (OMem o) type code NONE)) row VlRegs).
Proof.
  intros EE. opn. destruct y as [|x3], y0 as [x2|], y1 as [x1|]; try discriminate. cbn [arr] in Hf. fun_. vargs. slots EE ED. vl2. widths.
  eapply (rvm_core s row x1 x2 (OMem x3) type code NONE c1); fin.
  - exists cA. split; auto. discriminate.
  - eapply same_mods_trans; [apply same_mods_swap|]. eapply same_mods_trans; [apply same_mods_cons, same_mods_swap|]. apply same_mods_swap.
Qed.
Lemma impl_rvm4 : r_enc row = RVM4 -> 
  implements rc (mkEntry nm [c1; c2; c3; cX4] (rror (fun a b o c => opAVX_X_X_XM a (OReg b) o type code (getIdx c <<< 4))) row VlRegs).
Proof.
  intros EE. opn. destruct y as [x1|], y0 as [x2|], y2 as [x4|]; try discriminate. cbn [rror] in Hf. fun_. vargs. slots EE ED. vl2. widths.
  match goal with Q : arg_ok cX4 (OReg x4) |- _ => destruct Q as ([_ X4] & B4 & R4) end.
  assert (E4 : getIdx x4 <<< 4 = 16 * regno x4).
  { unfold getIdx. change 31 with (Z.ones 5). rewrite Z.land_ones by lia. rewrite Z.shiftl_mul_pow2 by lia. unfold regno. change (2 ^ 5) with 32. lia. }
  cbv beta in H. rewrite E4 in H. assert (R0 : 0 <= regno x4) by (unfold regno; apply Z.mod_pos_bound; lia).
  eapply (rvm_core s row x1 x2 y1 type code (16 * regno x4) c1); fin.
  - eapply same_mods_trans; [|apply same_mods_cons, same_mods_cons, same_mods_swap].
    eapply same_mods_trans; [|apply same_mods_cons, same_mods_swap]. eapply same_mods_trans; [|apply same_mods_swap].
    pose proof (bare_in_mods x4 [OReg x1; OReg x2; y1] B4) as [sa sb sc]. split; [intros m N; rewrite (sa m N); tauto|intros m N; rewrite (sb m N); tauto|congruence].
  - symmetry. apply imm_bytes_small. lia.
Qed.
End Rvm.

(* ModRM.reg and ModRM.rm, vvvv unused (register 0) *)
Lemma rm_core s row x z op type code imm8 c1 ops tail rc env pos its rest u :
  check type code row true (avx_lens type (min_of c1)) = true -> (rc = true -> row_rc type row = true) ->
  (rc = false -> Forall (fun o => ornd o = 0) ops) ->
  vec_reg x -> mods_ok x -> vec_reg z -> bare z -> regno z = 0 -> min_of c1 <= bit_ x ->
  (exists c, arg_ok c op /\ c <> cT) -> width op <= bit_ x ->
  one_mask ops -> In (OReg x) ops -> In op ops ->
  same_mods [OReg x; op] ops -> tail = imm_bytes imm8 ->
  emits (opAVX_X_X_XM x (OReg z) op type code imm8) env pos its u ->
  says_core row (bit_ x) (regno x) 0 op ops tail (render s its) rest.
Proof.
  intros CH RC Hr V1 M1 V2 B2 R2 MN OC W OM I1 I3 SM -> H.
  destruct (avx3_core s row x z op type code imm8 (min_of c1) (regno x) 0 ops env pos its rest u) as [EB S]; auto.
  - rcs.
  - now apply bare_mods.
  - lia.
  - intros a -> N. split; [apply (one_mask_mem ops a (OReg x)); auto; discriminate|apply B2].
  - eapply same_mods_trans; [|exact SM]. apply same_mods2; auto.
Qed.
Lemma rm_core_idx0 s row x op type code imm8 c1 ops tail rc env pos its rest u :
  check type code row true (avx_lens type (min_of c1)) = true -> (rc = true -> row_rc type row = true) ->
  (rc = false -> Forall (fun o => ornd o = 0) ops) ->
  vec_reg x -> mods_ok x -> min_of c1 <= bit_ x ->
  (exists c, arg_ok c op /\ c <> cT) -> width op <= bit_ x ->
  one_mask ops -> In (OReg x) ops -> In op ops ->
  same_mods [OReg x; op] ops -> tail = imm_bytes imm8 ->
  emits (opAVX_X_XM_IMM x op type code imm8) env pos its u ->
  says_core row (bit_ x) (regno x) 0 op ops tail (render s its) rest.
Proof.
  intros CH RC Hr V M. destruct (cvtIdx0_ok x V) as (A & _ & B & C). intros. eapply rm_core; eauto.
Qed.
Ltac vl1 := rewrite longest1 in * by lia.
Ltac fin2 := eauto; try solve [cbn; tauto | apply same_mods_refl | apply same_mods_swap | discriminate | symmetry; now apply imm_bytes_small].
Section Rm.
Variables (type code : Z) (row : vrow) (c1 c2 : cls) (rc : bool) (nm : string).
Hypothesis (K1 : vcls c1 = true) (NT : c2 <> cT).
Hypothesis (CH : check type code row true (avx_lens type (min_of c1)) = true) (RC : rc = true -> row_rc type row = true).
Hypothesis (ED : r_digit row = None).
Lemma impl_rm : r_enc row = RM ->
  implements rc (mkEntry nm [c1; c2] (ro (fun a o => opAVX_X_XM_IMM a o type code NONE)) row VlRegs).
Proof.
  intros EE. opn. destruct y as [x1|]; try discriminate. cbn [ro] in Hf. fun_. vargs. slots EE ED. vl1. widths.
  eapply (rm_core_idx0 s row x1 y0 type code NONE c1); fin2.
Qed.
Lemma impl_rmi : r_enc row = RMI ->
  implements rc (mkEntry nm [c1; c2] (roi (fun a o i => let i := w8 i in opAVX_X_XM_IMM a o type code i)) row VlRegs).
Proof.
  intros EE. opn. destruct y as [x1|]; try discriminate. cbn [roi] in Hf. fun_. vargs. slots EE ED. vl1. widths.
  cbv beta zeta in H. rewrite w8_small in H by auto.
  eapply (rm_core_idx0 s row x1 y0 type code imm c1); fin2.
Qed.
Lemma impl_rm_a : r_enc row = RM ->
  implements rc (mkEntry nm [c1; cA] (ra (fun a o => opAVX_X_XM_IMM a (OMem o) type code NONE)) row VlRegs).
Proof.
  intros EE. opn. destruct y as [x1|], y0 as [|x2]; try discriminate. cbn [ra] in Hf. fun_. vargs. slots EE ED. vl1. widths.
  eapply (rm_core_idx0 s row x1 (OMem x2) type code NONE c1); fin2. exists cA. split; auto; discriminate.
Qed.
Lemma impl_rm_a' : r_enc row = RM ->
  implements rc (mkEntry nm [c1; cA] (ra (fun a o => opAVX_X_X_XM a (OReg (cvtIdx0 (OReg a))) (OMem o) type code NONE)) row VlRegs).
Proof. exact impl_rm_a. Qed.
Lemma impl_mr : r_enc row = MR ->
  implements rc (mkEntry nm [c2; c1] (or_ (fun o a => opAVX_X_XM_IMM a o type code NONE)) row VlRegs).
Proof.
  intros EE. opn. destruct y0 as [x1|]; try discriminate. cbn [or_] in Hf. fun_.
  assert (OC : exists c, arg_ok c y /\ c <> cT) by eauto. vargs. slots EE ED. vl1. widths.
  eapply (rm_core_idx0 s row x1 y type code NONE c1); fin2.
Qed.
Lemma impl_mr_a : r_enc row = MR ->
  implements rc (mkEntry nm [cA; c1] (ar (fun o a => opAVX_X_XM_IMM a (OMem o) type code NONE)) row VlRegs).
Proof.
  intros EE. opn. destruct y0 as [x1|], y as [|x2]; try discriminate. cbn [ar] in Hf. fun_. vargs. slots EE ED. vl1. widths.
  eapply (rm_core_idx0 s row x1 (OMem x2) type code NONE c1); fin2. exists cA. split; auto; discriminate.
Qed.
(* with xmm0 for vvvv *)
Lemma impl_rm0_a : r_enc row = RM ->
  implements rc (mkEntry nm [c1; cA] (ra (fun a o => opAVX_X_X_XM a (OReg (Xmm 0)) (OMem o) type code NONE)) row VlRegs).
Proof.
  intros EE. opn. destruct y as [x1|], y0 as [|x2]; try discriminate. cbn [ra] in Hf. fun_. vargs. slots EE ED. vl1. widths.
  destruct Xmm0_ok as (A & B' & C & _).
  eapply (rm_core s row x1 (Xmm 0) (OMem x2) type code NONE c1); fin2. exists cA. split; auto; discriminate.
Qed.
Lemma impl_mr0_a : r_enc row = MR ->
  implements rc (mkEntry nm [cA; c1] (ar (fun o a => opAVX_X_X_XM a (OReg (Xmm 0)) (OMem o) type code NONE)) row VlRegs).
Proof.
  intros EE. opn. destruct y0 as [x1|], y as [|x2]; try discriminate. cbn [ar] in Hf. fun_. vargs. slots EE ED. vl1. widths.
  destruct Xmm0_ok as (A & B' & C & _).
  eapply (rm_core s row x1 (Xmm 0) (OMem x2) type code NONE c1); fin2. exists cA. split; auto; discriminate.
Qed.
Lemma impl_rm0_r : r_enc row = RM ->
  implements rc (mkEntry nm [c1; c2] (rr (fun a o => opAVX_X_X_XM a (OReg (Xmm 0)) (OReg o) type code NONE)) row VlRegs).
Proof.
  intros EE. opn. destruct y as [x1|], y0 as [x2|]; try discriminate. cbn [rr] in Hf. fun_.
  assert (OC : exists c, arg_ok c (OReg x2) /\ c <> cT) by eauto. vargs. slots EE ED. vl1. widths.
  destruct Xmm0_ok as (A & B' & C & _).
  eapply (rm_core s row x1 (Xmm 0) (OReg x2) type code NONE c1); fin2.
Qed.
End Rm.

(* /digit in ModRM.reg, destination in vvvv *)
Lemma XmmK_ok x d : vec_reg x -> 0 <= d < 8 -> let z := XmmK (kind_ x) d in vec_reg z /\ bit_ z = bit_ x /\ regno z = d /\ bare z.
Proof.
  intros V D. assert (H' : d mod 64 = d) by (apply Z.mod_small; lia). assert (H : d mod 64 mod 32 = d) by (rewrite H'; apply Z.mod_small; lia).
  unfold XmmK, regOf, regno, vec_reg, bare. cbn [idx_ kind_ bit_ mask_ rounding_ zero_]. rewrite Z.lor_0_r, H, H'.
  destruct V as [[[K E]|[[K E]|[K E]]] _]; rewrite K, E; cbn [Z.eqb Pos.eqb XMM YMM ZMM]; cbn; intuition.
Qed.
Section Vm.
Variables (type code d : Z) (row : vrow) (c1 c2 : cls) (rc : bool) (nm : string).
Hypothesis (K1 : vcls c1 = true) (NT : c2 <> cT).
Hypothesis (CH : check type code row true (avx_lens type (min_of c1)) = true) (RC : rc = true -> row_rc type row = true).
Hypothesis (ED : r_digit row = Some d) (D : ((0 <=? d) && (d <? 8)) = true).
Lemma impl_vmi : r_enc row = VMI ->
  implements rc (mkEntry nm [c1; c2] (roi (fun a o i => let i := w8 i in opAVX_X_X_XM (XmmK (kind_ a) d) (OReg a) o type code i)) row VlRegs).
Proof.
  intros EE. opn. destruct y as [x1|]; try discriminate. cbn [roi] in Hf. fun_. vargs. slots EE ED. rewrite longest0 in * by lia. widths.
  cbv beta zeta in H. rewrite w8_small in H by auto.
  assert (D' : 0 <= d < 8) by lia. destruct (XmmK_ok x1 d V D') as (A & B' & C & C').
  destruct (avx3_core s row (XmmK (kind_ x1) d) x1 y0 type code imm (min_of c1) d (regno x1) [OReg x1; y0] env pos its rest u) as [EB S]; auto.
  - rcs.
  - now apply bare_mods.
  - rewrite B'; auto.
  - eauto.
  - lia.
  - intros a -> N. split; [apply C'|]. apply (one_mask_mem [OReg x1; OMem a] a (OReg x1)); auto; [cbn; tauto|cbn; tauto|discriminate].
  - apply bare_in_mods; auto.
  - rewrite B' in S. rewrite imm_bytes_small in S by auto. exact S.
Qed.
End Vm.
