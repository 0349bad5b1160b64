(* The methods that call opVex directly, after their own operand checks. *)
From Coq Require Import ZArith List Bool String Lia.
From Verif Require Import Base Types Emit Encode SpecX86 SpecAddr SpecIsa SpecInsn Wf EmitFacts BitFacts MemFacts LegacyFacts VexFacts EncThms IsaFacts VexShapes.
Import ListNotations.
Open Scope Z_scope.

Definition is_dup (type : Z) : bool := match tuple_of type with TMovddup => true | _ => false end.
Definition checkv type code row vec vls : bool := check type code row vec vls && (vec || negb (is_dup type)).

(* r: register in ModRM.reg, p1: in vvvv, op': the operand in ModRM.rm as passed to opVex *)
Lemma vex_core s row r p1 op op' type code imm8 vec vls vl ops tail reg v rc env pos its rest u :
  checkv type code row vec vls = true -> (rc = true -> row_rc type row = true) ->
  (rc = false -> Forall (fun o => ornd o = 0) ops) ->
  mods_ok r -> omods_ok p1 -> width_ok (bit_ r) -> Forall width_ok (ow p1) ->
  match op' with OReg b => width_ok (bit_ b) /\ mods_ok b | OMem a => mem_ok a end -> rm_kind op op' ->
  (forall a, op' = OMem a -> mask_ (a_op a) <> 0 -> mask_ r = 0 /\ ovl p1 mask_ = 0) ->
  same_mods (OReg r :: oreg p1 ++ [op']) ops -> regno r = reg -> vreg p1 = v ->
  (if vec then isYMM r = (vl =? 256) /\ isZMM r = (vl =? 512) /\ 128 <= bit_ r else isYMM r = false) -> In vl vls ->
  vl = veclen (bit_ r :: width op' :: ow p1) -> tail = imm_bytes imm8 ->
  emits (opVex r p1 op' type code imm8) env pos its u ->
  says_core row vl reg v op ops tail (render s its) rest.
Proof.
  intros CH RC Hr Mr Mp Wr Wp Ok Kd MM SM E1 E2 KV IN Evl -> H. unfold checkv, check in CH. do 2 apply andb_prop in CH as [CH ?].
  match goal with Q : lens_ok _ _ _ _ = true |- _ => unfold lens_ok in Q; rewrite forallb_forall in Q; specialize (Q _ IN); rename Q into LN end.
  refine (core_says s row r p1 op op' type code imm8 vl reg v ops env pos its rest u CH _ Mr Mp Wr Wp Ok Kd MM _ SM E1 E2 Evl
    (len_ok_vex _ _ vec _ _ LN _) (len_ok_evex _ _ _ _ LN) H).
  - rcs.
  - intros D. destruct vec; [apply KV|]. unfold is_dup in *. rewrite D in *. discriminate.
  - destruct vec; auto. split; apply KV.
Qed.

Lemma vec_veclen r w : vec_reg r -> w <= bit_ r -> veclen (bit_ r :: w :: ow None) = bit_ r.
Proof. intros V W. apply vec_bits in V. unfold veclen. cbn [fold_right ow]. lia. Qed.
Lemma vec_kv r : vec_reg r -> isYMM r = (bit_ r =? 256) /\ isZMM r = (bit_ r =? 512) /\ 128 <= bit_ r.
Proof. intros V. destruct (vec_kinds _ V) as (_ & Y & Z & _). apply vec_bits in V. repeat split; auto; lia. Qed.

(* vector register in ModRM.reg, vvvv unused *)
Lemma vrm_core s row x op type code imm8 vls ops tail rc env pos its rest u :
  checkv type code row true vls = true -> (rc = true -> row_rc type row = true) ->
  (rc = false -> Forall (fun o => ornd o = 0) ops) ->
  vec_reg x -> mods_ok x -> (exists c, arg_ok c op /\ c <> cT) -> width op <= bit_ x ->
  one_mask ops -> In (OReg x) ops -> In op ops -> same_mods [OReg x; op] ops -> tail = imm_bytes imm8 ->
  In (bit_ x) vls ->
  emits (opVex x None op type code imm8) env pos its u ->
  says_core row (bit_ x) (regno x) 0 op ops tail (render s its) rest.
Proof.
  intros CH RC Hr V M (c & Oc & NT) W OM I1 I2 SM Et IN H.
  refine (vex_core s row x None op op type code imm8 true vls (bit_ x) ops tail (regno x) 0 rc env pos its rest u
    CH RC Hr M I (vec_width _ V) (Forall_nil _) (arg_width _ _ Oc NT) (arg_rm _ _ Oc) _ SM eq_refl eq_refl (vec_kv _ V) IN _ Et H).
  - intros a -> N. split; [apply (one_mask_mem ops a (OReg x)); auto; discriminate|reflexivity].
  - symmetry. apply vec_veclen; auto.
Qed.
Lemma vrvm_core s row x x2 op type code imm8 vls ops tail rc env pos its rest u :
  checkv type code row true vls = true -> (rc = true -> row_rc type row = true) ->
  (rc = false -> Forall (fun o => ornd o = 0) ops) ->
  vec_reg x -> mods_ok x -> vec_reg x2 -> mods_ok x2 -> (exists c, arg_ok c op /\ c <> cT) -> width op <= bit_ x -> bit_ x2 = bit_ x ->
  one_mask ops -> In (OReg x) ops -> In (OReg x2) ops -> In op ops -> same_mods [OReg x; OReg x2; op] ops -> tail = imm_bytes imm8 ->
  In (bit_ x) vls ->
  emits (opVex x (Some x2) op type code imm8) env pos its u ->
  says_core row (bit_ x) (regno x) (regno x2) op ops tail (render s its) rest.
Proof.
  intros CH RC Hr V M V2 M2 (c & Oc & NT) W W2 OM I1 I2 I3 SM Et IN H.
  refine (vex_core s row x (Some x2) op op type code imm8 true vls (bit_ x) ops tail (regno x) (regno x2) rc env pos its rest u
    CH RC Hr M M2 (vec_width _ V) _ (arg_width _ _ Oc NT) (arg_rm _ _ Oc) _ SM eq_refl eq_refl (vec_kv _ V) IN _ Et H).
  - constructor; auto. apply vec_width; auto.
  - intros a -> N. split; [apply (one_mask_mem ops a (OReg x))|apply (one_mask_mem ops a (OReg x2))]; auto; discriminate.
  - apply vec_bits in V. unfold veclen. cbn [fold_right ow]. lia.
Qed.

Ltac fin3 := eauto; try solve [cbn; tauto | apply same_mods_refl | apply same_mods_swap | discriminate | symmetry; now apply imm_bytes_small
  | eexists; split; [eassumption|discriminate]].
Section DirectRm.
Variables (type code : Z) (vls : list Z) (row : vrow) (c1 c2 : cls) (rc : bool) (nm : string).
Hypothesis (K1 : vcls c1 = true) (NT : c2 <> cT).
Hypothesis (CH : checkv type code row true vls = true) (RC : rc = true -> row_rc type row = true).
Hypothesis (ED : r_digit row = None).
(* what f does with a vector register and an operand, given its own checks *)
Definition reduces (g : E unit) (a : Reg) (p1 : option Reg) (o : Operand) (imm : Z) : Prop :=
  forall env pos its u, emits g env pos its u -> emits (opVex a p1 o type code imm) env pos its u /\ In (bit_ a) vls.
Definition isvec a := vec_reg a /\ min_of c1 <= bit_ a.
Lemma impl_d_ro f : r_enc row = RM -> (forall a o, isvec a -> reduces (f a o) a None o NONE) ->
  implements rc (mkEntry nm [c1; c2] (ro f) row VlRegs).
Proof.
  intros EE RD. opn. destruct y as [x1|]; try discriminate. cbn [ro] in Hf. fun_. vargs. slots EE ED. rewrite longest1 in * by lia. widths.
  apply RD in H as [H IN]; [|split; auto]. eapply vrm_core; fin3.
Qed.
Lemma impl_d_roi f : r_enc row = RMI -> (forall a o i, isvec a -> 0 <= i < 256 -> reduces (f a o i) a None o i) ->
  implements rc (mkEntry nm [c1; c2] (roi f) row VlRegs).
Proof.
  intros EE RD. opn. destruct y as [x1|]; try discriminate. cbn [roi] in Hf. fun_. vargs. slots EE ED. rewrite longest1 in * by lia. widths.
  apply RD in H as [H IN]; [|split; auto|auto]. eapply vrm_core; fin3.
Qed.
Lemma impl_d_ra f : r_enc row = RM -> (forall a o, isvec a -> reduces (f a o) a None (OMem o) NONE) ->
  implements rc (mkEntry nm [c1; cA] (ra f) row VlRegs).
Proof.
  intros EE RD. opn. destruct y as [x1|], y0 as [|x2]; try discriminate. cbn [ra] in Hf. fun_. vargs. slots EE ED. rewrite longest1 in * by lia. widths.
  apply RD in H as [H IN]; [|split; auto]. eapply (vrm_core s row x1 (OMem x2)); fin3.
Qed.
Lemma impl_d_rr f : r_enc row = RM -> (forall a o, isvec a -> reduces (f a o) a None (OReg o) NONE) ->
  implements rc (mkEntry nm [c1; c2] (rr f) row VlRegs).
Proof.
  intros EE RD. opn. destruct y as [x1|], y0 as [x2|]; try discriminate. cbn [rr] in Hf. fun_.
  assert (OC : exists c, arg_ok c (OReg x2) /\ c <> cT) by eauto. vargs. slots EE ED. rewrite longest1 in * by lia. widths.
  apply RD in H as [H IN]; [|split; auto]. eapply (vrm_core s row x1 (OReg x2)); fin3.
Qed.
Lemma impl_d_or f : r_enc row = MR -> (forall a o, isvec a -> reduces (f o a) a None o NONE) ->
  implements rc (mkEntry nm [c2; c1] (or_ f) row VlRegs).
Proof.
  intros EE RD. opn. destruct y0 as [x1|]; try discriminate. cbn [or_] in Hf. fun_.
  assert (OC : exists c, arg_ok c y /\ c <> cT) by eauto. vargs. slots EE ED. rewrite longest1 in * by lia. widths.
  apply RD in H as [H IN]; [|split; auto]. eapply vrm_core; fin3.
Qed.
Lemma impl_d_ori f : r_enc row = MRI -> (forall a o i, isvec a -> 0 <= i < 256 -> reduces (f o a i) a None o i) ->
  implements rc (mkEntry nm [c2; c1] (ori f) row VlRegs).
Proof.
  intros EE RD. opn. destruct y0 as [x1|]; try discriminate. cbn [ori] in Hf. fun_.
  assert (OC : exists c, arg_ok c y /\ c <> cT) by eauto. vargs. slots EE ED. rewrite longest1 in * by lia. widths.
  apply RD in H as [H IN]; [|split; auto|auto]. eapply vrm_core; fin3.
Qed.
Lemma impl_d_ar f : r_enc row = MR -> (forall a o, isvec a -> reduces (f o a) a None (OMem o) NONE) ->
  implements rc (mkEntry nm [cA; c1] (ar f) row VlRegs).
Proof.
  intros EE RD. opn. destruct y0 as [x1|], y as [|x2]; try discriminate. cbn [ar] in Hf. fun_. vargs. slots EE ED. rewrite longest1 in * by lia. widths.
  apply RD in H as [H IN]; [|split; auto]. eapply (vrm_core s row x1 (OMem x2)); fin3.
Qed.
End DirectRm.
Section DirectRvm.
Variables (type code : Z) (vls : list Z) (row : vrow) (c1 c2 c3 : cls) (rc : bool) (nm : string).
Hypothesis (K1 : vcls c1 = true) (K2 : vcls c2 = true) (NT : c3 <> cT).
Hypothesis (CH : checkv type code row true vls = true) (RC : rc = true -> row_rc type row = true).
Hypothesis (ED : r_digit row = None).
Definition reduces2 (g : E unit) (a b : Reg) (o : Operand) (imm : Z) : Prop :=
  reduces type code vls g a (Some b) o imm /\ forall env pos its u, emits g env pos its u -> bit_ b = bit_ a.
Lemma impl_d_rro f : r_enc row = RVM -> (forall a b o, isvec c1 a -> isvec c2 b -> reduces2 (f a b o) a b o NONE) ->
  implements rc (mkEntry nm [c1; c2; c3] (rro f) row VlRegs).
Proof.
  intros EE RD. opn. destruct y as [x1|], y0 as [x2|]; try discriminate. cbn [rro] in Hf. fun_. vargs. slots EE ED.
  destruct (RD x1 x2 y1) as [RD1 RD2]; [split; auto..|]. pose proof (RD2 _ _ _ _ H) as EB. apply RD1 in H as [H IN].
  rewrite EB in *. rewrite longest2 in * by lia. widths. eapply vrvm_core; fin3.
Qed.
Lemma impl_d_rroi f : r_enc row = RVMI -> (forall a b o i, isvec c1 a -> isvec c2 b -> 0 <= i < 256 -> reduces2 (f a b o i) a b o i) ->
  implements rc (mkEntry nm [c1; c2; c3] (rroi f) row VlRegs).
Proof.
  intros EE RD. opn. destruct y as [x1|], y0 as [x2|]; try discriminate. cbn [rroi] in Hf. fun_. vargs. slots EE ED.
  destruct (RD x1 x2 y1 imm) as [RD1 RD2]; [split; auto..|auto|]. pose proof (RD2 _ _ _ _ H) as EB. apply RD1 in H as [H IN].
  rewrite EB in *. rewrite longest2 in * by lia. widths. eapply vrvm_core; fin3.
Qed.
Lemma impl_d_rrr f : r_enc row = RVM -> (forall a b o, isvec c1 a -> isvec c2 b -> reduces2 (f a b o) a b (OReg o) NONE) ->
  implements rc (mkEntry nm [c1; c2; c3] (rrr f) row VlRegs).
Proof.
  intros EE RD. opn. destruct y as [x1|], y0 as [x2|], y1 as [x3|]; try discriminate. cbn [rrr] in Hf. fun_.
  assert (OC : exists c, arg_ok c (OReg x3) /\ c <> cT) by eauto. vargs. slots EE ED.
  destruct (RD x1 x2 x3) as [RD1 RD2]; [split; auto..|]. pose proof (RD2 _ _ _ _ H) as EB. apply RD1 in H as [H IN].
  rewrite EB in *. rewrite longest2 in * by lia. widths. eapply vrvm_core; fin3.
Qed.
End DirectRvm.

(* ---- opmask registers in ModRM.reg ---- *)
Lemma opmask_ok k : opmask_reg k -> width_ok (bit_ k) /\ isYMM k = false /\ bit_ k = 64.
Proof. intros K. destruct (opmask_width _ K) as (A & _ & B & _). destruct K as (_ & C & _). auto. Qed.
Section Mask.
Variables (type code : Z) (vls : list Z) (row : vrow) (c2 c3 : cls) (rc : bool) (nm : string).
Hypothesis (CH : checkv type code row false vls = true) (RC : rc = true -> row_rc type row = true).
Hypothesis (ED : r_digit row = None).
Lemma impl_kkk : vls = [128] -> r_enc row = RVM ->
  implements rc (mkEntry nm [cK; cK; cK] (rrr (fun a b c => opVex a (Some b) (OReg c) type code NONE)) row VlAll).
Proof.
  intros -> EE. opn. destruct y as [x1|], y0 as [x2|], y1 as [x3|]; try discriminate. cbn [rrr] in Hf. fun_. slots EE ED.
  repeat match goal with Q : arg_ok cK (OReg ?x) |- _ => pose proof (arg_width _ _ Q ltac:(discriminate)) as [? ?]; pose proof (arg_rm _ _ Q); destruct Q as [Q ?];
    destruct (opmask_ok _ Q) as (? & ? & ?); clear Q end.
  refine (vex_core s row x1 (Some x2) (OReg x3) (OReg x3) type code NONE false [128] _ _ _ _ _ rc env pos its rest u CH RC Hr _ _ _ _ _ _ _ _ eq_refl eq_refl _ _ _ eq_refl H); auto.
  - constructor; auto.
  - intros a E; discriminate.
  - apply same_mods_refl.
  - left. unfold longest. cbn [map width fold_right]. lia.
  - unfold longest, veclen. cbn [map width fold_right ow]. lia.
Qed.
Lemma impl_kk : vls = [128] -> r_enc row = RM ->
  implements rc (mkEntry nm [cK; cK] (rr (fun a c => opVex a None (OReg c) type code NONE)) row VlAll).
Proof.
  intros -> EE. opn. destruct y as [x1|], y0 as [x3|]; try discriminate. cbn [rr] in Hf. fun_. slots EE ED.
  repeat match goal with Q : arg_ok cK (OReg ?x) |- _ => pose proof (arg_width _ _ Q ltac:(discriminate)) as [? ?]; pose proof (arg_rm _ _ Q); destruct Q as [Q ?];
    destruct (opmask_ok _ Q) as (? & ? & ?); clear Q end.
  refine (vex_core s row x1 None (OReg x3) (OReg x3) type code NONE false [128] _ _ _ _ _ rc env pos its rest u CH RC Hr _ I _ (Forall_nil _) _ _ _ _ eq_refl eq_refl _ _ _ eq_refl H); auto.
  - intros a E; discriminate.
  - apply same_mods_refl.
  - left. unfold longest. cbn [map width fold_right]. lia.
Qed.
Lemma impl_kki : vls = [128] -> r_enc row = RMI ->
  implements rc (mkEntry nm [cK; cK] (rri (fun a c i => let i := w8 i in opVex a None (OReg c) type code i)) row VlAll).
Proof.
  intros -> EE. opn. destruct y as [x1|], y0 as [x3|]; try discriminate. cbn [rri] in Hf. fun_. slots EE ED. rewrite w8_small in H by auto.
  repeat match goal with Q : arg_ok cK (OReg ?x) |- _ => pose proof (arg_width _ _ Q ltac:(discriminate)) as [? ?]; pose proof (arg_rm _ _ Q); destruct Q as [Q ?];
    destruct (opmask_ok _ Q) as (? & ? & ?); clear Q end.
  refine (vex_core s row x1 None (OReg x3) (OReg x3) type code imm false [128] _ _ _ _ _ rc env pos its rest u CH RC Hr _ I _ (Forall_nil _) _ _ _ _ eq_refl eq_refl _ _ _ (eq_sym (imm_bytes_small _ Hi)) H); auto.
  - intros a E; discriminate.
  - apply same_mods_refl.
  - left. unfold longest. cbn [map width fold_right]. lia.
Qed.
(* compare into mask *)
Hypothesis (K2 : vcls c2 = true) (NT : c3 <> cT) (HV : incl (filter (fun vl => min_of c2 <=? vl) [128; 256; 512]) vls).
Lemma kvm_core s k x2 op imm8 tail env pos its rest u :
  arg_ok cK (OReg k) -> arg_ok c2 (OReg x2) -> arg_ok c3 op -> one_mask [OReg k; OReg x2; op] ->
  (rc = false -> Forall (fun o => ornd o = 0) [OReg k; OReg x2; op]) ->
  width op <= longest [bit_ k; bit_ x2] -> tail = imm_bytes imm8 ->
  emits (opVex k (Some x2) op type code imm8) env pos its u ->
  says_core row (longest [bit_ k; bit_ x2]) (regno k) (regno x2) op [OReg k; OReg x2; op] tail (render s its) rest.
Proof.
  intros Ak A2 A3 OM Hr W Et H.
  pose proof (arg_width _ _ Ak ltac:(discriminate)) as [Wk Mk]. destruct Ak as [Ak _]. destruct (opmask_ok _ Ak) as (_ & YK & BK).
  destruct (vcls_arg c2 x2 K2 A2) as (V2 & M2 & L2). pose proof (vec_bits _ V2) as B2.
  refine (vex_core s row k (Some x2) op op type code imm8 false vls _ [OReg k; OReg x2; op] tail _ _ rc env pos its rest u CH RC Hr Mk M2 Wk _
    (arg_width _ _ A3 NT) (arg_rm _ _ A3) _ (same_mods_refl _) eq_refl eq_refl YK _ _ Et H).
  - constructor; auto. apply vec_width; auto.
  - intros a -> N. split; [apply (one_mask_mem _ a (OReg k) OM)|apply (one_mask_mem _ a (OReg x2) OM)]; auto; try discriminate; cbn; tauto.
  - apply HV. apply filter_In. unfold longest. cbn [fold_right]. split; [cbn; lia|lia].
  - unfold longest, veclen in *. cbn [fold_right ow] in *. lia.
Qed.
Lemma impl_kxo f : r_enc row = RVM ->
  (forall k x o env pos its u, emits (f k x o) env pos its u -> emits (opVex k (Some x) o type code NONE) env pos its u) ->
  implements rc (mkEntry nm [cK; c2; c3] (rro f) row VlRegs).
Proof.
  intros EE RD. opn. destruct y as [x1|], y0 as [x2|]; try discriminate. cbn [rro] in Hf. fun_. apply RD in H. slots EE ED. widths.
  apply (kvm_core s x1 x2 y1 NONE []) with (env := env) (pos := pos) (u := u); auto.
Qed.
Lemma impl_kxoi f : r_enc row = RVMI ->
  (forall k x o i env pos its u, 0 <= i < 256 -> emits (f k x o i) env pos its u -> emits (opVex k (Some x) o type code i) env pos its u) ->
  implements rc (mkEntry nm [cK; c2; c3] (rroi f) row VlRegs).
Proof.
  intros EE RD. opn. destruct y as [x1|], y0 as [x2|]; try discriminate. cbn [rroi] in Hf. fun_. apply RD in H; auto. slots EE ED. widths.
  apply (kvm_core s x1 x2 y1 imm [imm]) with (env := env) (pos := pos) (u := u); auto. symmetry. now apply imm_bytes_small.
Qed.
Lemma impl_kx : r_enc row = RM ->
  implements rc (mkEntry nm [cK; c2] (rr (fun a c => opVex a None (OReg c) type code NONE)) row VlAll).
Proof.
  intros EE. opn. destruct y as [k|], y0 as [x2|]; try discriminate. cbn [rr] in Hf. fun_. slots EE ED. widths.
  match goal with Q : arg_ok cK _ |- _ => pose proof (arg_width _ _ Q ltac:(discriminate)) as [Wk Mk]; destruct Q as [Ak _] end.
  destruct (opmask_ok _ Ak) as (_ & YK & BK).
  match goal with Q : arg_ok c2 _ |- _ => pose proof (arg_rm _ _ Q) as RK; destruct (vcls_arg c2 x2 K2 Q) as (V2 & M2 & L2) end. pose proof (vec_bits _ V2) as B2.
  refine (vex_core s row k None (OReg x2) (OReg x2) type code NONE false vls _ [OReg k; OReg x2] [] _ _ rc env pos its rest u CH RC Hr Mk I Wk (Forall_nil _)
    (conj (vec_width _ V2) M2) RK _ (same_mods_refl _) eq_refl eq_refl YK _ _ eq_refl H).
  - intros a E; discriminate.
  - apply HV. apply filter_In. unfold longest. cbn [map width fold_right]. split; [cbn; lia|lia].
  - unfold longest, veclen in *. cbn [fold_right ow map width] in *. lia.
Qed.
End Mask.
