(* The remaining families: methods that guard opAVX_X_X_XM, conversions, choices of encoding, general
   registers written as vector registers, AMX. *)
From Coq Require Import ZArith List Bool String Lia.
From Verif Require Import Base Types Emit Encode SpecX86 SpecAddr SpecIsa SpecInsn Wf EmitFacts BitFacts MemFacts LegacyFacts VexFacts EncThms IsaFacts VexShapes VexShapes2 VexTac.
Import ListNotations.
Open Scope Z_scope.

(* ---- restrictions and choices ---- *)
Section Below.
Variables (rc : bool) (nm : string) (sg : list cls) (row : vrow) (vl : vlrule).
Definition le1 (f g : E unit) : Prop := forall env pos its u, emits f env pos its u -> emits g env pos its u.
Lemma below_rro f g : (forall a b o, le1 (f a b o) (g a b o)) ->
  implements rc (mkEntry nm sg (rro g) row vl) -> implements rc (mkEntry nm sg (rro f) row vl).
Proof.
  intros L. apply impl_below. intros ops imm act H. unfold rro in *.
  destruct ops as [|[a|] [|[b|] [|o [|]]]]; try discriminate. apply some_inj in H as ->. eexists; split; [reflexivity|]. apply L.
Qed.
Lemma below_roo f g : (forall a b o, le1 (f a b o) (g a b o)) ->
  implements rc (mkEntry nm sg (roo g) row vl) -> implements rc (mkEntry nm sg (roo f) row vl).
Proof.
  intros L. apply impl_below. intros ops imm act H. unfold roo in *.
  destruct ops as [|[a|] [|b [|o [|]]]]; try discriminate. apply some_inj in H as ->. eexists; split; [reflexivity|]. apply L.
Qed.
Lemma below_ro f g : (forall a o, le1 (f a o) (g a o)) ->
  implements rc (mkEntry nm sg (ro g) row vl) -> implements rc (mkEntry nm sg (ro f) row vl).
Proof.
  intros L. apply impl_below. intros ops imm act H. unfold ro in *.
  destruct ops as [|[a|] [|o [|]]]; try discriminate. apply some_inj in H as ->. eexists; split; [reflexivity|]. apply L.
Qed.
(* one of two *)
Definition le2 (f g h : E unit) : Prop := forall env pos its u, emits f env pos its u -> emits g env pos its u \/ emits h env pos its u.
Lemma either_rro f g h : (forall a b o, le2 (f a b o) (g a b o) (h a b o)) ->
  implements rc (mkEntry nm sg (rro g) row vl) -> implements rc (mkEntry nm sg (rro h) row vl) -> implements rc (mkEntry nm sg (rro f) row vl).
Proof.
  intros L G H s ops imm act env pos its rest u Hf Ha Hm Hw Hr Hi E. unfold en_fun, rro in Hf.
  destruct ops as [|[a|] [|[b|] [|o [|]]]]; try discriminate. apply some_inj in Hf as ->.
  apply L in E as [E|E]; [eapply G|eapply H]; eauto; reflexivity.
Qed.
Lemma either_rroi f g h : (forall a b o i, le2 (f a b o i) (g a b o i) (h a b o i)) ->
  implements rc (mkEntry nm sg (rroi g) row vl) -> implements rc (mkEntry nm sg (rroi h) row vl) -> implements rc (mkEntry nm sg (rroi f) row vl).
Proof.
  intros L G H s ops imm act env pos its rest u Hf Ha Hm Hw Hr Hi E. unfold en_fun, rroi in Hf.
  destruct ops as [|[a|] [|[b|] [|o [|]]]]; try discriminate. apply some_inj in Hf as ->.
  apply L in E as [E|E]; [eapply G|eapply H]; eauto; reflexivity.
Qed.
Lemma either_ro f g h : (forall a o, le2 (f a o) (g a o) (h a o)) ->
  implements rc (mkEntry nm sg (ro g) row vl) -> implements rc (mkEntry nm sg (ro h) row vl) -> implements rc (mkEntry nm sg (ro f) row vl).
Proof.
  intros L G H s ops imm act env pos its rest u Hf Ha Hm Hw Hr Hi E. unfold en_fun, ro in Hf.
  destruct ops as [|[a|] [|o [|]]]; try discriminate. apply some_inj in Hf as ->.
  apply L in E as [E|E]; [eapply G|eapply H]; eauto; reflexivity.
Qed.
End Below.

Lemma orEvexIf_nil enc a b sel env pos its t : emits (orEvexIf enc a b sel) env pos its t -> its = [] /\ (t = a \/ t = T_MUST_EVEX ||| b).
Proof.
  unfold orEvexIf, getEncoding. intros H.
  apply emits_bind in H as (i1 & i2 & e & H1 & H2 & ->). apply emits_ret in H2 as [-> ->].
  split; [|destruct (_ || _); auto].
  apply emits_fn in H1. apply emits_bind in H1 as (j1 & j2 & e' & H1 & H2 & ->). apply emits_ask in H1 as [-> ->].
  cbv zeta in H2. match type of H2 with emits (if ?c then _ else _) _ _ _ _ => destruct c; [einv H2|] end.
  apply emits_ret in H2 as [-> _]. reflexivity.
Qed.
Lemma opEncoding_le2 x1 x2 op type code enc imm tv te sel :
  le2 (opEncoding x1 x2 op type code enc imm tv te sel)
      (opAVX_X_X_XM x1 (OReg x2) op (type ||| tv) code imm) (opAVX_X_X_XM x1 (OReg x2) op (type ||| (T_MUST_EVEX ||| te)) code imm).
Proof.
  intros env pos its u H. unfold opEncoding in H. apply seq_nil in H; [|intros i a Q; now apply orEvexIf_nil in Q].
  destruct H as (t & Q & H). apply orEvexIf_nil in Q as [_ [-> | ->]]; auto.
Qed.
Section Encoding.
Variables (type code tv te sel : Z) (row : vrow) (c1 c2 c3 : cls) (rc : bool) (nm : string) (enc : PreferredEncoding).
Let tya := type ||| tv. Let tyb := type ||| (T_MUST_EVEX ||| te).
Hypothesis (K1 : vcls c1 = true) (K2 : vcls c2 = true) (NT : c3 <> cT).
Hypothesis (CHa : check tya code row true (avx_lens tya (min_of c1)) = true) (RCa : rc = true -> row_rc tya row = true).
Hypothesis (CHb : check tyb code row true (avx_lens tyb (min_of c1)) = true) (RCb : rc = true -> row_rc tyb row = true).
Hypothesis (ED : r_digit row = None).
Lemma impl_enc : r_enc row = RVM ->
  implements rc (mkEntry nm [c1; c2; c3] (rro (fun a b o => opEncoding a b o type code enc NONE tv te sel)) row VlRegs).
Proof.
  intros EE. eapply either_rro; [intros a b o; apply opEncoding_le2| |]; apply impl_rvm; auto.
Qed.
Lemma impl_enci : r_enc row = RVMI ->
  implements rc (mkEntry nm [c1; c2; c3] (rroi (fun a b o i => let i := w8 i in opEncoding a b o type code enc i tv te sel)) row VlRegs).
Proof.
  intros EE. eapply either_rroi; [intros a b o i; apply opEncoding_le2| |]; apply impl_rvmi; auto.
Qed.
End Encoding.

(* ---- digit in ModRM.reg, memory ---- *)
Lemma Xmm_bare d : 0 <= d < 32 -> vec_reg (Xmm d) /\ bare (Xmm d) /\ regno (Xmm d) = d /\ bit_ (Xmm d) = 128.
Proof.
  intros D. unfold Xmm, regOf, vec_reg, bare, regno. cbn [kind_ bit_ idx_ mask_ rounding_ zero_]. rewrite Z.lor_0_r, (Z.mod_small d 64) by lia.
  repeat split; auto; try lia. apply Z.mod_small; lia.
Qed.

Lemma Ymm_bare d : 0 <= d < 32 -> vec_reg (Ymm d) /\ bare (Ymm d) /\ regno (Ymm d) = d /\ bit_ (Ymm d) = 256.
Proof.
  intros D. unfold Ymm, regOf, vec_reg, bare, regno. cbn [kind_ bit_ idx_ mask_ rounding_ zero_]. rewrite Z.lor_0_r, (Z.mod_small d 64) by lia.
  repeat split; auto; try lia. apply Z.mod_small; lia.
Qed.
Lemma getIdx_regno r : getIdx r = regno r.
Proof. unfold getIdx, regno. change 31 with (Z.ones 5). now rewrite Z.land_ones. Qed.
Lemma regno_range r : 0 <= regno r < 32.
Proof. unfold regno. apply Z.mod_pos_bound; lia. Qed.
Lemma bare_mods_nil l : Forall (fun o => match o with OReg r => bare r | _ => False end) l -> forall l', same_mods (l ++ l') l'.
Proof.
  intros HB; induction HB as [|o l B _ IH]; intros l'; [apply same_mods_refl|]. destruct o as [r|]; [|contradiction].
  cbn [app]. eapply same_mods_trans; [apply bare_in_mods, B|apply IH].
Qed.
Lemma same_mods_sym a b : same_mods a b -> same_mods b a.
Proof. intros [M R Z]. split; [intros; symmetry; auto..|auto]. Qed.
(* lists of operands without modifiers are interchangeable *)
Lemma bare_same l l' : Forall (fun o => omask o = 0 /\ ornd o = 0 /\ ozero o = false) l -> Forall (fun o => omask o = 0 /\ ornd o = 0 /\ ozero o = false) l' -> same_mods l l'.
Proof.
  assert (K : forall l, Forall (fun o => omask o = 0 /\ ornd o = 0 /\ ozero o = false) l -> same_mods l []).
  { intros l0; induction 1 as [|o l1 (M & R & Z) _ [IM IR IZ]]; [apply same_mods_refl|]. split.
    - intros m N. cbn [map In]. rewrite M. rewrite (IM m N). split; [intros [E|E]; [congruence|auto]|auto].
    - intros m N. cbn [map In]. rewrite R. rewrite (IR m N). split; [intros [E|E]; [congruence|auto]|auto].
    - cbn [existsb]. now rewrite Z, IZ. }
  intros A B. eapply same_mods_trans; [apply K, A|]. apply same_mods_sym, K, B.
Qed.
Lemma bare_o r : bare r -> omask (OReg r) = 0 /\ ornd (OReg r) = 0 /\ ozero (OReg r) = false.
Proof. intros (A & B & C). auto. Qed.

(* opAVX_X_X_XM with an operand standing for another *)
Lemma avx3_core' s row x1 x2 op op' type code imm8 min reg v ops env pos its rest u :
  check type code row true (avx_lens type min) = true ->
  (row_rc type row = true \/ Forall (fun o => ornd o = 0) ops) ->
  vec_reg x1 -> mods_ok x1 -> vec_reg x2 -> mods_ok x2 -> min <= bit_ x1 ->
  match op' with OReg b => width_ok (bit_ b) /\ mods_ok b | OMem a => mem_ok a end -> rm_kind op op' -> isNone (ob op') = false ->
  width op' <= Z.max (bit_ x1) (bit_ x2) ->
  (forall a, op' = OMem a -> mask_ (a_op a) <> 0 -> mask_ x1 = 0 /\ mask_ x2 = 0) ->
  same_mods [OReg x1; OReg x2; op'] ops -> regno x1 = reg -> regno x2 = v ->
  emits (opAVX_X_X_XM x1 (OReg x2) op' type code imm8) env pos its u ->
  bit_ x1 = bit_ x2 /\ In (bit_ x1) (avx_lens type min) /\ says_core row (bit_ x1) reg v op ops (imm_bytes imm8) (render s its) rest.
Proof.
  intros CH RC V1 M1 V2 M2 MN OK Kd NN W MM SM E1 E2 H.
  apply avx3_inv in H as (H & EB & IN); auto. split; auto. split; auto.
  unfold check in CH. apply andb_prop in CH as [RM LN].
  unfold lens_ok in LN. rewrite forallb_forall in LN. specialize (LN _ (IN min MN)).
  destruct (vec_kinds _ V1) as (_ & Y1 & Z1 & _).
  refine (core_says s row x1 (Some x2) op op' type code imm8 (bit_ x1) reg v ops env pos its rest u RM RC M1 M2 (vec_width _ V1) _
    OK Kd MM _ SM E1 E2 _ (len_ok_vex _ _ true _ _ LN (conj Y1 Z1)) (len_ok_evex _ _ _ _ LN) H).
  - constructor; auto. apply vec_width; auto.
  - intros _. apply vec_bits in V1. lia.
  - apply vec_bits in V1. unfold veclen. cbn [fold_right ow]. lia.
Qed.

Lemma impl_md type code row nm rc d :
  check type code row true (avx_lens type 128) = true -> (rc = true -> row_rc type row = true) ->
  r_digit row = Some d -> r_enc row = M_ -> 0 <= d < 8 -> has type T_YMM = false ->
  implements rc (mkEntry nm [cA] (a1 (fun m => opAVX_X_X_XM (Xmm d) (OReg (Xmm 0)) (OMem m) type code NONE)) row VlRegs).
Proof.
  intros CH RC ED EE D NY. opn. destruct y as [|m]; try discriminate. cbn [a1] in Hf. fun_.
  destruct (Xmm_bare d ltac:(lia)) as (V1 & B1 & R1 & W1), (Xmm_bare 0 ltac:(lia)) as (V0 & B0 & R0 & W0).
  slots EE ED. change (longest [0; 0]) with 128.
  match goal with Q : arg_ok cA _ |- _ => pose proof (arg_width _ _ Q ltac:(discriminate)) as MO; pose proof (arg_rm _ _ Q) as RK; pose proof (arg_some _ _ Q) as NN end.
  destruct (avx3_core' s row (Xmm d) (Xmm 0) (OMem m) (OMem m) type code NONE 128 d 0 [OMem m] env pos its rest u) as (_ & _ & S); auto.
  - now apply bare_mods.
  - now apply bare_mods.
  - lia.
  - cbn [width]. lia.
  - apply (bare_mods_nil [OReg (Xmm d); OReg (Xmm 0)]). auto.
Qed.

(* ---- general registers encoded as vector registers ---- *)
Section Gpr.
Variables (type code : Z) (row : vrow) (c1 c2 : cls) (rc : bool) (nm : string).
Hypothesis (RC : rc = true -> row_rc type row = true) (ED : r_digit row = None).
(* vmovmskps, vmovmskpd *)
Lemma impl_movmsk f : check type code row true (avx_lens type 128) = true -> r_enc row = RM ->
  (forall a o, le1 (f a o) (opAVX_X_X_XM (if isXMM o then Xmm (getIdx a) else Ymm (getIdx a)) (OReg (cvtIdx0 (OReg o))) (OReg o) type code NONE)) ->
  implements rc (mkEntry nm [cRe; cX] (rr f) row VlAll).
Proof.
  intros CH EE L. opn. destruct y as [r|], y0 as [x|]; try discriminate. cbn [rr] in Hf. fun_. apply L in H. slots EE ED.
  match goal with Q : arg_ok cRe _ |- _ => destruct Q as (GR & BR & WR) end.
  match goal with Q : arg_ok cX _ |- _ => pose proof (arg_rm _ _ Q) as RK; pose proof (arg_some _ _ Q) as NN; pose proof (arg_width _ _ Q ltac:(discriminate)) as OK; destruct Q as (V & M) end.
  destruct (cvtIdx0_ok x V) as (V2 & W2 & R2 & B2). pose proof (vec_bits _ V) as BX. destruct (vec_kinds _ V) as (KX & _).
  set (x1 := if isXMM x then Xmm (getIdx r) else Ymm (getIdx r)) in *.
  assert (X1 : vec_reg x1 /\ bare x1 /\ regno x1 = regno r).
  { unfold x1. rewrite getIdx_regno. pose proof (regno_range r). destruct (isXMM x).
    - destruct (Xmm_bare (regno r) ltac:(lia)) as (? & ? & ? & ?); auto.
    - destruct (Ymm_bare (regno r) ltac:(lia)) as (? & ? & ? & ?); auto. }
  destruct X1 as (V1 & B1 & R1). pose proof (vec_bits _ V1) as BX1.
  destruct (avx3_core' s row x1 (cvtIdx0 (OReg x)) (OReg x) (OReg x) type code NONE 128 (regno r) 0 [OReg r; OReg x] env pos its rest u) as (EB & _ & S); auto.
  - rcs.
  - now apply bare_mods.
  - now apply bare_mods.
  - lia.
  - cbn [width]. lia.
  - intros a E; discriminate.
  - eapply same_mods_trans; [apply bare_in_mods, B1|]. eapply same_mods_trans; [apply bare_in_mods, B2|]. apply same_mods_sym, bare_in_mods, BR.
  - unfold longest. cbn [map width fold_right]. replace (Z.max (bit_ r) (Z.max (bit_ x) 128)) with (bit_ x1) by lia. exact S.
Qed.
(* vpmovmskb *)
Lemma impl_movmskb f : checkv type code row true [128; 256] = true -> r_enc row = RM ->
  (forall a o, vec_reg o -> le1 (f a o) (opVex (if isYMM o then Ymm (getIdx a) else Xmm (getIdx a)) None (OReg o) type code NONE) /\
     forall env pos its u, emits (f a o) env pos its u -> bit_ o <= 256) ->
  implements rc (mkEntry nm [cRe; cX] (rr f) row VlAll).
Proof.
  intros CH EE L. opn. destruct y as [r|], y0 as [x|]; try discriminate. cbn [rr] in Hf. fun_. slots EE ED.
  match goal with Q : arg_ok cRe _ |- _ => destruct Q as (GR & BR & WR) end.
  match goal with Q : arg_ok cX _ |- _ => pose proof (arg_rm _ _ Q) as RK; pose proof (arg_some _ _ Q) as NN; pose proof (arg_width _ _ Q ltac:(discriminate)) as OK; destruct Q as (V & M) end.
  destruct (L r x V) as [L1 L2]. pose proof (L2 _ _ _ _ H) as LE. apply L1 in H.
  pose proof (vec_bits _ V) as BX. destruct (vec_kinds _ V) as (_ & KX & _).
  set (x1 := if isYMM x then Ymm (getIdx r) else Xmm (getIdx r)) in *.
  assert (X1 : vec_reg x1 /\ bare x1 /\ regno x1 = regno r /\ bit_ x1 = bit_ x).
  { unfold x1. rewrite getIdx_regno. pose proof (regno_range r). rewrite KX. destruct (Z.eqb_spec (bit_ x) 256).
    - destruct (Ymm_bare (regno r) ltac:(lia)) as (? & ? & ? & ?); repeat split; auto; try apply H1; try apply H3; try lia.
    - destruct (Xmm_bare (regno r) ltac:(lia)) as (? & ? & ? & ?); repeat split; auto; try apply H1; try apply H3; try lia. }
  destruct X1 as (V1 & B1 & R1 & W1). unfold longest. cbn [map width fold_right].
  replace (Z.max (bit_ r) (Z.max (bit_ x) 128)) with (bit_ x1) by lia.
  refine (vex_core s row x1 None (OReg x) (OReg x) type code NONE true [128; 256] _ _ [] _ _ rc env pos its rest u CH RC Hr (bare_mods _ B1) I (vec_width _ V1) (Forall_nil _) OK RK _ _ R1 eq_refl (vec_kv _ V1) _ _ eq_refl H).
  - intros a E; discriminate.
  - eapply same_mods_trans; [apply bare_in_mods, B1|]. apply same_mods_sym, bare_in_mods, BR.
  - cbn. lia.
  - unfold veclen. cbn [fold_right ow width]. lia.
Qed.
(* vmovq with a general register in ModRM.rm *)
Lemma movq_core s x q env pos its rest u : check type code row true (avx_lens type 128) = true ->
  arg_ok cX (OReg x) -> arg_ok (cG 64) (OReg q) -> (rc = false -> Forall (fun o => ornd o = 0) [OReg x; OReg q]) ->
  emits (opAVX_X_X_XM x (OReg (Xmm 0)) (OReg (Xmm (getIdx q))) type code NONE) env pos its u ->
  bit_ x = 128 /\ says_core row 128 (regno x) 0 (OReg q) [OReg x; OReg q] [] (render s its) rest.
Proof.
  intros CH (V & M) (GQ & BQ & WQ & NQ) Hr H. destruct (Xmm_bare 0 ltac:(lia)) as (V0 & B0 & R0 & W0).
  pose proof (regno_range q). rewrite getIdx_regno in H. destruct (Xmm_bare (regno q) ltac:(lia)) as (V1 & B1 & R1 & W1).
  pose proof (vec_bits _ V).
  destruct (avx3_core' s row x (Xmm 0) (OReg q) (OReg (Xmm (regno q))) type code NONE 128 (regno x) 0 [OReg x; OReg q] env pos its rest u) as (EB & _ & S); auto.
  - rcs.
  - now apply bare_mods.
  - lia.
  - split; [now apply vec_width|now apply bare_mods].
  - right. rewrite R1. auto.
  - cbn [width]. lia.
  - intros a E; discriminate.
  - apply same_mods_cons. eapply same_mods_trans; [apply bare_in_mods, B0|]. apply bare_same; repeat constructor; try apply B1; apply BQ.
  - split; [lia|]. replace 128 with (bit_ x) by lia. exact S.
Qed.
Lemma impl_movq_rm : check type code row true (avx_lens type 128) = true -> r_enc row = RM ->
  implements rc (mkEntry nm [cX; cG 64] (rr (fun a b => opAVX_X_X_XM a (OReg (Xmm 0)) (OReg (Xmm (getIdx b))) type code NONE)) row VlAll).
Proof.
  intros CH EE. opn. destruct y as [x|], y0 as [q|]; try discriminate. cbn [rr] in Hf. fun_. slots EE ED.
  destruct (movq_core s x q env pos its rest u) as [E S]; auto.
  match goal with Q : arg_ok (cG 64) _ |- _ => destruct Q as (_ & _ & WQ & _) end.
  unfold longest. cbn [map width fold_right]. rewrite E, WQ. exact S.
Qed.
Lemma impl_movq_mr : check type code row true (avx_lens type 128) = true -> r_enc row = MR ->
  implements rc (mkEntry nm [cG 64; cX] (rr (fun b a => opAVX_X_X_XM a (OReg (Xmm 0)) (OReg (Xmm (getIdx b))) type code NONE)) row VlAll).
Proof.
  intros CH EE. opn. destruct y as [q|], y0 as [x|]; try discriminate. cbn [rr] in Hf. fun_. slots EE ED.
  destruct (movq_core s x q env pos its rest u) as [E S]; auto.
  { intros R. apply Hr in R. inversion R as [|? ? ? R']; subst. inversion R'; subst. auto. }
  match goal with Q : arg_ok (cG 64) _ |- _ => destruct Q as (_ & _ & WQ & _) end.
  unfold longest. cbn [map width fold_right]. rewrite E, WQ. apply (says_core_mods _ _ _ _ _ _ _ _ _ _ (same_mods_swap (OReg x) (OReg q) [])). exact S.
Qed.
End Gpr.

(* ---- conversions whose length is not that of the destination ---- *)
Lemma setKind_ok x k : vec_reg x -> k = XMM \/ k = YMM \/ k = ZMM ->
  let y := setKind x k in vec_reg y /\ regno y = regno x /\ mask_ y = mask_ x /\ rounding_ y = rounding_ x /\ zero_ y = zero_ x
  /\ bit_ y = (if k =? XMM then 128 else if k =? YMM then 256 else 512).
Proof.
  intros [_ I] [-> | [-> | ->]]; unfold setKind; cbn; unfold vec_reg, regno; cbn; repeat split; auto; lia.
Qed.
Lemma same_mods_like x y l : mask_ y = mask_ x -> rounding_ y = rounding_ x -> zero_ y = zero_ x -> same_mods (OReg y :: l) (OReg x :: l).
Proof. intros A B C. split; cbn [map omask ornd existsb ozero]; rewrite ?A, ?B, ?C; tauto. Qed.
Lemma mem_kinds a : mem_ok a -> isMEM (OMem a) = true /\ isXMM (a_op a) = false /\ is_ (a_op a) (XMM ||| YMM ||| MEM) 0 = true /\ is_ (a_op a) (ZMM ||| MEM) 0 = true.
Proof. intros [W _ _ _ _ _ _]. pose proof (wm_kind _ W) as K. unfold isMEM, isXMM, is_. cbn. rewrite K. repeat split; reflexivity. Qed.

Section Cvt.
Variables (type code : Z) (row : vrow) (rc : bool) (nm : string).
Hypothesis (CH : checkv type code row true [128; 256; 512] = true) (RC : rc = true -> row_rc type row = true) (ED : r_digit row = None).
Lemma cvt_core s x op k env pos its rest u :
  arg_ok cX (OReg x) -> arg_ok cO op -> one_mask [OReg x; op] -> (rc = false -> Forall (fun o => ornd o = 0) [OReg x; op]) ->
  k = XMM \/ k = YMM \/ k = ZMM -> width op <= bit_ (setKind x k) ->
  emits (opVex (setKind x k) (Some (Xmm 0)) op type code NONE) env pos its u ->
  says_core row (bit_ (setKind x k)) (regno x) 0 op [OReg x; op] [] (render s its) rest.
Proof.
  intros (V & M) A OM Hr K W H. destruct (setKind_ok x k V K) as (V' & R' & M' & N' & Z' & B'). set (x' := setKind x k) in *.
  destruct (Xmm_bare 0 ltac:(lia)) as (V0 & B0 & R0 & W0). pose proof (vec_bits _ V') as BB.
  assert (M1 : mods_ok x') by (unfold mods_ok in *; rewrite M', N'; auto).
  refine (vex_core s row x' (Some (Xmm 0)) op op type code NONE true [128; 256; 512] _ _ [] _ _ rc env pos its rest u CH RC Hr
    M1 (bare_mods _ B0) (vec_width _ V') _ (arg_width _ _ A ltac:(discriminate)) (arg_rm _ _ A) _ _ R' R0 (vec_kv _ V') _ _ eq_refl H).
  - constructor; auto. now apply vec_width.
  - intros a -> N. split; [|apply B0]. rewrite M'. apply (one_mask_mem _ a (OReg x) OM); cbn; auto. discriminate.
  - eapply same_mods_trans; [|apply same_mods_like with (y := x'); auto]. apply same_mods_cons. apply (bare_in_mods _ [op] B0).
  - cbn. lia.
  - unfold veclen. cbn [fold_right ow]. rewrite W0. lia.
Qed.
(* opCvt after a check that leaves xmm from 128 or 256 bits, ymm from 512 bits *)
Definition narrows (x : Reg) (op : Operand) : Prop := isXMM x = true /\ width op <= 256 \/ isYMM x = true.
Lemma checkCvt2_narrows x op env pos its u : vec_reg x -> arg_ok cO op -> emits (checkCvt2 x op) env pos its u -> its = [] /\ narrows x op.
Proof.
  intros V A H. unfold checkCvt2 in H. apply emits_fn in H.
  match type of H with emits (if ?c then _ else _) _ _ _ _ => destruct c eqn:C; [einv H|] end. apply emits_ret in H as [-> _]. split; auto.
  apply andb_false_iff in C. rewrite !negb_false_iff in C. unfold narrows.
  destruct C as [C|C]; apply andb_prop in C as [C1 C2]; auto. left. split; auto. destruct op as [r|a]; cbn [width]; [|lia].
  destruct A as [[A _]|[A _]].
  - destruct A as [[[A B]|[[A B]|[A B]]] _]; rewrite B; try lia. cbn in C2. unfold is_ in C2. rewrite A in C2. discriminate.
  - destruct A as [_ [[[A|[A|[A|A]]] _]|[A _]]]; rewrite A; lia.
Qed.
Lemma checkCvt4_narrows x op env pos its u : vec_reg x -> arg_ok cO op -> emits (checkCvt4 x op) env pos its u -> its = [] /\ narrows x op.
Proof.
  intros V A H. unfold checkCvt4 in H. apply emits_fn in H.
  match type of H with emits (if ?c then _ else _) _ _ _ _ => destruct c eqn:C; [einv H|] end. apply emits_ret in H as [-> _]. split; auto.
  apply andb_false_iff in C. rewrite !negb_false_iff in C. unfold narrows.
  destruct C as [C|C]; apply andb_prop in C as [C1 C2]; auto. apply andb_prop in C1 as [C0 C1]. left. split; auto. destruct op as [r|a]; cbn [width]; [|lia].
  destruct A as [[A _]|[A _]].
  - destruct A as [[[A B]|[[A B]|[A B]]] _]; rewrite B; try lia. cbn in C1. unfold is_ in C1. rewrite A in C1. discriminate.
  - destruct A as [_ [[[A|[A|[A|A]]] _]|[A _]]]; rewrite A; lia.
Qed.
Lemma arg_bits op : arg_ok cO op -> (exists a, op = OMem a) \/ bit_ (ob op) = width op /\ (width op = 8 \/ width op = 16 \/ width op = 32 \/ width op = 64 \/ width op = 128 \/ width op = 256 \/ width op = 512).
Proof.
  destruct op as [r|a]; [|eauto]. intros [[A _]|[A _]]; right; cbn [ob width]; (split; [reflexivity|]).
  - apply vec_bits in A. tauto.
  - destruct A as [_ [[A _]|[A _]]]; tauto.
Qed.
Hypothesis (EE : r_enc row = RM).
Lemma narrow_kind x op : vec_reg x -> arg_ok cO op -> narrows x op ->
  let k := if isXMM x then (if oBit op 256 then YMM else XMM) else ZMM in
  (k = XMM \/ k = YMM \/ k = ZMM) /\ bit_ (setKind x k) = vl_of VlHalf row [OReg x; op].
Proof.
  intros V A N k. assert (K : k = XMM \/ k = YMM \/ k = ZMM) by (unfold k; destruct (isXMM x); [destruct (oBit op 256)|]; auto).
  split; auto. destruct (setKind_ok x k V K) as (_ & _ & _ & _ & _ & B). rewrite B. cbn [vl_of width]. unfold size_of.
  assert (HB : isXMM x = true -> oBit op 256 = (bit_ (ob op) =? 256)).
  { intros X. unfold oBit, isBit. destruct op as [r|a].
    - destruct (arg_bits _ A) as [(a & E)|[E D]]; [discriminate|]. rewrite E. destruct D as [-> |[-> |[-> |[-> |[-> |[-> | ->]]]]]]; reflexivity.
    - destruct A as [_ _ _ _ _ _ S]. cbn [ob]. cbn [In] in S. destruct S as [<-|[<-|[<-|[<-|[<-|[<-|[<-|[<-|[]]]]]]]]]; reflexivity. }
  destruct N as [[X _]|Y].
  - unfold k. rewrite X, HB by auto. destruct (vec_kinds _ V) as (X' & _). rewrite X in X'. symmetry in X'. apply Z.eqb_eq in X'. rewrite X'. cbn.
    destruct (bit_ (ob op) =? 256); reflexivity.
  - destruct (vec_kinds _ V) as (X' & Y' & _). rewrite Y in Y'. symmetry in Y'. apply Z.eqb_eq in Y'. unfold k. rewrite X', Y'. reflexivity.
Qed.
Lemma impl_cvt (chk : Reg -> Operand -> E unit) (f : Reg -> Operand -> E unit) : (forall x op env pos its u, vec_reg x -> arg_ok cO op -> emits (chk x op) env pos its u -> its = [] /\ narrows x op) ->
  (forall x op, le1 (f x op) (bind (chk x op) (fun _ => opCvt x op type code))) ->
  implements rc (mkEntry nm [cX; cO] (ro f) row VlHalf).
Proof.
  intros HC L. opn. destruct y as [x|]; try discriminate. cbn [ro] in Hf. fun_. apply L in H. unfold says. rewrite EE, ED. cbn [at_slot RM slot_eqb slot_reg existsb orb].
  match goal with Q : arg_ok cX _ |- _ => pose proof Q as AX; destruct Q as (V & M) end.
  match goal with Q : arg_ok cO _ |- _ => rename Q into A end.
  apply seq_nil in H; [|intros; eapply HC; eauto]. destruct H as (? & Q & H). apply HC in Q as [_ N]; auto.
  destruct (narrow_kind x y0 V A N) as [K B]. unfold opCvt in H. rewrite <- B in *. apply cvt_core with (env := env) (pos := pos) (u := u); auto.
  widths. lia.
Qed.
Lemma impl_cvt2 : implements rc (mkEntry nm [cX; cO] (ro (fun x op => opCvt2 x op type code)) row VlHalf).
Proof. apply impl_cvt with (chk := checkCvt2); [apply checkCvt2_narrows|]. intros x op env pos its u H. exact H. Qed.
Lemma impl_cvt4 : implements rc (mkEntry nm [cX; cO] (ro (fun x op => checkCvt4 x op ;;; opCvt x op type code)) row VlHalf).
Proof. apply impl_cvt with (chk := checkCvt4); [apply checkCvt4_narrows|]. intros x op env pos its u H. exact H. Qed.
(* any length into xmm *)
Lemma impl_cvt5 : implements rc (mkEntry nm [cX; cO] (ro (fun x op => opCvt5 x op type code)) row VlMem).
Proof.
  opn. destruct y as [x|]; try discriminate. cbn [ro] in Hf. fun_. unfold says. rewrite EE, ED. cbn [at_slot RM slot_eqb slot_reg existsb orb].
  match goal with Q : arg_ok cX _ |- _ => pose proof Q as AX; destruct Q as (V & M) end.
  match goal with Q : arg_ok cO _ |- _ => rename Q into A end.
  unfold opCvt5 in H. apply emits_fn in H.
  match type of H with emits (if negb ?c then _ else _) _ _ _ _ => destruct c eqn:C; cbn [negb] in H; [|einv H] end.
  apply andb_prop in C as [C1 C2]. destruct (vec_kinds _ V) as (X' & _). rewrite C1 in X'. symmetry in X'. apply Z.eqb_eq in X'.
  assert (SZ : bit_ (ob y0) = 128 \/ bit_ (ob y0) = 256 \/ bit_ (ob y0) = 512).
  { unfold oBit, isBit in C2. destruct y0 as [r|a].
    - destruct (arg_bits _ A) as [(a & E)|[E D]]; [discriminate|]. rewrite E in *.
      destruct D as [D|[D|[D|[D|D]]]]; auto; rewrite D in C2; discriminate C2.
    - destruct A as [_ _ _ _ _ _ S]. cbn [ob] in *. cbn [In] in S.
      destruct S as [S|[S|[S|[S|[S|[S|[S|[S|[]]]]]]]]]; rewrite <- S in *; auto; discriminate C2. }
  set (k := if oBit y0 128 then XMM else if oBit y0 256 then YMM else ZMM) in *. cbv zeta in H. fold k in H.
  assert (K : (k = XMM \/ k = YMM \/ k = ZMM) /\ (if k =? XMM then 128 else if k =? YMM then 256 else 512) = bit_ (ob y0)).
  { unfold k, oBit, isBit. destruct SZ as [-> | [-> | ->]]; cbn; auto. }
  destruct K as [K KB]. destruct (setKind_ok x k V K) as (_ & _ & _ & _ & _ & B).
  assert (VL : vl_of VlMem row [OReg x; y0] = bit_ (setKind x k)).
  { unfold vl_of, longest, size_of. cbn [map fold_right ob]. rewrite B, KB. lia. }
  rewrite VL in *. apply cvt_core with (env := env) (pos := pos) (u := u); auto. widths. auto.
Qed.
End Cvt.
(* three operands; the last two are twice as wide as the destination *)
Lemma impl_cvt6 type code row rc nm : checkv type code row true [128; 256; 512] = true -> (rc = true -> row_rc type row = true) -> r_digit row = None ->
  r_enc row = RVM -> r_vex row = None -> has type T_MUST_EVEX = true ->
  implements rc (mkEntry nm [cX; cX; cO] (rro (fun a b o => opCvt6 a b o type code)) row VlAll).
Proof.
  intros CH RC ED EE NV ME. opn. destruct y as [x1|], y0 as [x2|]; try discriminate. cbn [rro] in Hf. fun_. slots EE ED.
  repeat match goal with Q : arg_ok cX (OReg x1) |- _ => destruct Q as [V1 M1] | Q : arg_ok cX (OReg x2) |- _ => destruct Q as [V2 M2] end.
  match goal with Q : arg_ok cO _ |- _ => rename Q into A end.
  unfold opCvt6 in H. apply emits_fn in H. cbv zeta in H.
  match type of H with emits (if ?c then _ else _) _ _ _ _ => destruct c eqn:C; [|einv H] end.
  unfold checkv, check in CH. do 2 apply andb_prop in CH as [CH ?].
  assert (VL : longest (map width [OReg x1; OReg x2; y1]) = bit_ x2).
  { apply vec_bits in V1, V2. inversion Hw as [|? ? ? Hw1]; subst. inversion Hw1 as [|? ? ? Hw2]; subst. inversion Hw2 as [|? ? ? ?]; subst.
    unfold longest, getBit, ogetBit in *. cbn [map width fold_right] in *.
    assert (W3 : width y1 <= bit_ x2).
    { destruct y1 as [r|a]; cbn [width ob isMEM] in *; [|lia].
      assert (bit_ x2 = bit_ r); [|lia]. apply orb_prop in C as [C|C]; apply andb_prop in C as [_ C]; rewrite ?orb_false_r in C; unfold getBit in C; lia. }
    apply orb_prop in C as [C|C]; apply andb_prop in C as [C _]; apply andb_prop in C as [C1 C2]; lia. }
  rewrite VL. assert (VB : In (bit_ x2) [128; 256; 512]) by (apply vec_bits in V2; cbn; lia).
  match goal with Q : lens_ok _ _ _ _ = true |- _ => unfold lens_ok in Q; rewrite forallb_forall in Q; specialize (Q _ VB); rename Q into LN end.
  refine (core_says s row x1 (Some x2) y1 y1 type code NONE (bit_ x2) (regno x1) (regno x2) _ env pos its rest u CH _ M1 M2 (vec_width _ V1) _
    (arg_width _ _ A ltac:(discriminate)) (arg_rm _ _ A) _ _ (same_mods_refl _) eq_refl eq_refl _ _ (len_ok_evex _ _ _ _ LN) H).
  - rcs.
  - constructor; auto. now apply vec_width.
  - intros a -> N. split; [apply (one_mask_mem _ a (OReg x1) Hm)|apply (one_mask_mem _ a (OReg x2) Hm)]; cbn; auto; discriminate.
  - intros _. apply vec_bits in V1. lia.
  - rewrite <- VL. unfold longest, veclen. cbn [map width fold_right ow]. lia.
  - intros f E. congruence.
Qed.

(* ---- vfpclass ---- *)
Lemma changeBit_mask r b env pos its r' : kind_ r = OPMASK -> emits (changeBit r b) env pos its r' ->
  its = [] /\ kind_ r' = OPMASK /\ bit_ r' = (if isBit r b then bit_ r else b) /\ idx_ r' = idx_ r /\ mask_ r' = mask_ r /\ rounding_ r' = rounding_ r /\ zero_ r' = zero_ r.
Proof.
  intros K H. unfold changeBit, setBit in H. apply emits_fn in H.
  match type of H with emits (if ?c then _ else _) _ _ _ _ => destruct c; [einv H|] end.
  destruct (isBit r b). { apply emits_ret in H as [-> ->]. auto 10. }
  unfold is_ in H. rewrite K in H. cbn in H. apply emits_ret in H as [-> ->]. cbn. auto 10.
Qed.
Lemma impl_fpclass type code row rc nm rule vls f : checkv type code row false vls = true -> (rc = true -> row_rc type row = true) -> r_digit row = None ->
  r_enc row = RMI ->
  (forall k o i env pos its u, arg_ok cK (OReg k) -> arg_ok cO o -> 0 <= i < 256 -> emits (f k o i) env pos its u ->
     exists k', kind_ k' = OPMASK /\ width_ok (bit_ k') /\ idx_ k' = idx_ k /\ mask_ k' = mask_ k /\ rounding_ k' = rounding_ k /\ zero_ k' = zero_ k
       /\ veclen (bit_ k' :: width o :: []) = vl_of rule row [OReg k; o] /\ In (vl_of rule row [OReg k; o]) vls
       /\ emits (opVex k' None o type code i) env pos its u) ->
  implements rc (mkEntry nm [cK; cO] (roi f) row rule).
Proof.
  intros CH RC ED EE L. opn. destruct y as [k|]; try discriminate. cbn [roi] in Hf. fun_.
  match goal with Q : arg_ok cK _ |- _ => rename Q into AK end. match goal with Q : arg_ok cO _ |- _ => rename Q into A end.
  apply L in H as (k' & K' & W' & I' & M' & N' & Z' & VL & IN & H); auto. unfold says. rewrite EE, ED. cbn [at_slot RMI slot_eqb slot_reg existsb orb].
  destruct AK as [OK MK].
  refine (vex_core s row k' None y0 y0 type code imm false vls _ [OReg k; y0] [imm] (regno k) 0 rc env pos its rest u CH RC Hr _ I W' (Forall_nil _)
    (arg_width _ _ A ltac:(discriminate)) (arg_rm _ _ A) _ _ _ eq_refl _ IN _ (eq_sym (imm_bytes_small _ Hi)) H).
  - unfold mods_ok in *. now rewrite M', N'.
  - intros a -> N. split; [|reflexivity]. rewrite M'. apply (one_mask_mem _ a (OReg k) Hm); cbn; auto. discriminate.
  - now apply same_mods_like.
  - unfold regno. now rewrite I'.
  - unfold isYMM, is_. rewrite K'. reflexivity.
  - rewrite <- VL. reflexivity.
Qed.
Lemma size_bits o : arg_ok cO o -> In (bit_ (ob o)) [0; 8; 16; 32; 64; 128; 256; 512].
Proof.
  intros A. destruct (arg_bits o A) as [(a & ->)|[E D]]; [apply A|]. rewrite E. cbn. intuition.
Qed.
Lemma fpclass_vec type code k o i env pos its u : arg_ok cK (OReg k) -> arg_ok cO o ->
  emits (k' <- changeBit k (getBit (ob o)) ;; opVex k' None o type code i) env pos its u ->
  exists k', kind_ k' = OPMASK /\ width_ok (bit_ k') /\ idx_ k' = idx_ k /\ mask_ k' = mask_ k /\ rounding_ k' = rounding_ k /\ zero_ k' = zero_ k
       /\ (forall row, veclen (bit_ k' :: width o :: []) = vl_of VlMem row [OReg k; o] /\ In (vl_of VlMem row [OReg k; o]) [128; 256; 512])
       /\ emits (opVex k' None o type code i) env pos its u.
Proof.
  intros [OK MK] A H. apply seq_nil in H; [|intros ? ? Q; apply changeBit_mask in Q as [? _]; auto; apply OK].
  destruct H as (k' & Q & H). exists k'. apply changeBit_mask in Q as (_ & K' & B' & I' & M' & N' & Z'); [|apply OK].
  destruct OK as (KK & BK & IK). pose proof (size_bits _ A) as S. unfold getBit in *.
  assert (B2 : bit_ k' = bit_ (ob o)). { rewrite B'. unfold isBit. rewrite BK. cbn [In] in S. destruct S as [S|[S|[S|[S|[S|[S|[S|[S|[]]]]]]]]]; rewrite <- S; reflexivity. }
  split; auto. split. { rewrite B2. unfold width_ok. cbn [In] in S. clear - S. intuition. }
  repeat (split; auto); unfold vl_of, longest, veclen, size_of; cbn [map fold_right ob]; rewrite ?BK, ?B2.
  - destruct o as [r|a]; cbn [ob width] in *; lia.
  - cbn [In] in S. clear - S. destruct S as [S|[S|[S|[S|[S|[S|[S|[S|[]]]]]]]]]; rewrite <- S; cbn; lia.
Qed.
Lemma impl_fpclass_v type code row rc nm f : checkv type code row false [128; 256; 512] = true -> (rc = true -> row_rc type row = true) -> r_digit row = None ->
  r_enc row = RMI -> (forall k o i, 0 <= i < 256 -> le1 (f k o i) (k' <- changeBit k (getBit (ob o)) ;; opVex k' None o type code i)) ->
  implements rc (mkEntry nm [cK; cO] (roi f) row VlMem).
Proof.
  intros CH RC ED EE L. apply impl_fpclass with (type := type) (code := code) (vls := [128; 256; 512]); auto.
  intros k o i env pos its u AK A Hi H. apply L in H; auto. apply fpclass_vec in H as (k' & K' & W' & I' & M' & N' & Z' & VL & H); auto.
  exists k'. destruct (VL row). auto 20.
Qed.
Lemma impl_fpclass_s type code row rc nm f : checkv type code row false [128] = true -> (rc = true -> row_rc type row = true) -> r_digit row = None ->
  r_enc row = RMI -> (forall k o i, 0 <= i < 256 -> le1 (f k o i) (opVex k None o type code i)) ->
  (forall k o i env pos its u, emits (f k o i) env pos its u -> isXMEM (ob o) = true) ->
  implements rc (mkEntry nm [cK; cO] (roi f) row VlAll).
Proof.
  intros CH RC ED EE L G. apply impl_fpclass with (type := type) (code := code) (vls := [128]); auto.
  intros k o i env pos its u [OK MK] A Hi H. pose proof (G _ _ _ _ _ _ _ H) as X. apply L in H; auto. exists k. destruct (opmask_ok k OK) as (W & _ & B).
  assert (WO : width o <= 128).
  { destruct o as [r|a]; cbn [width]; [|lia]. cbn [ob] in X. destruct A as [[[[[A E]|[[A E]|[A E]]] _] _]|[[A E] _]]; unfold isXMEM, is_ in X; rewrite A in X; try discriminate X. lia. }
  unfold vl_of, longest, veclen. cbn [map fold_right]. cbn [width]. rewrite B. split; [apply OK|]. rewrite <- B at 1. split; auto.
  repeat (split; auto). left. destruct o; cbn [width] in *; lia.
Qed.

(* ---- scalar conversions to and from general registers: one row per register width ---- *)
Section ToGpr.
Variables (type code : Z) (t64 t32 : Z) (rc : bool) (nm : string) (row : vrow) (w : Z).
Let ty := type ||| (if w =? 64 then t64 else t32).
Hypothesis (HW : w = 32 \/ w = 64).
Hypothesis (CH : checkv ty code row false [128; 256; 512] = true) (RC : rc = true -> row_rc ty row = true) (ED : r_digit row = None).
Lemma impl_eo : r_enc row = RM ->
  implements rc (mkEntry nm [cR w; cO] (ro (fun r o => opVex r (Some (Xmm 0)) o (type ||| (if isREGb r 64 then t64 else t32)) code NONE)) row VlAll).
Proof.
  intros EE. opn. destruct y as [r|]; try discriminate. cbn [ro] in Hf. fun_. slots EE ED.
  match goal with Q : arg_ok (cR w) _ |- _ => destruct Q as (GR & BR & WR) end. match goal with Q : arg_ok cO _ |- _ => rename Q into A end.
  assert (T : isREGb r 64 = (w =? 64)). { unfold isREGb, is_. destruct GR as [K _]. rewrite K, WR. destruct HW as [-> | ->]; reflexivity. }
  rewrite T in H. fold ty in H. destruct (gpr_width _ GR) as (W & _ & Y & _). destruct (Xmm_bare 0 ltac:(lia)) as (V0 & B0 & R0 & W0).
  refine (vex_core s row r (Some (Xmm 0)) y0 y0 ty code NONE false [128; 256; 512] _ _ [] _ 0 rc env pos its rest u CH RC Hr (bare_mods _ BR) (bare_mods _ B0) W _
    (arg_width _ _ A ltac:(discriminate)) (arg_rm _ _ A) _ _ eq_refl R0 Y _ _ eq_refl H).
  - constructor; auto. now apply vec_width.
  - intros a -> N. split; [apply BR|apply B0].
  - apply same_mods_cons. apply (bare_in_mods _ [y0] B0).
  - unfold longest. cbn [map width fold_right]. destruct (arg_bits _ A) as [(a & ->)|[_ D]]; cbn [width In]; lia.
  - unfold longest, veclen. cbn [map width fold_right ow]. rewrite W0. destruct y0; cbn [width]; lia.
Qed.
End ToGpr.

Section FromGpr.
Variables (type code : Z) (t64 t32 : Z) (rc : bool) (nm : string) (row : vrow) (w : Z).
Hypothesis (HW : w = 32 \/ w = 64).
Let ty := type ||| (if w =? 64 then t64 else t32).
Hypothesis (CH : checkv ty code row true [128] = true) (RC : rc = true -> row_rc ty row = true) (ED : r_digit row = None) (EE : r_enc row = RVM).
(* opCvt3: the general register is written as a vector register *)
Lemma cvt3_core s x1 x2 op op' env pos its rest u :
  arg_ok cX (OReg x1) -> arg_ok cX (OReg x2) -> bit_ x1 = 128 -> bit_ x2 = 128 -> one_mask [OReg x1; OReg x2; op] ->
  (rc = false -> Forall (fun o => ornd o = 0) [OReg x1; OReg x2; op]) ->
  match op' with OReg b => width_ok (bit_ b) /\ mods_ok b | OMem a => mem_ok a end -> rm_kind op op' -> width op' <= 128 ->
  same_mods [op'] [op] -> (forall a, op' = OMem a -> op = OMem a) ->
  emits (opVex x1 (Some x2) op' ty code NONE) env pos its u ->
  says_core row 128 (regno x1) (regno x2) op [OReg x1; OReg x2; op] [] (render s its) rest.
Proof.
  intros (V1 & M1) (V2 & M2) W1 W2 OM Hr OK RK W SM EM H.
  refine (vex_core s row x1 (Some x2) op op' ty code NONE true [128] _ _ [] _ _ rc env pos its rest u CH RC Hr M1 M2 (vec_width _ V1) _
    OK RK _ _ eq_refl eq_refl _ _ _ eq_refl H).
  - constructor; auto. now apply vec_width.
  - intros a E N. pose proof (EM _ E) as E2. rewrite E2 in *.
    split; [apply (one_mask_mem _ a (OReg x1) OM)|apply (one_mask_mem _ a (OReg x2) OM)]; cbn; auto; discriminate.
  - do 2 apply same_mods_cons. exact SM.
  - destruct (vec_kv _ V1) as (A & B & C). now rewrite A, B, W1.
  - left; reflexivity.
  - unfold veclen. cbn [fold_right ow]. lia.
Qed.
Lemma cvt3_inv x1 x2 op env pos its u : vec_reg x1 -> vec_reg x2 -> In (bit_ (ob op)) [0; 8; 16; 32; 64; 128; 256; 512] ->
  (bit_ (ob op) = 64 <-> w = 64) ->
  emits (opCvt3 x1 x2 op type t64 t32 code) env pos its u ->
  bit_ x1 = 128 /\ bit_ x2 = 128 /\ emits (opVex x1 (Some x2) (if oREG op then OReg (Xmm (ogetIdx op)) else op) ty code NONE) env pos its u.
Proof.
  intros V1 V2 S WW H. unfold opCvt3 in H. apply emits_fn in H.
  match type of H with emits (if negb ?c then _ else _) _ _ _ _ => destruct c eqn:C; cbn [negb] in H; [|einv H] end.
  apply andb_prop in C as [C _]. apply andb_prop in C as [C1 C2].
  rewrite (proj1 (vec_kinds _ V1)) in C1. rewrite (proj1 (vec_kinds _ V2)) in C2. split; [lia|]. split; [lia|].
  assert (T : oBit op 64 = (w =? 64)).
  { unfold oBit, isBit. cbn [In] in S. destruct HW as [-> | ->].
    - assert (N : bit_ (ob op) <> 64) by (intros E; apply WW in E; discriminate).
      destruct S as [S|[S|[S|[S|[S|[S|[S|[S|[]]]]]]]]]; rewrite <- S in *; try reflexivity; contradiction N; reflexivity.
    - rewrite (proj2 WW eq_refl). reflexivity. }
  cbv zeta in H. rewrite T in H. exact H.
Qed.
Lemma impl_cvt3_g : implements rc (mkEntry nm [cX; cX; cG w] (rro (fun a b o => opCvt3 a b o type t64 t32 code)) row VlRegs).
Proof.
  opn. destruct y as [x1|], y0 as [x2|], y1 as [r|]; try discriminate; try contradiction. cbn [rro] in Hf. fun_. slots EE ED.
  match goal with Q : arg_ok (cG w) _ |- _ => pose proof Q as AG; destruct Q as (GR & BR & WR & NR) end.
  pose proof (gpr_width _ GR) as (_ & IR & _).
  apply cvt3_inv in H as (E1 & E2 & H); [|apply H2|apply H3|cbn [ob]; rewrite WR; destruct HW as [-> | ->]; cbn; tauto|cbn [ob]; rewrite WR; tauto].
  change (oREG (OReg r)) with (isREG r) in H. rewrite IR in H. change (ogetIdx (OReg r)) with (getIdx r) in H. rewrite getIdx_regno in H.
  destruct (Xmm_bare (regno r) (regno_range r)) as (V & B & R & W).
  rewrite E1, E2. change (longest [128; 128]) with 128.
  refine (cvt3_core s x1 x2 (OReg r) (OReg (Xmm (regno r))) env pos its rest u H2 H3 E1 E2 Hm Hr _ _ _ _ _ H).
  - split; [now apply vec_width|now apply bare_mods].
  - right. rewrite R. auto.
  - cbn [width]. lia.
  - apply bare_same; repeat constructor; try apply B; apply BR.
  - discriminate.
Qed.
Lemma cvt3_mem c s x1 x2 m imm its rest env pos u : c = cMs 64 /\ w = 64 \/ c = cMn 64 /\ w = 32 ->
  arg_ok cX (OReg x1) -> arg_ok cX (OReg x2) -> arg_ok c (OMem m) -> one_mask [OReg x1; OReg x2; OMem m] ->
  (rc = false -> Forall (fun o => ornd o = 0) [OReg x1; OReg x2; OMem m]) ->
  emits (opCvt3 x1 x2 (OMem m) type t64 t32 code) env pos its u ->
  says row (vl_of VlRegs row [OReg x1; OReg x2; OMem m]) [OReg x1; OReg x2; OMem m] imm (render s its) rest.
Proof.
  intros CC A1 A2 A3 Hm Hr H. slots EE ED.
  assert (MO : mem_ok m /\ (bit_ (a_op m) = 64 <-> w = 64)).
  { destruct CC as [[-> ->]|[-> ->]]; destruct A3 as [M S]; split; auto; split; auto; try contradiction; discriminate. }
  destruct MO as [MO S]. apply cvt3_inv in H as (E1 & E2 & H); [|apply A1|apply A2|apply MO|auto].
  destruct (mem_kinds _ MO) as (IM & _). assert (NR : oREG (OMem m) = false). { unfold oREG, isREG, is_. cbn [ob]. rewrite (wm_kind _ (mo_wf _ MO)). reflexivity. }
  rewrite NR in H. rewrite E1, E2. change (longest [128; 128]) with 128.
  refine (cvt3_core s x1 x2 (OMem m) (OMem m) env pos its rest u A1 A2 E1 E2 Hm Hr MO eq_refl _ (same_mods_refl _) (fun a E => E) H). cbn [width]. lia.
Qed.
Lemma impl_cvt3_m c : c = cMs 64 /\ w = 64 \/ c = cMn 64 /\ w = 32 ->
  implements rc (mkEntry nm [cX; cX; c] (rro (fun a b o => opCvt3 a b o type t64 t32 code)) row VlRegs).
Proof.
  intros CC. opn. destruct y as [x1|], y0 as [x2|], y1 as [|m]; try discriminate; try contradiction.
  { exfalso. destruct CC as [[-> _]|[-> _]]; contradiction. }
  cbn [rro] in Hf. fun_. eapply cvt3_mem; eauto.
Qed.
(* vcvtsi2sh, vcvtusi2sh *)
Lemma impl_si2sh c f : c = cR w \/ c = cMs w ->
  (forall a b o, le1 (f a b o) (if negb (isXMM a && isXMM b) then throw ERR_BAD_COMBINATION else opVex a (Some b) o (type ||| (if isBit (ob o) 32 then t32 else t64)) code NONE)) ->
  implements rc (mkEntry nm [cX; cX; c] (rro f) row VlRegs).
Proof.
  intros CC L. opn. destruct y as [x1|], y0 as [x2|]; try discriminate; try contradiction. cbn [rro] in Hf. fun_. apply L in H. slots EE ED.
  match type of H with emits (if negb ?c then _ else _) _ _ _ _ => destruct c eqn:C; cbn [negb] in H; [|einv H] end. apply andb_prop in C as [C1 C2].
  rewrite (proj1 (vec_kinds _ (proj1 H2))) in C1. rewrite (proj1 (vec_kinds _ (proj1 H3))) in C2.
  assert (E1 : bit_ x1 = 128) by lia. assert (E2 : bit_ x2 = 128) by lia.
  assert (A : arg_ok c y1) by auto. assert (NT : c <> cT) by (destruct CC as [-> | ->]; discriminate).
  assert (T : (if isBit (ob y1) 32 then t32 else t64) = (if w =? 64 then t64 else t32)).
  { assert (E : bit_ (ob y1) = w). { destruct CC as [-> | ->]; destruct y1; try contradiction; apply A. }
    unfold isBit. rewrite E. destruct HW as [-> | ->]; reflexivity. }
  rewrite T in H. rewrite E1, E2. change (longest [128; 128]) with 128.
  refine (cvt3_core s x1 x2 y1 y1 env pos its rest u H2 H3 E1 E2 Hm Hr (arg_width _ _ A NT) (arg_rm _ _ A) _ (same_mods_refl _) (fun a E => E) H).
  rewrite E1, E2 in Hw. widths. auto.
Qed.
End FromGpr.

(* ---- AMX ---- *)
Lemma tmm_ok t : arg_ok cT (OReg t) -> mods_ok t /\ hasEvex t = false /\ isYMM t = false /\ regno t < 16 /\ vector t = false.
Proof.
  intros ((K & B & I) & M & R & Z). unfold mods_ok, hasEvex, isYMM, isZMM, isExtIdx2, hasIdxBit, getIdx, vector, is_, regno. rewrite K, M, R, ?B.
  rewrite Z.mod_small by lia. repeat split; try lia; try reflexivity.
  assert (E : In (idx_ t) [0;1;2;3;4;5;6;7]) by (cbn; lia). cbn [In] in E. intuition; subst; repeat match goal with Q : _ = idx_ t |- _ => rewrite <- Q end; reflexivity.
Qed.
Lemma tile_core s row r p base b' type code vl ops env pos its rest u : row_match type code row = true -> has type (T_EVEX ||| T_MUST_EVEX) = false ->
  match r_vex row with Some f => match f_L f with L_0 => true | _ => false end | None => false end = true -> vex_L type r = 0 ->
  arg_ok cT (OReg r) -> arg_ok cT (OReg p) -> arg_ok cT (OReg base) -> regno b' = regno base -> vector b' = false -> Forall (fun o => omask o = 0 /\ ornd o = 0) ops ->
  emits (opVex r (Some p) (OReg base) type code NONE) env pos its u ->
  says_core row vl (regno r) (regno p) (OReg b') ops [] (render s its) rest.
Proof.
  intros RM NE FL LL Ar Ap Ab Rb' Vb' BO H.
  destruct (tmm_ok _ Ar) as (Mr & Er & Yr & _), (tmm_ok _ Ap) as (Mp & Ep & _), (tmm_ok _ Ab) as (Mb & Eb & _ & Rb & Vb).
  assert (NM : has type T_MUST_EVEX = false).
  { unfold has in *. apply negb_false_iff in NE. apply Z.eqb_eq in NE. apply negb_false_iff, Z.eqb_eq. rewrite Z.land_lor_distr_r in NE. now apply Z.lor_eq_0_iff in NE. }
  assert (UE : uses_evex_reg r (Some p) base type = false).
  { unfold uses_evex_reg, ovb. now rewrite NM, Er, Ep, Eb. }
  destruct (vex_reg_lemma s _ (Some p) _ _ _ _ _ _ _ rest _ Mr Mb Mp UE H) as (h & D & SY).
  unfold row_match, vex_match in RM. rewrite NM in RM. cbn [orb] in RM. do 2 apply andb_prop in RM as [RM _].
  left. destruct (r_vex row) as [f|]; [|discriminate]. destruct SY as (S1 & S2 & S3 & S4' & S5 & S6 & S7 & S8).
  exists f, h, (RReg (regno base) (regno base)). split; auto. split; auto. split; auto.
  split. { eapply form_match_ok; eauto. }
  split. { rewrite S7, LL. destruct (f_L f); try discriminate. reflexivity. }
  split; auto. split. { cbn. now rewrite Vb'. } split; auto.
Qed.

Section Amx.
Variables (type code : Z) (row : vrow) (nm : string).
Hypothesis (RM : row_match type code row = true) (NE : has type (T_EVEX ||| T_MUST_EVEX) = false).
Hypothesis (FL : match r_vex row with Some f => match f_L f with L_0 => true | _ => false end | None => false end = true).
Hypothesis (ED : r_digit row = None).
Lemma tile_L t : arg_ok cT (OReg t) -> has type T_L1 = false -> vex_L type t = 0.
Proof. intros A N. destruct (tmm_ok _ A) as (_ & _ & Y & _). unfold vex_L. rewrite N, Y. destruct (has type T_L0); reflexivity. Qed.
Hypothesis (NL : has type T_L1 = false).
Lemma impl_ttt : r_enc row = RMV ->
  implements true (mkEntry nm [cT; cT; cT] (rrr (fun a b c => opVex a (Some c) (OReg b) type code NONE)) row VlAll).
Proof.
  intros EE. opn. destruct y as [t1|], y0 as [t2|], y1 as [t3|]; try discriminate. cbn [rrr] in Hf. fun_. slots EE ED.
  eapply (tile_core s row t1 t3 t2 t2); eauto using tile_L; [apply tmm_ok; auto|]. repeat constructor; cbn; match goal with Q : arg_ok cT (OReg ?t) |- mask_ ?t = 0 => apply Q | Q : arg_ok cT (OReg ?t) |- rounding_ ?t = 0 => apply Q end.
Qed.
Lemma impl_t : r_enc row = R_ ->
  implements true (mkEntry nm [cT] (r1 (fun a => opVex a (Some (Tmm 0)) (OReg (Tmm 0)) type code NONE)) row VlAll).
Proof.
  intros EE. opn. destruct y as [t1|]; try discriminate. cbn [r1] in Hf. fun_. slots EE ED.
  assert (A0 : arg_ok cT (OReg (Tmm 0))) by (repeat split; cbn; lia).
  eapply (tile_core s row t1 (Tmm 0) (Tmm 0) noReg); eauto using tile_L. repeat constructor; cbn; match goal with Q : arg_ok cT (OReg ?t) |- mask_ ?t = 0 => apply Q | Q : arg_ok cT (OReg ?t) |- rounding_ ?t = 0 => apply Q end.
Qed.
End Amx.

Lemma is_kinds_256 o : vec_reg o -> is_ o (XMM ||| YMM) 0 = true -> bit_ o <= 256.
Proof. intros [[[K B]|[[K B]|[K B]]] _]; unfold is_; rewrite K, B; cbn; intros; try lia; discriminate. Qed.

(* ---- tactics for VexTables.v: the method emits what its body without the guard emits ---- *)
Ltac gred f := intros; unfold le1; let H := fresh "H" in intros ? ? ? ? H; unfold f in H; ungrds H; exact H.
Ltac gredx f := let H := fresh "H" in intros ? ? ? ? ? ? ? H; unfold f in H; apply emits_fn in H; cbv zeta in H;
  match type of H with emits (if negb ?c then throw _ else _) _ _ _ _ => let Q := fresh "G" in destruct c eqn:Q; [reflexivity|cbn [negb] in H; einv H] end.
Ltac gredb f := let V := fresh in let H := fresh "H" in intros ? ? V; split; [unfold le1|]; intros ? ? ? ? H; unfold f in H; ungrds H;
  [exact H|bools; apply is_kinds_256; auto].
Ltac gredg f := intros; unfold le1; let H := fresh "H" in intros ? ? ? ? H; unfold f in H; apply emits_fn in H; cbv zeta in H;
  match type of H with emits (if negb (?c && ?d) then throw _ else _) _ _ _ _ => destruct c, d; cbn [andb negb] in H |- *; try (einv H); exact H end.
Ltac gred2 f := intros; unfold le2; let H := fresh "H" in intros ? ? ? ? H; unfold f in H;
  apply seq_nil in H; [let t := fresh in let Q := fresh in destruct H as (t & Q & H); apply orEvexIf_nil in Q as [_ [-> | ->]]; auto|intros ? ? Q; apply orEvexIf_nil in Q; tauto].
