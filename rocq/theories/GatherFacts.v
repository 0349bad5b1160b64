(* Gather, scatter and prefetch methods: opGather, opGather2, opGatherFetch (xbyak.h:2629-2704). *)
From Coq Require Import ZArith List Bool String Lia.
From Verif Require Import Base Types Emit Encode SpecX86 SpecAddr SpecIsa SpecInsn Wf EmitFacts BitFacts MemFacts LegacyFacts VexFacts EncThms IsaFacts VexShapes VexShapes2 VexTac VexShapes3.
Import ListNotations.
Open Scope Z_scope.

Definition row_match_v (type code : Z) (row : vrow) : bool :=
  vex_match type code row && evex_match type code row && negb (has type (T_B32 ||| T_B64)) && negb (has type T_ER_R).

Lemma vsib_index a : isVsib a = true -> wf_regexp (a_e a) -> vec_reg (index_of a) /\ e_index (getRegExp a) = index_of a.
Proof.
  unfold index_of. intros V W. split.
  - destruct (wf_index _ W) as [N|[[G|G] _]]; auto.
    + unfold isVsib, isVsibE, isBit in V. destruct N as (_ & B & _). rewrite B in V. discriminate.
    + pose proof (addr_gpr_isVsib _ G). unfold isVsib in V. congruence.
  - unfold getRegExp. destruct (a_optimize a); auto. unfold optimize. destruct (_ && _); reflexivity.
Qed.

Lemma vsib_says s row r p1 a type code vl env pos its rest u :
  row_match_v type code row = true -> isVsib a = true ->
  mods_ok r -> omods_ok p1 -> mem_ok a ->
  (mask_ (a_op a) <> 0 -> mask_ r = 0 /\ ovl p1 mask_ = 0) ->
  width_ok (bit_ r) -> Forall width_ok (ow p1) -> tuple_of type <> TMovddup ->
  zero_ r = false -> ovb p1 zero_ = false -> regno (index_of a) < 16 \/ has type T_MUST_EVEX = true -> ovb p1 bit4 = false ->
  vl = veclen (bit_ r :: bit_ (index_of a) :: ow p1) ->
  vex_lengths type r vl row -> evex_lengths vl row ->
  emits (opVex r p1 (OMem a) type code NONE) env pos its u ->
  says_vsib row vl (regno r) (vreg p1) a (OReg r :: oreg p1 ++ [OMem a]) (render s its) rest.
Proof.
  intros RM VS Mr Mp Ma MM Wr Wp Hdup Zr Zp I16 P16 Evl VL EL H. unfold row_match_v in RM. do 3 (apply andb_prop in RM as [RM ?]).
  rewrite negb_true_iff in *.
  pose proof (mem_ok_base _ Ma) as (BM & BR & BZ). pose proof (bare_mods _ (mem_ok_base _ Ma)) as Mb. destruct Ma as [Wa D8 PV _ _ Mk _].
  assert (NR : no_rounding r p1 (e_base (getRegExp a))). { eapply opVex_mem_rc; eauto; apply (wm_e _ Wa). }
  destruct (uses_evex_mem r p1 a type) eqn:UE.
  - right.
    pose proof (evex_mem_lemma s _ _ _ _ _ _ _ _ _ rest _ Wa D8 PV Mr Mp Mb Mk BM BZ NR Wr Wp UE (fun _ => P16) ltac:(congruence) H) as (h & m & D & DN & SY & HL & HB & _ & HV & HBC & AM & _ & HZ).
    rewrite VS in D, HL. destruct (HV VS) as [_ HV'].
    assert (Evl' : vl = veclen (bit_ r :: bit_ (e_base (getRegExp a)) :: bit_ (e_index (a_e a)) :: ow p1)).
    { rewrite Evl. unfold veclen. cbn [fold_right]. pose proof (getRegExp_wf _ (wm_e _ Wa)) as We.
      assert (WB : bit_ (e_base (getRegExp a)) <= 64). { destruct (wf_base _ We) as [(_ & B & _)|(_ & B & _)]; lia. }
      assert (WL : forall l, 128 <= fold_right Z.max 128 l). { clear. induction l; cbn [fold_right]; lia. }
      specialize (WL (ow p1)). fold (index_of a). lia. }
    rewrite <- Evl' in D, HL.
    assert (X1 : uses_evex_mem r p1 a type = false -> isVsib a = true -> bit4 (e_index (getRegExp a)) = false) by congruence.
    pose proof (opVex_mem_dec s _ _ _ _ _ _ _ _ _ rest _ Wa D8 PV Mr Mp Mb Mk NR X1 (fun _ _ => P16) H) as (h0 & m0 & d0 & _ & _ & HE & _).
    unfold vex_mem_header in HE. rewrite UE in HE. destruct HE as [HE _].
    match goal with Q : evex_match _ _ _ = true |- _ => unfold evex_match in Q; rewrite HE in Q; cbn [negb orb] in Q; rename Q into QM end.
    destruct (r_evex row) as [f|] eqn:ER; [|discriminate].
    do 2 apply andb_prop in QM as [QM ?]. destruct (EL _ ER) as (V1 & V2 & V3).
    destruct (a_broadcast a) eqn:B. { specialize (HBC eq_refl). congruence. }
    assert (HvlC : vl = 128 \/ vl = 256 \/ vl = 512).
    { rewrite Evl. destruct (vsib_index _ VS (wm_e _ Wa)) as [VI _]. destruct (max_widths r noReg p1 (bit_ (index_of a))) as [K _]; auto; [left; auto| |].
      - pose proof (vec_bits _ VI). unfold width_ok. lia.
      - unfold veclen in K |- *. cbn [fold_right] in K |- *. change (bit_ noReg) with 0 in K. pose proof (vec_bits _ VI). lia. }
    exists f, h, m. split; auto.
    split. { assert (NI : imm_bytes NONE = []) by reflexivity. rewrite NI in D. cbn [app] in D. rewrite <- D. f_equal. symmetry. apply tuple_match_ok; auto. }
    destruct SY. split; auto. split. { eapply form_match_ok; eauto 10. }
    split. { rewrite HL. apply L_ok_log2; auto. }
    split; [auto|]. split; [exact HV'|]. split; [exact DN|]. split; [auto|].
    split. { rewrite HZ, Zr, Zp. apply andb_false_r. }
    split. { destruct (Z.eqb_spec (mask_ (a_op a)) 0) as [Q|Q].
      - rewrite Q in AM. destruct p1; cbn [oreg app map omask ovl] in *; rewrite ?Q; [apply common3 | apply common2]; auto.
      - destruct (MM Q) as [M1 M2]. destruct p1; cbn [oreg app map omask ovl] in *; rewrite ?M1, ?M2; [apply common3 | apply common2]; auto. }
    destruct NR as (N1 & N2 & N3). constructor; [exact N1|]. destruct p1; cbn [oreg app ornd ovl] in *; repeat constructor; auto.
  - left. pose proof UE as UE'. unfold uses_evex_mem in UE. repeat apply orb_false_iff in UE as [UE ?].
    rewrite has_lor in UE. apply orb_false_iff in UE as [UE _].
    assert (I16' : isVsib a = true -> regno (e_index (a_e a)) < 16). { intros _. destruct I16; [auto|congruence]. }
    destruct (vex_mem_lemma s _ _ _ _ _ _ _ _ _ rest _ Wa D8 PV Mr Mp Mb Mk NR UE' I16' H) as (h & m & D & DN & SY & _).
    assert (NI : imm_bytes NONE = []) by reflexivity. rewrite NI in D. cbn [app] in D.
    rewrite VS in D. unfold vex_match in RM. rewrite UE in RM. cbn [orb] in RM.
    destruct (r_vex row) as [f|] eqn:VR; [|discriminate].
    destruct SY as (S1 & S2 & S3 & S4' & S5 & S6 & S7 & S8).
    exists f, h, m. split; auto. split; auto. split; auto.
    split. { eapply form_match_ok; eauto. }
    split. { rewrite S7. apply VL; auto. match goal with Q : hasEvex r = false |- _ => now apply hasEvex_false in Q end. }
    split; auto. split; auto. split; auto.
    assert (F : forall q, hasEvex q = false -> omask (OReg q) = 0 /\ ornd (OReg q) = 0).
    { intros q Q. apply hasEvex_false in Q. cbn. tauto. }
    constructor; auto. apply Forall_app. split; [destruct p1; cbn [oreg ovb] in *; auto|]. constructor; auto. cbn.
    match goal with Q : negb (mask_ (a_op a) =? 0) = false |- _ => apply negb_false_iff in Q; split; lia end.
Qed.

Lemma evex_mem_type r p1 a type code imm8 env pos its u : uses_evex_mem r p1 a type = true ->
  emits (opVex r p1 (OMem a) type code imm8) env pos its u -> has type (T_EVEX ||| T_MUST_EVEX) = true.
Proof.
  intros UE H. unfold opVex in H. apply emits_fn in H. ebind H i1 i2 u1 H1 H2.
  cbv zeta in H1. ebind H1 i3 i4 u2 H3 H1. ebind H1 i5 i6 d8 H4 H5.
  fold (ovb p1 hasEvex) in H4. fold (uses_evex_mem r p1 a type) in H4. rewrite UE in H4.
  destruct (negb (mask_ (a_op a) =? 0) && negb (has type T_M_K)); [einv H4|].
  destruct (a_broadcast a && negb (has type (T_B32 ||| T_B64))); [einv H4|].
  unfold evex in H4. apply emits_fn in H4. destruct (has type (T_EVEX ||| T_MUST_EVEX)); auto. cbn [negb] in H4. einv H4.
Qed.
Lemma isBit_vsib r : isBit r 384 = true -> isBit r vsib_bits = true.
Proof.
  unfold isBit, vsib_bits, has. intros H. apply negb_true_iff in H. apply negb_true_iff. apply Z.eqb_neq in H. apply Z.eqb_neq.
  intros Q. apply H. replace 384 with (896 &&& 384) by reflexivity. rewrite Z.land_assoc, Q. reflexivity.
Qed.

Lemma Zmm_bare d : 0 <= d < 32 -> vec_reg (Zmm d) /\ bare (Zmm d) /\ regno (Zmm d) = d /\ bit_ (Zmm d) = 512.
Proof.
  intros D. unfold Zmm, regOf, vec_reg, bare, regno. cbn [kind_ bit_ idx_ mask_ rounding_ zero_]. rewrite Z.lor_0_r, (Z.mod_small d 64) by lia.
  repeat split; auto; try lia. apply Z.mod_small; lia.
Qed.

Section Avx2.
Variables (type code mode : Z) (row : vrow) (g : vsib).
Hypothesis (RM : row_match_v type code row = true) (LN : lens_ok type row true [128; 256] = true)
  (NE : has type (T_EVEX ||| T_MUST_EVEX) = false) (RE : r_evex row = None) (TD : tuple_of type <> TMovddup)
  (MODE : mode = match g with GHalf => 0 | GSame => 1 | GTwice => 2 end).
Lemma impl_gather : gather_avx2 row g (fun x m x' => opGather x m x' type code mode).
Proof.
  intros s x m x' env pos its rest u Vx Bx Wx Vx' Bx' Wx' Mm I16 H. unfold opGather in H. apply emits_fn in H. cbv zeta in H.
  match type of H with emits (if negb ?c then _ else _) _ _ _ _ => destruct c eqn:C; cbn [negb] in H; [|einv H] end.
  assert (VS : isVsib m = true). { rewrite <- getRegExp_vsib by apply (wm_e _ (mo_wf _ Mm)). now apply isBit_vsib. }
  destruct (vsib_index _ VS (wm_e _ (mo_wf _ Mm))) as [VI EI]. rewrite EI in *.
  assert (BI : bit_ (index_of m) = 128 \/ bit_ (index_of m) = 256).
  { destruct (vec_bits _ VI) as [Q|[Q|Q]]; auto. unfold isVsibE, isBit in C. rewrite EI, Q in C. discriminate. }
  unfold getBit in H. destruct (vec_kinds _ Vx) as (X1 & Y1 & _), (vec_kinds _ Vx') as (X2 & Y2 & _).
  rewrite X1, Y1, X2, Y2 in H. pose proof (vec_bits _ Vx) as B1. pose proof (vec_bits _ Vx') as B2.
  match type of H with emits (if ?c then _ else _) _ _ _ _ => destruct c eqn:D; [einv H|] end.
  match type of H with emits (if ?c then _ else _) _ _ _ _ => destruct c eqn:SR; [einv H|] end.
  rewrite !getIdx_regno in SR, H. repeat apply orb_false_iff in SR as [SR ?].
  pose proof (regno_range x). pose proof (regno_range x').
  set (y := bit_ (index_of m) =? 256) in *.
  set (a := if y then Ymm (regno x) else x) in *. set (b := if y then Ymm (regno x') else x') in *.
  assert (LV : exists vl, vsib_len g (bit_ x) (bit_ (index_of m)) = Some vl /\ bit_ x' = bit_ x /\ (vl = 128 \/ vl = 256)
     /\ vec_reg a /\ bare a /\ regno a = regno x /\ vec_reg b /\ bare b /\ regno b = regno x' /\ bit_ a = vl /\ bit_ b = vl /\ bit_ (index_of m) <= vl).
  { unfold y in *. clear H. destruct (Ymm_bare (regno x)) as (P1 & P2 & P3 & P4); auto. destruct (Ymm_bare (regno x')) as (Q1 & Q2 & Q3 & Q4); auto.
    subst mode a b. unfold vsib_len.
    destruct BI as [BI|BI], B1 as [B1|[B1|B1]], B2 as [B2|[B2|B2]]; try lia; rewrite BI, B1, B2 in D |- *; cbn in D |- *;
      destruct g; cbn in D; try discriminate; eexists; (split; [reflexivity|]); intuition. }
  destruct LV as (vl & GL & EB & HV & Va & Ba & Ra & Vb & Bb & Rb & WA & WB & WI).
  exists vl. split; auto. split; auto.
  assert (NN : isNone (ob (OMem m)) = false). { cbn. unfold isNone. rewrite (wm_kind _ (mo_wf _ Mm)). reflexivity. }
  apply avx3_inv in H as (H & _); auto.
  assert (NU : uses_evex_mem a (Some b) m type = false). { destruct (uses_evex_mem a (Some b) m type) eqn:U; auto. apply evex_mem_type in H; auto. congruence. }
  pose proof NU as NU'. unfold uses_evex_mem in NU'. repeat apply orb_false_iff in NU' as [NU' ?]. cbn [ovb] in *.
  assert (B4 : bit4 b = false) by (match goal with Q : hasEvex b = false |- _ => now apply hasEvex_false in Q end).
  assert (LK : len_ok type row true vl = true). { apply (proj1 (forallb_forall _ _) LN). cbn. lia. }
  assert (SV : says_vsib row vl (regno a) (vreg (Some b)) m (OReg a :: oreg (Some b) ++ [OMem m]) (render s its) rest).
  { eapply (vsib_says s row a (Some b) m type code vl); eauto using bare_mods.
    - apply bare_mods. exact Bb.
    - intros _. split; [apply Ba|apply Bb].
    - apply vec_width; auto.
    - constructor; [apply vec_width; auto|constructor].
    - apply Ba.
    - apply Bb.
    - unfold veclen. cbn [fold_right ow]. lia.
    - destruct (vec_kinds _ Va) as (_ & Ya & Za & _). rewrite WA in Ya, Za. eapply len_ok_vex; [eassumption|cbn; auto].
    - eapply len_ok_evex; eauto. }
  assert (Q : says_vsib row vl (regno x) (regno x') m [OReg x; OMem m; OReg x'] (render s its) rest).
  { cbn [vreg] in SV. rewrite Ra, Rb in SV. destruct SV as [(f & h & mm & S1 & S2 & S3 & S4 & S5 & S6 & S7 & S8 & S9)|(f & h & mm & S1 & _)]; [|congruence].
    left. exists f, h, mm. do 8 (split; [assumption|]). inversion S9 as [|? ? _ T9]; subst. inversion T9 as [|? ? _ T10]; subst. inversion T10 as [|? ? T11 _]; subst.
    repeat constructor; cbn; try apply Bx; try apply Bx'; apply T11. }
  split; auto. rewrite !Z.eqb_neq, ?getIdx_regno in *. auto.
Qed.
End Avx2.

Section Avx512.
Variables (type code : Z) (row : vrow).
Hypothesis (RM : row_match_v type code row = true) (ME : has type T_MUST_EVEX = true) (TD : tuple_of type <> TMovddup).
Lemma isVsib_vec e : vec_reg (e_index (getRegExp e)) -> wf_regexp (a_e e) -> isVsib e = true.
Proof. intros V W. rewrite <- getRegExp_vsib by auto. now apply vec_isVsib. Qed.
Lemma index_kinds m k : mem_ok m -> kind_ (e_index (getRegExp m)) = k -> k = XMM \/ k = YMM \/ k = ZMM -> vec_reg (e_index (getRegExp m)).
Proof.
  intros Mm K C. pose proof (getRegExp_wf _ (wm_e _ (mo_wf _ Mm))) as W.
  destruct (wf_index _ W) as [(N & _)|[[G|G] _]]; auto; exfalso.
  - rewrite N in K. subst k. destruct C as [C|[C|C]]; discriminate.
  - destruct G as (G & _). rewrite G in K. subst k. destruct C as [C|[C|C]]; discriminate.
Qed.

Lemma impl_gather2 mode g gather : lens_ok type row true [128; 256; 512] = true ->
  mode = match g with GSame => 0 | GHalf => 1 | GTwice => 2 end -> gather = negb (has type T_M_K) -> r_vex row = None ->
  gather_evex gather row g (fun x m => opGather2 x m type code mode).
Proof.
  intros LN MODE GT RV s x m env pos its rest u [Vx Mx] Mm OM H. unfold opGather2 in H. apply emits_fn in H.
  destruct (zero_ x) eqn:Z0; [einv H|]. cbv zeta in H. apply seq_nil in H.
  2:{ intros i w Q. unfold checkGather2 in Q. apply emits_fn in Q. repeat match type of Q with emits (if ?c then _ else _) _ _ _ _ => destruct c; [apply emits_ret in Q; tauto|] end. einv Q. }
  destruct H as (t & Q & H).
  assert (VI : vec_reg (e_index (getRegExp m))).
  { unfold checkGather2 in Q. apply emits_fn in Q.
    assert (K : isXMM (e_index (getRegExp m)) = true \/ isYMM (e_index (getRegExp m)) = true \/ isZMM (e_index (getRegExp m)) = true).
    { destruct (isXMM (e_index _)); auto. destruct (isYMM (e_index _)); auto. destruct (isZMM (e_index _)); auto.
      rewrite ?andb_false_r in Q. cbn [orb] in Q. rewrite ?andb_false_r in Q. einv Q. }
    unfold isXMM, isYMM, isZMM, is_ in K. cbn [orb] in K. destruct (index_kinds m _ Mm eq_refl); auto.
    - pose proof (getRegExp_wf _ (wm_e _ (mo_wf _ Mm))) as W. destruct (wf_index _ W) as [(N & _)|[[(G & _)|[[[G _]|[[G _]|[G _]]] _]] _]]; rewrite ?N, ?G in *; auto; destruct K as [K|[K|K]]; discriminate.
    - split; auto. }
  pose proof (isVsib_vec _ VI (wm_e _ (mo_wf _ Mm))) as VS. destruct (vsib_index _ VS (wm_e _ (mo_wf _ Mm))) as [_ EI]. rewrite EI in *.
  destruct (vec_kinds _ Vx) as (X1 & Y1 & Z1 & _), (vec_kinds _ VI) as (X2 & Y2 & Z2 & _).
  match type of H with emits (if ?c =? 0 then _ else _) _ _ _ _ => destruct (Z.eqb_spec c 0) as [MI|MI]; [einv H|] end.
  match type of H with emits (if ?c then _ else _) _ _ _ _ => destruct c eqn:SR; [einv H|] end.
  pose proof (vec_bits _ Vx) as B1. pose proof (vec_bits _ VI) as B2.
  assert (LV : exists vl, vsib_len g (bit_ x) (bit_ (index_of m)) = Some vl /\ (vl = 128 \/ vl = 256 \/ vl = 512) /\ vl = Z.max (bit_ x) (bit_ (index_of m))).
  { unfold checkGather2 in Q. apply emits_fn in Q. rewrite X1, Y1, Z1, X2, Y2, Z2 in Q. unfold xx_yy_zz, xx_yx_zy, xx_xy_yz in Q. clear H. subst mode. unfold vsib_len.
    destruct B1 as [B1|[B1|B1]], B2 as [B2|[B2|B2]]; rewrite B1, B2 in Q |- *; cbn in Q |- *;
      destruct g; cbn in Q |- *; try (einv Q); eexists; (split; [reflexivity|]); cbn; auto. }
  destruct LV as (vl & GL & HV & EV). exists vl. split; auto.
  assert (LK : len_ok type row true vl = true). { apply (proj1 (forallb_forall _ _) LN). cbn. lia. }
  split.
  { eapply (vsib_says s row x None m type code vl); eauto.
    - exact I.
    - intros MM. split; auto. destruct (OM m (OReg x) ltac:(cbn; auto) MM ltac:(cbn; auto)) as [E|E]; [discriminate|exact E].
    - apply vec_width; auto.
    - constructor.
    - unfold veclen. cbn [fold_right ow]. lia.
    - intros f E. congruence.
    - eapply len_ok_evex; eauto. }
  split. { destruct (has type T_M_K && negb (mask_ (a_op m) =? 0)); auto. }
  intros ->. destruct (has type T_M_K); [discriminate|]. cbn [negb andb] in SR. rewrite !getIdx_regno in SR. lia.
Qed.

Lemma impl_fetch d kind : lens_ok type row true [512] = true -> r_digit row = Some d -> 0 <= d < 32 -> r_vex row = None -> has type T_M_K = true ->
  kind = YMM \/ kind = ZMM ->
  gather_fetch row (if kind =? ZMM then 512 else 256) (fun m => opGatherFetch m (Zmm d) type code kind).
Proof.
  intros LN DG RD RV MK KD s m env pos its rest u Mm H. unfold opGatherFetch in H. apply emits_fn in H.
  destruct (zero_ (a_op m)) eqn:Z0; [einv H|].
  match type of H with emits (if negb ?c then _ else _) _ _ _ _ => destruct c eqn:C; cbn [negb] in H; [|einv H] end. apply Z.eqb_eq in C.
  assert (VI : vec_reg (e_index (getRegExp m))). { eapply index_kinds; eauto; tauto. }
  pose proof (isVsib_vec _ VI (wm_e _ (mo_wf _ Mm))) as VS. destruct (vsib_index _ VS (wm_e _ (mo_wf _ Mm))) as [_ EI]. rewrite EI in *.
  assert (BI : bit_ (index_of m) = (if kind =? ZMM then 512 else 256)).
  { destruct VI as [[[K B]|[[K B]|[K B]]] _]; rewrite K in C; subst kind; destruct KD as [KD|KD]; try discriminate; rewrite B; reflexivity. }
  split; auto. exists d. split; auto.
  assert (LK : len_ok type row true 512 = true). { apply (proj1 (forallb_forall _ _) LN). cbn. auto. }
  destruct (Zmm_bare d RD) as (VZ & BZ & RZ & _).
  assert (SV : says_vsib row 512 (regno (Zmm d)) (vreg None) m (OReg (Zmm d) :: oreg None ++ [OMem m]) (render s its) rest).
  { eapply (vsib_says s row (Zmm d) None m type code 512); eauto using bare_mods.
    - exact I.
    - apply vec_width; auto.
    - constructor.
    - unfold veclen. cbn [fold_right ow]. rewrite BI. change (bit_ (Zmm d)) with 512. destruct (kind =? ZMM); reflexivity.
    - intros f E. congruence.
    - eapply len_ok_evex; eauto. }
  rewrite RZ in SV. destruct SV as [(f & h & mm & S1 & _)|(f & h & mm & S1 & S2 & S3 & S4 & S5 & S6 & S7 & S8 & S9 & S10 & S11 & S12)]; [congruence|].
  right. exists f, h, mm. do 10 (split; [assumption|]). cbn [oreg app map omask] in S11 |- *. destruct BZ as (MZ & _). rewrite MZ in S11.
  split. { destruct S11 as [F1 [F2|F2]]; split; auto; try (inversion F1; auto; fail). destruct F2 as [F2|F2]; auto. }
  inversion S12; auto.
Qed.
End Avx512.
