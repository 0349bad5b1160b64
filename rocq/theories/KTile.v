(* Opmask moves and AMX tile loads and stores: opROO (EVEX, for r16 .. r31) or opVex (VEX). *)
From Coq Require Import ZArith List Bool String Lia.
From Verif Require Import SpecApx ApxFacts Base Types Emit Encode SpecX86 SpecAddr SpecIsa SpecInsn SpecExcept Wf EmitFacts BitFacts MemFacts LegacyFacts VexFacts EncThms IsaFacts
  VexShapes VexShapes2 VexShapes3 VexTac Mnemonic MnemonicAvx.
Import ListNotations.
Open Scope Z_scope.

Lemma amem64_amem a : amem64 a -> amem a.
Proof. intros (A & B & C & D & E & F). split; [exact A|]. split; [split; assumption|exact F]. Qed.

(* the EVEX form, with the whole header *)
Definition roo_hdr (type code : Z) (r x b : Reg) (nf : bool) : header :=
  apx_header (apx_map type) (apx_pp type r noReg) (apx_W type r noReg) r x b noReg (apx_nd type r b noReg) (apx_low nf noReg NONE) (final_opc type noReg code).
Lemma roo_reg_hdr s b r type code env pos its rest : has type T_APX = true -> has type T_NF = false ->
  emits (opROO noReg (OReg b) (OReg r) type code 0 NONE) env pos its true ->
  exists v, decode false 1 (render s its ++ rest) = Some (roo_hdr type code r noReg b false, regno r, RReg (regno b) v, rest).
Proof.
  intros HA HN H. unfold opROO in H. apply emits_fn in H.
  match type of H with emits (if ?c then _ else _) _ _ _ _ => destruct c; [apply emits_ret in H as [_ H]; discriminate|] end. cbn [isMEM ob] in H.
  ebind H i1 i2 u1 H1 H. ebind H i3 i4 u2 H2 H. ebind H i5 i6 u3 H3 H. apply emits_ret in H as [-> _].
  destruct (evexLeg_dec s _ _ _ _ _ _ _ _ _ _ (or_introl eq_refl) H1) as (N1 & _ & HH).
  assert (NF : NF_ r || NF_ b || NF_ noReg || NF_ noReg = false).
  { destruct (NF_ r || NF_ b || NF_ noReg || NF_ noReg); auto. rewrite N1 in HN by auto. discriminate. }
  rewrite NF in HH. apply (writeCode_apx s) in H2; auto. apply emits_db in H3 as ->.
  eexists. unfold decode. rewrite !render_app, H2. cbn [render render1 app]. rewrite <- !app_assoc. cbn [app].
  rewrite HH. cbn [h_space apx_header]. rewrite w8_idem.
  change (ogetIdx (OReg r)) with (getIdx r). change (ogetIdx (OReg b)) with (getIdx b).
  fold (modrm_byte 3 (getIdx r) (getIdx b)).
  destruct (modrm_fields 3 (getIdx r) (getIdx b) ltac:(lia)) as (F1 & F2 & F3).
  unfold dec_rm. cbv zeta. cbn [ob].
  rewrite F1, F2, F3. cbn [Z.eqb Pos.eqb apx_header h_R h_B h_X h_space].
  fold (low3 r) (low3 b). rewrite <- !regno_split. reflexivity.
Qed.
Lemma apx_mem_dec' s a r h env pos its u rest :
  amem a ->
  h_R h + low3 r = regno r ->
  h_B h = 16 * z01 (bit4 (e_base (getRegExp a))) + 8 * z01 (bit3 (e_base (getRegExp a))) ->
  h_X h = 16 * z01 (bit4 (e_index (getRegExp a))) + 8 * z01 (bit3 (e_index (getRegExp a))) ->
  h_67 h = false ->
  forall imz, emits (opAddr (set_immSize a imz) (getIdx r)) env pos its u ->
  exists m, dec_rm h false 1 (render s its ++ rest) = Some (regno r, RMem m, rest) /\ denotes (a_e a) h m /\ mem_matches (getRegExp a) m.
Proof.
  intros (Hm & (H32 & _) & _) HR HB HX H67 imz H.
  destruct Hm as [Wa Hd8 Hpv _ _ _ _].
  assert (Wa' : wf_modrm (set_immSize a imz)) by (eapply wf_modrm_ext; [| | |exact Wa]; reflexivity).
  pose proof (getRegExp_wf _ (wm_e _ Wa)) as We. pose proof (getRegExp_verified _ (wm_ver _ Wa)) as Ve.
  pose proof (getRegExp_vsib _ (wm_e _ Wa)) as Hvs.
  destruct (opAddr_modrm s _ _ _ _ _ _ h rest Wa' H) as (PV & m & Dm & Mbs & Mi & Ms & Md);
    change (getRegExp (set_immSize a imz)) with (getRegExp a) in *;
    change (isVsib (set_immSize a imz)) with (isVsib a) in *;
    change (disp8N (set_immSize a imz)) with (disp8N a) in *;
    change (permitVsib (set_immSize a imz)) with (permitVsib a) in *.
  { left. auto. }
  { intros P. rewrite HX. destruct (wf_index _ We) as [Hn|[[Hg|Hv] _]].
    - destruct (no_reg_bits _ Hn) as [-> ->]. reflexivity.
    - rewrite addr_gpr_present in P; [discriminate|auto].
    - rewrite vec_present in P; [discriminate|auto]. }
  { intros V P. rewrite HX, <- regno_split. destruct (wf_index _ We) as [Hn|[[Hg|Hv] _]].
    - rewrite no_reg_present in P; [discriminate|auto].
    - rewrite <- regno_getIdx. apply (ver_sp _ Ve); auto.
    - rewrite (vec_isVsib _ Hv) in Hvs. congruence. }
  assert (NV : isVsib a = false). { destruct (isVsib a); auto. rewrite Hpv in PV. specialize (PV eq_refl). discriminate. }
  rewrite NV, Hd8 in *. cbn [Z.eqb] in Dm. rewrite mod8_low3, HR in Dm.
  exists m. split; auto.
  assert (MM : mem_matches (getRegExp a) m).
  { split; [|split; [|split]]; auto.
    - rewrite Mbs. unfold mem_base. unfold present in *. unfold getBit. destruct (bit_ (e_base (getRegExp a)) =? 0); cbn [negb] in *; auto.
      rewrite HB, <- regno_split. auto.
    - rewrite Mi. unfold mem_index. unfold present in *. unfold getBit. destruct (bit_ (e_index (getRegExp a)) =? 0); cbn [negb] in *; auto.
      rewrite HX, <- regno_split. auto. }
  split; [|exact MM]. intros regs rip. rewrite H67, H32. rewrite <- (getRegExp_written regs a (wm_e _ Wa)).
  rewrite (eff_addr_written regs rip false _ _ MM). reflexivity.
Qed.
Lemma roo_mem_hdr s a r type code env pos its rest : amem a -> has type T_APX = true -> has type T_NF = false ->
  emits (opROO noReg (OMem a) (OReg r) type code 0 NONE) env pos its true ->
  exists x b m, decode false 1 (render s its ++ rest) = Some (roo_hdr type code r x b false, regno r, RMem m, rest)
    /\ denotes (a_e a) (roo_hdr type code r x b false) m /\ mem_matches (getRegExp a) m.
Proof.
  intros Ha HA HN H. unfold opROO in H. apply emits_fn in H.
  match type of H with emits (if ?c then _ else _) _ _ _ _ => destruct c; [apply emits_ret in H as [_ H]; discriminate|] end. cbn [isMEM ob] in H.
  ebind H i1 i2 u1 H1 H. ebind H i3 i4 u2 H2 H. ebind H i5 i6 u3 H3 H. apply emits_ret in H as [-> _].
  destruct (evexLeg_dec s _ _ _ _ _ _ _ _ _ _ (or_introl eq_refl) H1) as (N1 & _ & HH).
  match type of N1 with ?c = true -> _ => assert (NF : c = false) end.
  { match goal with |- ?c = false => destruct c end; auto. rewrite N1 in HN by auto. discriminate. }
  rewrite NF in HH. apply (writeCode_apx s) in H2; auto.
  fold (roo_hdr type code r (e_index (getRegExp a)) (e_base (getRegExp a)) false) in HH.
  set (h := roo_hdr type code r (e_index (getRegExp a)) (e_base (getRegExp a)) false) in *.
  assert (HR : h_R h + low3 r = regno r) by (unfold h, roo_hdr; cbn [h_R apx_header]; rewrite <- regno_split; reflexivity).
  destruct (apx_mem_dec' s a r h _ _ _ _ rest Ha HR eq_refl eq_refl eq_refl 0 H3) as (m & D1 & D2 & D3).
  exists (e_index (getRegExp a)), (e_base (getRegExp a)), m. split; [|split; auto].
  unfold decode. rewrite !render_app, H2. cbn [render render1 app]. rewrite <- !app_assoc. cbn [app].
  rewrite HH. change (h_space (apx_header _ _ _ _ _ _ _ _ _ _)) with Evex. rewrite app_nil_r. 
  change (apx_header _ _ _ _ _ _ _ _ _ _) with h. rewrite D1. reflexivity.
Qed.

Definition simple (r : Reg) : Prop := (opmask_reg r \/ tmm_reg r \/ (gpr r /\ bit_ r <> 16)) /\ bare r.
Lemma simple_facts r : simple r -> mods_ok r /\ isYMM r = false /\ vector r = false /\ isBit r 16 = false
  /\ (regHasRex2 r = false -> hasEvex r = false).
Proof.
  intros (K & M & R & Z0). unfold mods_ok, isYMM, vector, isBit, regHasRex2, hasEvex, isREG, isZMM, is_. rewrite M, R.
  assert (ID : 0 <= idx_ r < 8 -> isExtIdx2 r = false).
  { intros I. unfold isExtIdx2, hasIdxBit, getIdx. assert (E : In (idx_ r) [0;1;2;3;4;5;6;7]) by (cbn; lia). cbn [In] in E.
    intuition; repeat match goal with Q : _ = idx_ r |- _ => rewrite <- Q end; reflexivity. }
  destruct K as [(K & B & I)|[(K & B & I)|[(K & B) N]]]; rewrite K.
  - rewrite (ID I), B. repeat split; lia.
  - rewrite (ID I), B. repeat split; lia.
  - destruct B as [[B _]|[B _]]; [destruct B as [B|[B|[B|B]]]; [|lia| |]|]; rewrite B; repeat split; try lia; cbn; rewrite ?orb_false_r; auto.
Qed.

(* the words of the method fit the row *)
Definition is_L0 (c : lclass) : bool := match c with L_0 => true | _ => false end.
Definition vcheck (type' code : Z) (f : form) : bool :=
  is_L0 (f_L f) && form_match type' code (getMap type') (has type' T_W1) f
  && negb (has type' (T_MUST_EVEX ||| T_MEM_EVEX)) && negb (has type' T_L1).
Definition echeck (type code : Z) (g : eform) : bool :=
  is_L0 (f_L (e_form g)) && (match e_tuple g with TFixed n => n =? 1 | _ => false end)
  && has type T_APX && negb (has type T_NF) && negb (has type T_ZU) && negb (has type T_ND1)
  && (has type (T_F2 ||| T_F3 ||| T_66) || (getPP type =? 0)) && (has type T_W0 || has type T_W1)
  && (getPP type =? pp_num (f_pp (e_form g))) && (apx_map type =? map_num (f_map (e_form g)))
  && W_ok (f_W (e_form g)) (negb (has type T_W0)) && (final_opc type noReg code =? f_opc (e_form g)).
Definition kcheck (type type' code : Z) (row : vrow) : bool :=
  match r_vex row, r_evex row with Some f, Some g => vcheck type' code f && echeck type code g | _, _ => false end.
Lemma is_L0_eq c : is_L0 c = true -> c = L_0.
Proof. destruct c; try discriminate; auto. Qed.
Lemma zeros_common l : Forall (fun o => omask o = 0 /\ ornd o = 0) l -> common (map omask l) 0 /\ common (map ornd l) 0.
Proof.
  intros H. split; (split; [|left; reflexivity]); apply Forall_map; (eapply Forall_impl; [|exact H]); cbn; intros o [A B]; auto.
Qed.
Definition krm (op : Operand) : Prop := match op with OReg b => simple b | OMem a => amem64 a end.
Lemma roo_hdr_form type code r x b g : echeck type code g = true -> isBit r 16 = false ->
  let h := roo_hdr type code r x b false in
  form_ok (e_form g) h /\ h_space h = Evex /\ h_V h = 0 /\ h_aaa h = 0 /\ h_z h = false /\ h_b h = false /\ h_L h = 0
  /\ f_L (e_form g) = L_0 /\ e_tuple g = TFixed 1 /\ has type T_APX = true /\ has type T_NF = false.
Proof.
  unfold echeck. intros C B16. repeat (apply andb_prop in C as [C ?]).
  repeat match goal with Q : negb _ = true |- _ => apply negb_true_iff in Q | Q : (_ =? _) = true |- _ => apply Z.eqb_eq in Q end.
  apply is_L0_eq in C. destruct (e_tuple g) as [|n| |]; try discriminate.
  match goal with Q : (n =? 1) = true |- _ => apply Z.eqb_eq in Q; subst n | Q : n = 1 |- _ => subst n end.
  unfold form_ok, roo_hdr, apx_header, apx_pp, apx_W, apx_nd, apx_low.
  cbn [h_space h_66 h_67 h_F2 h_F3 h_lock h_seg h_map h_pp h_W h_opc h_L h_z h_nd h_V h_nf h_sc h_b h_aaa].
  repeat match goal with Q : has type _ = _ |- _ => rewrite Q end. rewrite B16.
  change (isBit noReg 16) with false. change (isBit noReg 64) with false. cbn [orb].
  split; [|repeat split; auto].
  split. { destruct (has type (T_F2 ||| T_F3 ||| T_66)); [congruence|]. cbn [orb] in *. match goal with Q : (_ =? 0) = true |- _ => apply Z.eqb_eq in Q end. cbn. congruence. }
  split; [congruence|]. split. { destruct (has type T_W0); [assumption|]. cbn [orb negb] in *. match goal with Q : has type T_W1 = true |- _ => rewrite Q end. rewrite !orb_true_r. assumption. }
  split; [congruence|]. repeat split.
Qed.
Lemma kt_core s row r p1 op type type' code vl ops env pos its rest u :
  kcheck type type' code row = true -> simple r -> match p1 with Some p => p = Tmm 0 | None => True end -> krm op ->
  Forall (fun o => omask o = 0 /\ ornd o = 0) ops ->
  emits (done <- opROO noReg op (OReg r) type code 0 NONE ;; if (done : bool) then ret tt else opVex r p1 op type' code NONE) env pos its u ->
  says_core row vl (regno r) 0 op ops [] (render s its) rest
  /\ (forall a, op = OMem a -> exists h m, decode false 1 (render s its ++ rest) = Some (h, regno r, RMem m, rest) /\ mem_matches (getRegExp a) m).
Proof.
  intros C Sr Hp Ho Z0 H. unfold kcheck in C. destruct (r_vex row) as [f|] eqn:RV; [|discriminate]. destruct (r_evex row) as [g|] eqn:RE; [|discriminate].
  apply andb_prop in C as [CV CE]. destruct (simple_facts _ Sr) as (Mr & Yr & Vr & B16 & Er).
  destruct (zeros_common _ Z0) as [CM CR].
  ebind H i1 i2 b H1 H2. destruct b.
  - apply emits_ret in H2 as [-> _]. rewrite app_nil_r.
    assert (K : exists x b rm, decode false 1 (render s i1 ++ rest) = Some (roo_hdr type code r x b false, regno r, rm, rest)
       /\ SpecIsa.rm_is op (roo_hdr type code r x b false) rm /\ (forall a, op = OMem a -> exists m, rm = RMem m /\ mem_matches (getRegExp a) m)).
    { destruct (roo_hdr_form type code r noReg noReg g CE B16) as (_ & _ & _ & _ & _ & _ & _ & _ & _ & HA & HN).
      destruct op as [b|a].
      - destruct (roo_reg_hdr s _ _ _ _ _ _ _ rest HA HN H1) as (v & D). exists noReg, b, (RReg (regno b) v). split; auto. split; [|discriminate].
        cbn. destruct (simple_facts _ Ho) as (_ & _ & -> & _). reflexivity.
      - destruct (roo_mem_hdr s a _ _ _ _ _ _ rest (amem64_amem _ Ho) HA HN H1) as (x & b & m & D1 & D2 & D3).
        exists x, b, (RMem m). split; auto. split; auto. intros a' E. injection E as <-. eauto. }
    destruct K as (x & b & rm & D & RM & MM).
    destruct (roo_hdr_form type code r x b g CE B16) as (FO & SP & HV & HA & HZ & HB & HL & LG & TG & _).
    split.
    + right. exists g, (roo_hdr type code r x b false), rm, 0. split; auto. split.
      { rewrite TG. assert (BC : bcast op = false) by (destruct op as [|a]; [reflexivity|apply Ho]). rewrite BC. exact D. }
      assert (BC : bcast op = false) by (destruct op as [|a]; [reflexivity|apply Ho]).
      split; auto. split; auto. split; auto. split; auto. rewrite LG. split; auto. split; [congruence|].
      rewrite HA, HZ, HB, HL. split; auto. split; [reflexivity|]. split; auto. split; [congruence|]. split; [intros _; rewrite BC; auto|]. split; lia.
    + intros a E. destruct (MM a E) as (m & -> & M). eauto.
  - destruct (opROO_result _ _ _ _ _ _ _ _ _ _ _ H1) as (NX & N0). rewrite (N0 eq_refl). clear N0. cbn [app].
    symmetry in NX. repeat (apply orb_false_iff in NX as [NX ?]).
    unfold vcheck in CV. repeat (apply andb_prop in CV as [CV ?]). apply is_L0_eq in CV.
    repeat match goal with Q : negb _ = true |- _ => apply negb_true_iff in Q end.
    assert (Hr2 : hasEvex r = false). { apply Er. match goal with Q : hasRex2NFZU (OReg r) = false |- _ => unfold hasRex2NFZU in Q; do 2 apply orb_false_iff in Q as [Q _]; exact Q end. }
    assert (Mp : omods_ok p1). { destruct p1 as [p|]; [subst p; unfold omods_ok, mods_ok; cbn; lia|exact I]. }
    assert (Ep : ovb p1 hasEvex = false). { destruct p1 as [p|]; [subst p; reflexivity|reflexivity]. }
    assert (Vp : vreg p1 = 0). { destruct p1 as [p|]; [subst p; reflexivity|reflexivity]. }
    assert (LL : vex_L type' r = 0). { unfold vex_L. rewrite Yr. match goal with Q : has type' T_L1 = false |- _ => rewrite Q end. destruct (has type' T_L0); reflexivity. }
    assert (RR : forall q, hasRex2NFZU q = false -> hasRex2 q = false) by (intros q Q; unfold hasRex2NFZU in Q; do 2 apply orb_false_iff in Q as [Q _]; exact Q).
    match goal with Q : hasRex2NFZU op = false |- _ => apply RR in Q; rename Q into Ro end.
    match goal with Q : has type' (T_MUST_EVEX ||| T_MEM_EVEX) = false |- _ => rename Q into NM end.
    assert (NM1 : has type' T_MUST_EVEX = false) by (rewrite has_lor in NM; now apply orb_false_iff in NM).
    destruct op as [b|a].
    + destruct (simple_facts _ Ho) as (Mb & _ & Vb & _ & Eb). specialize (Eb Ro). split; [|discriminate].
      assert (UE : uses_evex_reg r p1 b type' = false) by (unfold uses_evex_reg; now rewrite NM1, Hr2, Ep, Eb).
      destruct (vex_reg_lemma s _ _ _ _ _ _ _ _ _ rest _ Mr Mb Mp UE H2) as (h & D & SY).
      destruct SY as (S1 & S2 & S3 & S4' & S5 & S6 & S7 & S8).
      left. exists f, h, (RReg (regno b) (regno b)). split; auto. split; auto. split; auto.
      split. { eapply form_match_ok; eauto. }
      split. { rewrite S7, LL, CV. reflexivity. }
      split; [congruence|]. split. { cbn. now rewrite Vb. } split; auto.
    + destruct Ho as (Ma & N32 & NVx & Nk & Nb & _). cbn [hasRex2] in Ro.
      assert (UE : uses_evex_mem r p1 a type' = false) by (unfold uses_evex_mem; now rewrite NM, Hr2, Ep, Nb, Nk, Ro).
      pose proof (mem_ok_base _ Ma) as (BM & BR & BZ). pose proof (bare_mods _ (mem_ok_base _ Ma)) as Mb. destruct Ma as [Wa D8 PV _ _ Mk _].
      assert (VS : isVsib a = false).
      { unfold isVsib. destruct (wf_index _ (wm_e _ Wa)) as [Hn|[[Hg|Hv] _]]; [| |contradiction].
        - destruct Hn as (_ & B & _). unfold isVsibE, isBit. rewrite B. reflexivity.
        - destruct Hg as (K & B & _). unfold isVsibE, isBit. destruct B as [-> | ->]; reflexivity. }
      assert (NR : no_rounding r p1 (e_base (getRegExp a))).
      { unfold no_rounding. rewrite BR. split; [apply Sr|]. destruct p1; [subst; split; reflexivity|split; reflexivity]. }
      destruct (opVex_mem_dec s r p1 a type' code NONE env (pos + items_size i1) i2 rest u Wa D8 PV Mr Mp Mb Mk NR ltac:(congruence) ltac:(congruence) H2) as (h & m & d8 & D & M & Hh & _).
      unfold vex_mem_header in Hh. rewrite UE in Hh. destruct Hh as (-> & _). rewrite VS in D.
      destruct (vex_mem_lemma s r p1 a type' code NONE env (pos + items_size i1) i2 rest u Wa D8 PV Mr Mp Mb Mk NR UE ltac:(congruence) H2) as (h' & m' & D' & DN & SY & _).
      rewrite VS, D in D'. injection D' as <- <-.
      split; [|intros a' E; injection E as <-; eauto].
      destruct SY as (S1 & S2 & S3 & S4' & S5 & S6 & S7 & S8).
      left. exists f, h, (RMem m). split; auto. split; [exact D|]. split; auto.
      split. { eapply form_match_ok; eauto. }
      split. { rewrite S7, LL, CV. reflexivity. }
      split; [congruence|]. split; auto.
Qed.

(* ---- kmov ---- *)
Definition ktype (size : Z) (isReg : bool) : Z :=
  T_0F ||| (if size =? 8 then T_W0 ||| T_66 else if size =? 16 then T_W0
            else if size =? 32 then (if isReg then T_W0 ||| T_F2 else T_W1 ||| T_66)
            else if size =? 64 then (if isReg then T_W1 ||| T_F2 else T_W1) else 0).
Definition kreg (size : Z) : Z := if size <? 64 then 32 else 64.
Definition kmove (r : Reg) (op : Operand) (size : Z) (isReg : bool) (code : Z) : E unit :=
  done <- opROO noReg op (OReg r) (T_APX ||| ktype size isReg) code 0 NONE ;;
  if (done : bool) then ret tt else opVex r None op (T_L0 ||| ktype size isReg) code NONE.
Lemma opmask_kind k : opmask_reg k -> (forall w, oREGb (OReg k) w = false) /\ isOPMASK k = true.
Proof. intros (K & B & _). unfold oREGb, isOPMASK, isREGb, is_. cbn [ob]. rewrite K. split; reflexivity. Qed.
Lemma kmov_red k op rev size isReg env pos its u :
  oREGb op (kreg size) = isReg ->
  emits (opKmov k op rev size) env pos its u ->
  if rev
  then (isReg = true /\ match op with OReg r => emits (kmove r (OReg k) size true 0x93) env pos its u | OMem _ => True end)
       \/ (isReg = false /\ isMEM op = true /\ emits (kmove k op size false 0x91) env pos its u)
  else ((isOPMASK (ob op) || isMEM op = true) /\ emits (kmove k op size isReg 0x90) env pos its u)
       \/ (isReg = true /\ emits (kmove k op size true 0x92) env pos its u).
Proof.
  intros E H. unfold opKmov in H. apply emits_fn in H. cbv zeta in H. fold (kreg size) in H. rewrite E in H. destruct rev.
  - destruct isReg.
    + left. split; auto. destruct op as [r|]; [exact H|exact I].
    + right. destruct (isMEM op); [|apply emits_throw in H; contradiction]. split; [reflexivity|]. split; [reflexivity|exact H].
  - destruct (isOPMASK (ob op) || isMEM op); [left; split; auto|]. destruct isReg; [right; split; auto|apply emits_throw in H; contradiction].
Qed.
Lemma plain_zero ops : Forall plain ops -> Forall (fun o => omask o = 0 /\ ornd o = 0) ops.
Proof. apply Forall_impl. intros [r|a]; cbn; [intros (A & B & _); auto|intros (_ & _ & _ & A & _); auto]. Qed.
Ltac opp :=
  intros s ops imm act env pos its rest u Hf Ha Hp H; unfold en_fun, en_sig, en_row, en_vl in *;
  pose proof (plain_zero _ Hp) as Hz;
  repeat match goal with
  | Q : Forall2 _ (_ :: _) _ |- _ => inversion Q; clear Q; subst
  | Q : Forall2 _ [] _ |- _ => inversion Q; clear Q; subst
  end.
Lemma simple_k k : opmask_reg k -> bare k -> simple k.
Proof. intros A B. split; auto. Qed.
Section Kmov.
Variables (size : Z) (nm : string) (row : vrow).
Hypothesis (ED : r_digit row = None).
Lemma km_kk : r_enc row = RM -> kcheck (T_APX ||| ktype size false) (T_L0 ||| ktype size false) 0x90 row = true ->
  implements_plain (mkEntry nm [cK; cK] (ro (fun k o => opKmov k o false size)) row VlAll).
Proof.
  intros EE C. opp. destruct y as [k|], y0 as [k2|]; try contradiction. cbn [ro] in Hf. fun_. slots EE ED.
  pose proof (Forall_inv Hp) as B1. pose proof (Forall_inv (Forall_inv_tail Hp)) as B2.
  match goal with Q : arg_ok cK (OReg k) |- _ => destruct Q as [K1 _] end. match goal with Q : arg_ok cK (OReg k2) |- _ => destruct Q as [K2 _] end.
  destruct (opmask_kind _ K2) as (N & O). eapply kmov_red in H; [|apply N]. destruct H as [[_ H]|[Q _]]; [|discriminate].
  refine (proj1 (kt_core s row k None (OReg k2) _ _ _ _ _ env pos its rest u C (simple_k _ K1 B1) I (simple_k _ K2 B2) Hz H)).
Qed.
Lemma km_km : r_enc row = RM -> kcheck (T_APX ||| ktype size false) (T_L0 ||| ktype size false) 0x90 row = true ->
  implements_plain (mkEntry nm [cK; cA] (ro (fun k o => opKmov k o false size)) row VlAll).
Proof.
  intros EE C. opp. destruct y as [k|], y0 as [|ad]; try contradiction. cbn [ro] in Hf. fun_. slots EE ED.
  pose proof (Forall_inv Hp) as B1. pose proof (Forall_inv (Forall_inv_tail Hp)) as B2.
  match goal with Q : arg_ok cK (OReg k) |- _ => destruct Q as [K1 _] end. match goal with Q : arg_ok cA _ |- _ => rename Q into A2 end.
  eapply (kmov_red _ _ _ _ false) in H. 2:{ unfold oREGb, isREGb, is_. cbn [ob]. rewrite (wm_kind _ (mo_wf _ A2)). reflexivity. }
  destruct H as [[_ H]|[Q _]]; [|discriminate].
  refine (proj1 (kt_core s row k None (OMem ad) _ _ _ _ _ env pos its rest u C (simple_k _ K1 B1) I B2 Hz H)).
Qed.
Lemma gpr_kind r : gpr r -> bit_ r = kreg size -> oREGb (OReg r) (kreg size) = true /\ isOPMASK r = false /\ bit_ r <> 16.
Proof.
  intros (K & _) B. unfold oREGb, isREGb, isOPMASK, is_. cbn [ob]. rewrite K, B. unfold kreg. destruct (size <? 64); repeat split; discriminate.
Qed.
Lemma km_kr : r_enc row = RM -> kcheck (T_APX ||| ktype size true) (T_L0 ||| ktype size true) 0x92 row = true ->
  implements_plain (mkEntry nm [cK; cR (kreg size)] (ro (fun k o => opKmov k o false size)) row VlAll).
Proof.
  intros EE C. opp. destruct y as [k|], y0 as [r|]; try contradiction. cbn [ro] in Hf. fun_. slots EE ED.
  pose proof (Forall_inv Hp) as B1. pose proof (Forall_inv (Forall_inv_tail Hp)) as B2.
  match goal with Q : arg_ok cK (OReg k) |- _ => destruct Q as [K1 _] end. match goal with Q : arg_ok (cR _) _ |- _ => destruct Q as (G2 & _ & W2) end.
  destruct (gpr_kind _ G2 W2) as (E & O & N). eapply kmov_red in H; [|exact E].
  destruct H as [[Q _]|[_ H]]; [cbn [ob isMEM] in Q; rewrite O in Q; discriminate|].
  refine (proj1 (kt_core s row k None (OReg r) _ _ _ _ _ env pos its rest u C (simple_k _ K1 B1) I (conj (or_intror (or_intror (conj G2 N))) B2) Hz H)).
Qed.
Lemma km_rk : r_enc row = RM -> kcheck (T_APX ||| ktype size true) (T_L0 ||| ktype size true) 0x93 row = true ->
  implements_plain (mkEntry nm [cR (kreg size); cK] (rr (fun r k => opKmov k (OReg r) true size)) row VlAll).
Proof.
  intros EE C. opp. destruct y as [r|], y0 as [k|]; try contradiction. cbn [rr] in Hf. fun_. slots EE ED.
  pose proof (Forall_inv Hp) as B1. pose proof (Forall_inv (Forall_inv_tail Hp)) as B2.
  match goal with Q : arg_ok cK (OReg k) |- _ => destruct Q as [K1 _] end. match goal with Q : arg_ok (cR _) _ |- _ => destruct Q as (G2 & _ & W2) end.
  destruct (gpr_kind _ G2 W2) as (E & O & N). eapply kmov_red in H; [|exact E].
  destruct H as [[_ H]|[Q _]]; [|discriminate].
  refine (proj1 (kt_core s row r None (OReg k) _ _ _ _ _ env pos its rest u C (conj (or_intror (or_intror (conj G2 N))) B1) I (simple_k _ K1 B2) Hz H)).
Qed.
Lemma km_mk : r_enc row = MR -> kcheck (T_APX ||| ktype size false) (T_L0 ||| ktype size false) 0x91 row = true ->
  implements_plain (mkEntry nm [cA; cK] (ar (fun a k => opKmov k (OMem a) true size)) row VlAll).
Proof.
  intros EE C. opp. destruct y as [|ad], y0 as [k|]; try contradiction. cbn [ar] in Hf. fun_. slots EE ED.
  pose proof (Forall_inv Hp) as B1. pose proof (Forall_inv (Forall_inv_tail Hp)) as B2.
  match goal with Q : arg_ok cK (OReg k) |- _ => destruct Q as [K1 _] end. match goal with Q : arg_ok cA _ |- _ => rename Q into A2 end.
  eapply (kmov_red _ _ _ _ false) in H. 2:{ unfold oREGb, isREGb, is_. cbn [ob]. rewrite (wm_kind _ (mo_wf _ A2)). reflexivity. }
  destruct H as [[Q _]|(_ & _ & H)]; [discriminate|].
  refine (proj1 (kt_core s row k None (OMem ad) _ _ _ _ _ env pos its rest u C (simple_k _ K1 B2) I B1 Hz H)).
Qed.
End Kmov.
(* KMOVB/W/D/Q: VEX.L0.{66}.0F.W{0,1} 90 /r (k, k/m), 91 /r (m, k), 92 /r (k, r32/64), 93 /r (r32/64, k);
   with r16 .. r31 the same in EVEX (APX), displacements are not compressed *)
Definition krow (enc : list slot) (p : ppfx) (w : wclass) (o : Z) : vrow := mkRow enc None (V L_0 p M0F w o) (EV L_0 p M0F w o (TS 1) NoRc).
Definition kmov_table : list entry := [
  mkEntry "kmovb/ko" [cK; cK] (ro i_kmovb_ko) (krow RM P66 W0 0x90) VlAll;
  mkEntry "kmovw/ko" [cK; cK] (ro i_kmovw_ko) (krow RM NP W0 0x90) VlAll;
  mkEntry "kmovd/ko" [cK; cK] (ro i_kmovd_ko) (krow RM P66 W1 0x90) VlAll;
  mkEntry "kmovq/ko" [cK; cK] (ro i_kmovq_ko) (krow RM NP W1 0x90) VlAll;
  mkEntry "kmovb/ko" [cK; cA] (ro i_kmovb_ko) (krow RM P66 W0 0x90) VlAll;
  mkEntry "kmovw/ko" [cK; cA] (ro i_kmovw_ko) (krow RM NP W0 0x90) VlAll;
  mkEntry "kmovd/ko" [cK; cA] (ro i_kmovd_ko) (krow RM P66 W1 0x90) VlAll;
  mkEntry "kmovq/ko" [cK; cA] (ro i_kmovq_ko) (krow RM NP W1 0x90) VlAll;
  mkEntry "kmovb/ko" [cK; cR 32] (ro i_kmovb_ko) (krow RM P66 W0 0x92) VlAll;
  mkEntry "kmovw/ko" [cK; cR 32] (ro i_kmovw_ko) (krow RM NP W0 0x92) VlAll;
  mkEntry "kmovd/ko" [cK; cR 32] (ro i_kmovd_ko) (krow RM PF2 W0 0x92) VlAll;
  mkEntry "kmovq/ko" [cK; cR 64] (ro i_kmovq_ko) (krow RM PF2 W1 0x92) VlAll;
  mkEntry "kmovb/dk" [cR 32; cK] (rr i_kmovb_dk) (krow RM P66 W0 0x93) VlAll;
  mkEntry "kmovw/dk" [cR 32; cK] (rr i_kmovw_dk) (krow RM NP W0 0x93) VlAll;
  mkEntry "kmovd/dk" [cR 32; cK] (rr i_kmovd_dk) (krow RM PF2 W0 0x93) VlAll;
  mkEntry "kmovq/qk" [cR 64; cK] (rr i_kmovq_qk) (krow RM PF2 W1 0x93) VlAll;
  mkEntry "kmovb/ak" [cA; cK] (ar i_kmovb_ak) (krow MR P66 W0 0x91) VlAll;
  mkEntry "kmovw/ak" [cA; cK] (ar i_kmovw_ak) (krow MR NP W0 0x91) VlAll;
  mkEntry "kmovd/ak" [cA; cK] (ar i_kmovd_ak) (krow MR P66 W1 0x91) VlAll;
  mkEntry "kmovq/ak" [cA; cK] (ar i_kmovq_ak) (krow MR NP W1 0x91) VlAll].
Lemma kmov_all : Forall implements_plain kmov_table.
Proof.
  unfold kmov_table. repeat apply Forall_cons; [..|apply Forall_nil];
  first [apply (km_kk 8); [reflexivity|reflexivity|chk] | apply (km_kk 16); [reflexivity|reflexivity|chk] | apply (km_kk 32); [reflexivity|reflexivity|chk] | apply (km_kk 64); [reflexivity|reflexivity|chk]
    | apply (km_km 8); [reflexivity|reflexivity|chk] | apply (km_km 16); [reflexivity|reflexivity|chk] | apply (km_km 32); [reflexivity|reflexivity|chk] | apply (km_km 64); [reflexivity|reflexivity|chk]
    | apply (km_kr 8); [reflexivity|reflexivity|chk] | apply (km_kr 16); [reflexivity|reflexivity|chk] | apply (km_kr 32); [reflexivity|reflexivity|chk] | apply (km_kr 64); [reflexivity|reflexivity|chk]
    | apply (km_rk 8); [reflexivity|reflexivity|chk] | apply (km_rk 16); [reflexivity|reflexivity|chk] | apply (km_rk 32); [reflexivity|reflexivity|chk] | apply (km_rk 64); [reflexivity|reflexivity|chk]
    | apply (km_mk 8); [reflexivity|reflexivity|chk] | apply (km_mk 16); [reflexivity|reflexivity|chk] | apply (km_mk 32); [reflexivity|reflexivity|chk] | apply (km_mk 64); [reflexivity|reflexivity|chk]].
Qed.

(* ---- AMX ---- *)
Definition trow (enc : list slot) (p : ppfx) (o : Z) : vrow := mkRow enc None (V L_0 p M0F38 W0 o) (EV L_0 p M0F38 W0 o (TS 1) NoRc).
Lemma tmm_simple t : arg_ok cT (OReg t) -> simple t.
Proof. intros (A & B). split; auto. Qed.
Lemma tmm0_simple : simple (Tmm 0).
Proof. split; [right; left|]; repeat split; cbn; lia. Qed.
Lemma core_clone row vl reg v a ops tail bs rest :
  says_core row vl reg v (OMem (cloneNoOptimize a)) ops tail bs rest -> says_core row vl reg v (OMem a) ops tail bs rest.
Proof.
  intros [H|H]; [left; exact H|right]. destruct H as (f & h & rm & rnd & H1 & H2 & H3 & H4 & H5 & H6 & H7 & H8 & H9 & H10 & H11 & H12 & H13).
  exists f, h, rm, rnd. repeat (split; [assumption|]). split; [|exact H13]. intros N. destruct (H12 N) as (r & Q). discriminate.
Qed.
Section Tile.
Variables (nm : string) (row : vrow) (type type' code : Z).
Hypothesis (C : kcheck type type' code row = true).
Lemma tl_cfg : r_digit row = Some 0 -> r_enc row = M_ ->
  implements_plain (mkEntry nm [cA] (a1 (fun a => done <- opROO noReg (OMem a) (OReg (Tmm 0)) type code 0 NONE ;;
     if (done : bool) then ret tt else opVex (Tmm 0) (Some (Tmm 0)) (OMem a) type' code NONE)) row VlAll).
Proof.
  intros ED EE. opp. destruct y as [|ad]; try contradiction. cbn [a1] in Hf. fun_. slots EE ED.
  pose proof (Forall_inv Hp) as B1.
  refine (proj1 (kt_core s row (Tmm 0) (Some (Tmm 0)) (OMem ad) _ _ _ _ _ env pos its rest u C tmm0_simple eq_refl B1 Hz H)).
Qed.
Lemma tl_store : r_digit row = None -> r_enc row = MR ->
  implements_plain (mkEntry nm [cA; cT] (ar (fun a t => done <- opROO noReg (OMem a) (OReg t) type code 0 NONE ;;
     if (done : bool) then ret tt else opVex t (Some (Tmm 0)) (OMem a) type' code NONE)) row VlAll).
Proof.
  intros ED EE. opp. destruct y as [|ad], y0 as [t|]; try contradiction. cbn [ar] in Hf. fun_. slots EE ED.
  pose proof (Forall_inv Hp) as B1.
  refine (proj1 (kt_core s row t (Some (Tmm 0)) (OMem ad) _ _ _ _ _ env pos its rest u C (tmm_simple _ _) eq_refl B1 Hz H)). auto.
Qed.
(* base and index named in the SIB byte, if both are there *)
Definition both (a : Address) : Prop := present (e_base (a_e a)) = true /\ present (e_index (a_e a)) = true.
Lemma store_sib s a t env pos its rest u : amem64 a -> arg_ok cT (OReg t) -> both a ->
  emits (done <- opROO noReg (OMem a) (OReg t) type code 0 NONE ;; if (done : bool) then ret tt else opVex t (Some (Tmm 0)) (OMem a) type' code NONE) env pos its u ->
  sib_form a (render s its) rest.
Proof.
  intros A T (PB & PX) H.
  destruct (proj2 (kt_core s row t (Some (Tmm 0)) (OMem a) type type' code 0 [] env pos its rest u C (tmm_simple _ T) eq_refl A (Forall_nil _) H) a eq_refl) as (h & m & D & M).
  exists h, (regno t), m, rest. split; auto. destruct M as (M1 & M2 & _).
  assert (EO : getRegExp a = a_e a).
  { unfold getRegExp. destruct (a_optimize a); [|reflexivity]. unfold optimize. unfold present in PB. apply negb_true_iff in PB. unfold getBit. rewrite PB, andb_false_r. reflexivity. }
  rewrite EO, PB in M1. rewrite EO, PX in M2. auto.
Qed.
End Tile.
Section Load.
Variables (nm : string) (row : vrow) (type code : Z).
Hypothesis (C : kcheck (T_APX ||| type) type code row = true).
Lemma amx_red t a env pos its u : emits (opAMX t a type code) env pos its u ->
  both a /\ emits (done <- opROO noReg (OMem (cloneNoOptimize a)) (OReg t) (T_APX ||| type) code 0 NONE ;;
    if (done : bool) then ret tt else opVex t (Some (Tmm 0)) (OMem (cloneNoOptimize a)) type code NONE) env pos its u.
Proof.
  intros H. unfold opAMX in H. apply emits_fn in H. cbv zeta in H. change (getRegExp (cloneNoOptimize a)) with (a_e a) in H.
  destruct ((getBit (e_base (a_e a)) =? 0) || (getBit (e_index (a_e a)) =? 0)) eqn:G; [apply emits_throw in H; contradiction|].
  apply orb_false_iff in G as [G1 G2]. split; [|exact H]. unfold both, present, getBit in *. rewrite G1, G2. auto.
Qed.
Lemma clone64 a : amem64 a -> amem64 (cloneNoOptimize a).
Proof. intros ([[] ] & R). split; [constructor; auto; constructor; auto|exact R]. Qed.
Lemma tl_load : r_digit row = None -> r_enc row = RM ->
  implements_plain (mkEntry nm [cT; cA] (ra (fun t a => opAMX t a type code)) row VlAll).
Proof.
  intros ED EE. opp. destruct y as [t|], y0 as [|ad]; try contradiction. cbn [ra] in Hf. fun_. slots EE ED.
  pose proof (Forall_inv (Forall_inv_tail Hp)) as B1. apply amx_red in H as [_ H]. apply core_clone.
  refine (proj1 (kt_core s row t (Some (Tmm 0)) (OMem (cloneNoOptimize ad)) _ _ _ _ _ env pos its rest u C (tmm_simple _ _) eq_refl (clone64 _ B1) Hz H)). auto.
Qed.
Lemma load_sib s t a env pos its rest u : arg_ok cT (OReg t) -> amem64 a -> emits (opAMX t a type code) env pos its u ->
  sib_form a (render s its) rest.
Proof.
  intros T A H. apply amx_red in H as [B H].
  exact (store_sib row (T_APX ||| type) type code C s (cloneNoOptimize a) t env pos its rest u (clone64 _ A) T B H).
Qed.
End Load.
(* TILELOADD VEX.128.F2.0F38.W0 4B !(11):rrr:100, TILELOADDT1 66, TILESTORED F3, LDTILECFG NP 49 /0, STTILECFG 66 49 /0 *)
Definition crow (p : ppfx) : vrow := mkRow M_ (Some 0) (V L_0 p M0F38 W0 0x49) (EV L_0 p M0F38 W0 0x49 (TS 1) NoRc).
Definition tile_table : list entry := [
  mkEntry "ldtilecfg/a" [cA] (a1 i_ldtilecfg) (crow NP) VlAll;
  mkEntry "sttilecfg/a" [cA] (a1 i_sttilecfg) (crow P66) VlAll;
  mkEntry "tileloadd/ta" [cT; cA] (ra i_tileloadd) (trow RM PF2 0x4B) VlAll;
  mkEntry "tileloaddt1/ta" [cT; cA] (ra i_tileloaddt1) (trow RM P66 0x4B) VlAll;
  mkEntry "tilestored/at" [cA; cT] (ar i_tilestored) (trow MR PF3 0x4B) VlAll].
Lemma tile_all : Forall implements_plain tile_table.
Proof.
  apply Forall_cons; [apply tl_cfg; [chk|reflexivity|reflexivity]|].
  apply Forall_cons; [apply tl_cfg; [chk|reflexivity|reflexivity]|].
  apply Forall_cons; [apply tl_load; [chk|reflexivity|reflexivity]|].
  apply Forall_cons; [apply tl_load; [chk|reflexivity|reflexivity]|].
  apply Forall_cons; [apply tl_store; [chk|reflexivity|reflexivity]|]. apply Forall_nil.
Qed.
(* the SIB byte required by these instructions *)
Lemma tile_sib s t a env pos its rest u : arg_ok cT (OReg t) -> amem64 a ->
  emits (i_tileloadd t a) env pos its u \/ emits (i_tileloaddt1 t a) env pos its u \/ (both a /\ emits (i_tilestored a t) env pos its u) ->
  sib_form a (render s its) rest.
Proof.
  intros T A [H|[H|[B H]]].
  - refine (load_sib (trow RM PF2 0x4B) _ _ _ s t a env pos its rest u T A H). chk.
  - refine (load_sib (trow RM P66 0x4B) _ _ _ s t a env pos its rest u T A H). chk.
  - refine (store_sib (trow MR PF3 0x4B) _ _ _ _ s a t env pos its rest u A T B H). chk.
Qed.
