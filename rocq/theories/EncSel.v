(* Which of VEX and EVEX a method with an encoding parameter emits. *)
From Coq Require Import ZArith List Bool String Lia.
From Verif Require Import Base Types Emit Encode SpecX86 SpecAddr SpecIsa SpecInsn Wf EmitFacts MemFacts LegacyFacts VexFacts VexTac VexShapes3 Mnemonic MnemonicAvx.
Import ListNotations.
Open Scope Z_scope.

(* ---- specification ---- *)
(* in 64-bit mode 62 starts an EVEX instruction, C4 and C5 a VEX instruction; 67 may precede *)
Definition starts (evex : bool) (bs : list Z) : Prop :=
  exists b r, (bs = b :: r \/ bs = 0x67 :: b :: r) /\ if evex then b = 0x62 else b = 0xC4 \/ b = 0xC5.
(* the choice of encoding: the argument, or else the generator's default; group 0 is VEX or EVEX
   (AVX-VNNI against AVX512-VNNI), group 1 PreAVX10.2 (VEX) or AVX10.2 (EVEX) *)
Definition chosen (env : Env) (group : Z) (enc : PreferredEncoding) : PreferredEncoding :=
  match enc with DefaultEncoding => if group =? 0 then env_enc0 env else env_enc1 env | _ => enc end.
Definition wants_evex (group : Z) (enc : PreferredEncoding) : option bool :=
  match enc with
  | VexEncoding => if group =? 0 then Some false else None
  | EvexEncoding => if group =? 0 then Some true else None
  | PreAVX10v2Encoding => if group =? 0 then None else Some false
  | AVX10v2Encoding => if group =? 0 then None else Some true
  | DefaultEncoding => None
  end.
(* whatever operands a method is given, what it emits has the chosen encoding; without a valid choice it
   emits nothing and reports ERR_BAD_ENCODING_MODE *)
Definition selects (group : Z) (f : PreferredEncoding -> E unit) : Prop :=
  forall enc env pos, match wants_evex group (chosen env group enc) with
  | Some b => forall s its u, emits (f enc) env pos its u -> starts b (render s its)
  | None => env_noexc env = false -> f enc env pos = ([], Err ERR_BAD_ENCODING_MODE)
  end.

(* ---- opVex ---- *)
Definition istarts (evex : bool) (its : list item) : Prop := exists b r, its = IDb b :: r /\ if evex then b = 0x62 else b = 0xC4 \/ b = 0xC5.
Lemma vex_starts reg base v type code x env pos its u : emits (vex reg base v type code x) env pos its u -> istarts false its.
Proof.
  unfold vex. intros H. apply emits_fn in H. cbv zeta in H. destruct (16 <=? _); [einv H|].
  ebind H i1 i2 a H1 H2. destruct (_ && _ && _ && _).
  - ebind H1 j1 j2 w1 H1 H3. apply emits_db in H1. subst. exists 0xC5, (j2 ++ i2). auto.
  - ebind H1 j1 j2 w1 H1 H3. apply emits_db in H1. subst. exists 0xC4, (j2 ++ i2). auto.
Qed.
Lemma nil_if {A} (c : bool) (m m' : E A) env pos its a : emits (if c then m else m') env pos its a ->
  (emits m env pos its a -> its = []) -> (emits m' env pos its a -> its = []) -> its = [].
Proof. destruct c; auto. Qed.
Lemma dup_nil a b c e env pos its x : emits (verifyDuplicate a b c e) env pos its x -> its = [].
Proof. unfold verifyDuplicate. intros H. apply emits_fn in H. cbv zeta in H. repeat (match type of H with emits (if ?c then _ else _) _ _ _ _ => destruct c end); first [apply emits_ret in H; tauto | einv H]. Qed.
Lemma sae_nil a b t env pos its x : emits (verifySAE a b t) env pos its x -> its = [].
Proof. unfold verifySAE. intros H. apply emits_fn in H. repeat (match type of H with emits (if ?c then _ else _) _ _ _ _ => destruct c end); first [apply emits_ret in H; tauto | einv H]. Qed.
Lemma er_nil a b t env pos its x : emits (verifyER a b t) env pos its x -> its = [].
Proof. unfold verifyER. intros H. apply emits_fn in H. repeat (match type of H with emits (if ?c then _ else _) _ _ _ _ => destruct c end); first [apply emits_ret in H; tauto | einv H]. Qed.
Lemma evex_starts reg base v type code x b aaa VL hi env pos its u : emits (evex reg base v type code x b aaa VL hi) env pos its u ->
  has type (T_EVEX ||| T_MUST_EVEX) = true /\ istarts true its.
Proof.
  unfold evex. intros H. apply emits_fn in H. destruct (has type (T_EVEX ||| T_MUST_EVEX)); cbn [negb] in H; [|einv H]. split; auto. cbv zeta in H.
  ebind H i1 i2 a H1 H. apply dup_nil in H1. subst i1. cbn [app].
  ebind H i1 i3 w1 H1 H.
  assert (i1 = []).
  { destruct (negb (a =? 0)).
    - ebind H1 j1 j2 a2 H1 H2. apply emits_ret in H2 as [-> _]. destruct (a =? 5); [apply sae_nil in H1|apply er_nil in H1]; subst; reflexivity.
    - apply emits_ret in H1. tauto. }
  subst i1. clear H1. cbn [app]. destruct w1 as [[[U bb] LL] d8].
  ebind H i1 i4 a2 H1 H.
  assert (i1 = []). { destruct (aaa =? 0); [now apply dup_nil in H1|apply emits_ret in H1; tauto]. }
  subst i1. clear H1. cbn [app]. ebind H i1 i5 a3 H1 H. apply emits_db in H1. subst i1. exists 0x62, i5. auto.
Qed.

Definition uses_evex (r : Reg) (p1 : option Reg) (op : Operand) (type : Z) : bool :=
  match op with OMem a => uses_evex_mem r p1 a type | OReg b => uses_evex_reg r p1 b type end.
Lemma istarts_render s b its : istarts b its -> exists c r, render s its = c :: r /\ if b then c = 0x62 else c = 0xC4 \/ c = 0xC5.
Proof. intros (c & r & -> & H). exists c, (render s r). auto. Qed.
Lemma starts_app b l l' : istarts b l -> istarts b (l ++ l').
Proof. intros (c & r & -> & H). exists c, (r ++ l'). auto. Qed.
Lemma opVex_starts s r p1 op type code imm8 env pos its u : emits (opVex r p1 op type code imm8) env pos its u ->
  starts (uses_evex r p1 op type) (render s its) /\ (uses_evex r p1 op type = true -> has type (T_EVEX ||| T_MUST_EVEX) = true).
Proof.
  unfold opVex. intros H. apply emits_fn in H. ebind H i1 i2 u1 H1 H2. destruct op as [b|a]; cbn [uses_evex].
  - ebind H1 i3 i4 u2 H1 H3. fold (ovb p1 hasEvex) in H1. fold (uses_evex_reg r p1 b type) in H1.
    destruct (uses_evex_reg r p1 b type).
    + ebind H1 i5 i6 u3 H1 H4. apply evex_starts in H1 as [T S]. split; auto.
      rewrite <- !app_assoc. destruct (istarts_render s true _ (starts_app _ _ (i6 ++ i4 ++ i2) S)) as (c & rr & E & C).
      exists c, rr. auto.
    + apply vex_starts in H1 as S. split; [|discriminate].
      rewrite <- !app_assoc. destruct (istarts_render s false _ (starts_app _ _ (i4 ++ i2) S)) as (c & rr & E & C).
      exists c, rr. auto.
  - cbv zeta in H1. ebind H1 i3 i4 u2 H3 H1. ebind H1 i5 i6 d8 H4 H5.
    fold (ovb p1 hasEvex) in H4. fold (uses_evex_mem r p1 a type) in H4.
    assert (P : istarts (uses_evex_mem r p1 a type) i5 /\ (uses_evex_mem r p1 a type = true -> has type (T_EVEX ||| T_MUST_EVEX) = true)).
    { destruct (uses_evex_mem r p1 a type).
      - destruct (_ && _); [einv H4|]. destruct (_ && _); [einv H4|]. apply evex_starts in H4 as [T S]. auto.
      - ebind H4 i7 i8 u3 H6 H7. split; [|discriminate]. apply starts_app. eapply vex_starts; eauto. }
    destruct P as [S T]. split; auto. apply (render_when_db s) in H3. change (w8 103) with 0x67 in H3.
    destruct (istarts_render s _ _ (starts_app _ _ (i6 ++ i2) S)) as (c & rr & E & C).
    replace ((i3 ++ i5 ++ i6) ++ i2) with (i3 ++ (i5 ++ i6 ++ i2)) by (now rewrite !app_assoc). rewrite render_app, H3, E.
    exists c, rr. destruct (is32bit a); cbn; auto.
Qed.

Lemma uses_must r p1 op type : has type T_MUST_EVEX = true -> uses_evex r p1 op type = true.
Proof.
  intros H. destruct op as [b|a]; cbn [uses_evex].
  - unfold uses_evex_reg. rewrite H. reflexivity.
  - unfold uses_evex_mem. replace (has type (T_MUST_EVEX ||| T_MEM_EVEX)) with true; [reflexivity|].
    unfold has in *. symmetry. apply negb_true_iff in H. apply negb_true_iff. apply Z.eqb_neq in H. apply Z.eqb_neq. intros Q. apply H.
    rewrite Z.land_lor_distr_r in Q. apply Z.lor_eq_0_iff in Q. tauto.
Qed.
Lemma opVex_sel s r p1 op type code imm8 env pos its u (b : bool) :
  (if b then has type T_MUST_EVEX = true else has type (T_EVEX ||| T_MUST_EVEX) = false) ->
  emits (opVex r p1 op type code imm8) env pos its u -> starts b (render s its).
Proof.
  intros K H. destruct (opVex_starts s _ _ _ _ _ _ _ _ _ _ H) as [S T].
  replace b with (uses_evex r p1 op type); auto. destruct b; [now apply uses_must|].
  destruct (uses_evex r p1 op type); auto. rewrite (T eq_refl) in K. discriminate.
Qed.

(* ---- the choice ---- *)
Lemma getEncoding_eq enc sel env pos : sel = 0 \/ sel = 1 -> env_noexc env = false ->
  getEncoding enc sel env pos = match wants_evex sel (chosen env sel enc) with
    | Some _ => ([], Ok (chosen env sel enc)) | None => ([], Err ERR_BAD_ENCODING_MODE) end.
Proof.
  intros S N. unfold getEncoding, fn, bind, ask. cbn [app]. fold (chosen env sel enc).
  destruct S as [-> | ->]; cbn [Z.eqb wants_evex]; destruct (chosen env _ enc); cbn [PreferredEncoding_beq negb andb orb]; unfold throw, ret; rewrite ?N; reflexivity.
Qed.
Definition type_of (sel tv te : Z) (e : PreferredEncoding) : Z := match wants_evex sel e with Some false => tv | _ => T_MUST_EVEX ||| te end.
Lemma orEvexIf_eq enc tv te sel env pos : sel = 0 \/ sel = 1 -> env_noexc env = false ->
  orEvexIf enc tv te sel env pos = match wants_evex sel (chosen env sel enc) with
    | Some b => ([], Ok (if b then T_MUST_EVEX ||| te else tv)) | None => ([], Err ERR_BAD_ENCODING_MODE) end.
Proof.
  intros S N. unfold orEvexIf, bind. rewrite (getEncoding_eq _ _ _ _ S N).
  destruct S as [-> | ->]; cbn [Z.eqb wants_evex]; destruct (chosen env _ enc); reflexivity.
Qed.
Section Sel.
Variables (sel tv te : Z) (k : Z -> E unit).
Hypothesis (S : sel = 0 \/ sel = 1).
Hypothesis (KV : forall s env pos its u, emits (k tv) env pos its u -> starts false (render s its)).
Hypothesis (KE : forall s env pos its u, emits (k (T_MUST_EVEX ||| te)) env pos its u -> starts true (render s its)).
Lemma selects_or : selects sel (fun enc => t <- orEvexIf enc tv te sel ;; k t).
Proof.
  intros enc env pos. destruct (wants_evex sel (chosen env sel enc)) as [b|] eqn:W.
  - intros s its u H. pose proof (emits_noexc _ _ _ _ _ H) as N.
    ebind H i1 i2 t H1 H2. destruct H1 as [_ H1]. rewrite (orEvexIf_eq _ _ _ _ _ _ S N), W in H1.
    apply pair_equal_spec in H1 as [<- E]. apply (f_equal (fun r => match r with Ok a => a | _ => t end)) in E. cbv beta iota in E. rewrite <- E in H2. clear E t. cbn [app]. destruct b; [eapply KE|eapply KV]; exact H2.
  - intros N. unfold bind. rewrite (orEvexIf_eq _ _ _ _ _ _ S N), W. reflexivity.
Qed.
End Sel.
Lemma selects_opEncoding x1 x2 op type code imm tv te sel : sel = 0 \/ sel = 1 ->
  has (type ||| tv) (T_EVEX ||| T_MUST_EVEX) = false ->
  selects sel (fun enc => opEncoding x1 x2 op type code enc imm tv te sel).
Proof.
  intros S K. unfold opEncoding. apply (selects_or sel tv te (fun t => opAVX_X_X_XM x1 (OReg x2) op (type ||| t) code imm)); auto;
  intros s env pos its u H; unfold opAVX_X_X_XM in H; apply emits_fn in H; destruct (isNone (ob op)); cbv iota beta in H;
    (match type of H with emits (if ?c then _ else _) _ _ _ _ => destruct c; [einv H|] end); revert H; apply opVex_sel; auto;
    unfold has; rewrite Z.lor_assoc, (Z.lor_comm type), !Z.land_lor_distr_l, <- Z.lor_assoc; apply negb_true_iff, Z.eqb_neq; intros Q; apply Z.lor_eq_0_iff in Q as [Q _]; vm_compute in Q; discriminate.
Qed.

(* the methods: group and body *)
Definition enc_methods (x1 x2 : Reg) (op : Operand) (imm : Z) : list (string * Z * (PreferredEncoding -> E unit)) := [
  ("vcvtneps2bf16"%string, 0, i_vcvtneps2bf16 x1 op);
  ("vpdpbusd"%string, 0, i_vpdpbusd x1 x2 op);
  ("vpdpbusds"%string, 0, i_vpdpbusds x1 x2 op);
  ("vpdpwssd"%string, 0, i_vpdpwssd x1 x2 op);
  ("vpdpwssds"%string, 0, i_vpdpwssds x1 x2 op);
  ("vmpsadbw"%string, 1, i_vmpsadbw_xxoip x1 x2 op imm);
  ("vpdpbssd"%string, 1, i_vpdpbssd x1 x2 op);
  ("vpdpbssds"%string, 1, i_vpdpbssds x1 x2 op);
  ("vpdpbsud"%string, 1, i_vpdpbsud x1 x2 op);
  ("vpdpbsuds"%string, 1, i_vpdpbsuds x1 x2 op);
  ("vpdpbuud"%string, 1, i_vpdpbuud x1 x2 op);
  ("vpdpbuuds"%string, 1, i_vpdpbuuds x1 x2 op);
  ("vpdpwsud"%string, 1, i_vpdpwsud x1 x2 op);
  ("vpdpwsuds"%string, 1, i_vpdpwsuds x1 x2 op);
  ("vpdpwusd"%string, 1, i_vpdpwusd x1 x2 op);
  ("vpdpwusds"%string, 1, i_vpdpwusds x1 x2 op);
  ("vpdpwuud"%string, 1, i_vpdpwuud x1 x2 op);
  ("vpdpwuuds"%string, 1, i_vpdpwuuds x1 x2 op)].
Lemma selection_lemma x1 x2 op imm : Forall (fun '(_, group, f) => selects group f) (enc_methods x1 x2 op imm).
Proof.
  unfold enc_methods. apply Forall_cons.
  - unfold i_vcvtneps2bf16.
    apply (selects_or 0 0 T_MUST_EVEX (fun t => opCvt2 x1 op ((((((T_F3 ||| T_0F38) ||| T_EW0) ||| T_YMM) ||| T_SAE_Z) ||| T_B32) ||| t) 0x72)); auto;
    intros s env pos its u H; unfold opCvt2 in H; ebind H i1 i2 a H1 H2; unfold checkCvt2 in H1; apply emits_fn in H1;
    destruct (_ && _); try solve [einv H1]; apply emits_ret in H1 as [-> _]; cbn [app]; unfold opCvt in H2; revert H2; apply opVex_sel; reflexivity.
  - do 17 (apply Forall_cons; [apply selects_opEncoding; [auto|reflexivity]|]). apply Forall_nil.
Qed.
