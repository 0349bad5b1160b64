(* The encoder's VEX/EVEX path against the instruction forms of SpecIsa: if an attribute word agrees
   with a row, whatever opVex emits is an instruction of the row with the given operands. *)
From Coq Require Import ZArith List Bool Lia.
From Verif Require Import Base Types Emit Encode SpecX86 SpecAddr SpecIsa Wf EmitFacts BitFacts MemFacts LegacyFacts VexFacts EncThms.
Import ListNotations.
Open Scope Z_scope.

(* ---- comparison of attribute words with rows ---- *)
Definition form_match (type code : Z) (map : Z) (w : bool) (f : form) : bool :=
  (getPP type =? pp_num (f_pp f)) && (map =? map_num (f_map f)) && W_ok (f_W f) w && (w8 code =? f_opc f).
Definition T_ER_any := T_ER_X ||| T_ER_Y ||| T_ER_Z ||| T_ER_R.
Definition T_SAE_any := T_SAE_X ||| T_SAE_Y ||| T_SAE_Z.
Definition rc_match (type : Z) (rc : rclass) : bool :=
  match rc with
  | NoRc => negb (has type T_ER_any) && negb (has type T_SAE_any)
  | Er => negb (has type T_SAE_any) | Sae => negb (has type T_ER_any) end.
Definition lengths : list Z := [128; 256; 512].
Definition tuple_match (type : Z) (f : eform) : bool :=
  forallb (fun vl => negb (vl_in (f_L (e_form f)) vl)
                     || (disp8_factor (tuple_of type) vl None =? disp8_factor (e_tuple f) vl None))
          lengths.
Definition bcast_match (type : Z) (f : eform) : bool :=
  negb (has type (T_B32 ||| T_B64)) || match e_bcast f with Some n => n =? bcast_size type | None => false end.
Definition vex_match (type code : Z) (row : vrow) : bool :=
  has type T_MUST_EVEX || match r_vex row with Some f => form_match type code (getMap type) (has type T_W1) f | None => false end.
Definition evex_match (type code : Z) (row : vrow) : bool :=
  negb (has type (T_EVEX ||| T_MUST_EVEX)) ||
  match r_evex row with
  | Some f => form_match type code (evex_map type) (has type T_EW1) (e_form f) && tuple_match type f && bcast_match type f
  | None => false end.
Definition row_rc (type : Z) (row : vrow) : bool :=
  match r_evex row with Some f => rc_match type (e_rc f) | None => true end && negb (has type T_ER_R).
Definition row_match (type code : Z) (row : vrow) : bool :=
  vex_match type code row && evex_match type code row && negb (has type T_VSIB).

(* ---- rounding ---- *)
Lemma agreed_unique a b c v w : agreed a b c v -> agreed a b c w -> v = w.
Proof.
  unfold agreed. intros (H1 & A1 & B1 & C1) (H2 & A2 & B2 & C2).
  assert (K : forall x y, (x <> 0 -> a = x \/ b = x \/ c = x) -> (a = 0 \/ a = y) -> (b = 0 \/ b = y) -> (c = 0 \/ c = y) -> x <> 0 -> x = y).
  { intros x y H A B C N. destruct (H N) as [<-|[<-|<-]]; [destruct A|destruct B|destruct C]; auto; contradiction. }
  destruct (Z.eq_dec v 0) as [V|V]; [|eauto]. destruct (Z.eq_dec w 0) as [W|W]; [congruence|]. symmetry; eauto.
Qed.

Lemma has_or3 x a b c : has x (a ||| b ||| c) = has x a || has x b || has x c.
Proof. now rewrite !has_lor. Qed.
Lemma rc_bools (A B C x y z w : bool) :
  (A && (w && x)) || (B && x) || (C && y) = true \/ (A && x) || (B && y) || (C && z) = true ->
  A || B || C = true /\ x || y || z = true.
Proof. destruct A, B, C, x, y, z, w; cbn; intuition congruence. Qed.
Lemma isSIMD_or b : isSIMD b = isXMM b || isYMM b || isZMM b.
Proof.
  unfold isSIMD, isXMM, isYMM, isZMM, is_. change (XMM ||| YMM ||| ZMM =? 0) with false. change (XMM =? 0) with false.
  change (YMM =? 0) with false. change (ZMM =? 0) with false. cbn [orb andb Z.eqb]. rewrite !andb_true_r. apply has_or3.
Qed.
Lemma verifySAE_any r b type env pos its u : emits (verifySAE r b type) env pos its u ->
  its = [] /\ has type T_SAE_any = true /\ isSIMD b = true.
Proof.
  intros H. unfold verifySAE in H. apply emits_fn in H. unfold T_SAE_any. rewrite has_or3, isSIMD_or.
  match type of H with emits (if ?c then _ else _) _ _ _ _ => destruct c eqn:Q1 end.
  { apply emits_ret in H as [-> _]. split; auto. eapply rc_bools. left; exact Q1. }
  match type of H with emits (if ?c then _ else _) _ _ _ _ => destruct c eqn:Q2; [|einv H] end.
  apply emits_ret in H as [-> _]. split; auto. eapply (rc_bools _ _ _ _ _ _ false). right; exact Q2.
Qed.
Lemma verifyER_any r b type env pos its u : emits (verifyER r b type) env pos its u ->
  its = [] /\ has type T_ER_any = true /\ (has type T_ER_R = true \/ isSIMD b = true).
Proof.
  intros H. unfold verifyER in H. apply emits_fn in H. unfold T_ER_any. rewrite has_lor, has_or3, isSIMD_or.
  destruct (has type T_ER_R && isREGb b 96) eqn:Q0.
  { apply andb_prop in Q0 as [Q0 _]. apply emits_ret in H as [-> _]. rewrite Q0, orb_true_r. auto. }
  match type of H with emits (if ?c then _ else _) _ _ _ _ => destruct c eqn:Q1 end.
  { apply emits_ret in H as [-> _]. split; auto. apply (fun p => rc_bools _ _ _ _ _ (isZMM b) _ (or_introl p)) in Q1 as [-> ->]. auto. }
  match type of H with emits (if ?c then _ else _) _ _ _ _ => destruct c eqn:Q2; [|einv H] end.
  apply emits_ret in H as [-> _]. split; auto. apply (fun p => rc_bools _ _ _ _ _ _ false (or_intror p)) in Q2 as [-> ->]. auto.
Qed.

Lemma evex_rc reg base v type code x b0 aaa0 VL0 hi env pos its d8 :
  mods_ok reg -> mods_ok base -> omods_ok v ->
  emits (evex reg base v type code x b0 aaa0 VL0 hi) env pos its d8 ->
  exists rnd, agreed (rounding_ reg) (rounding_ base) (ovl v rounding_) rnd
    /\ (rnd = 5 -> has type T_SAE_any = true) /\ (1 <= rnd <= 4 -> has type T_ER_any = true)
    /\ (rnd <> 0 -> has type T_ER_R = true \/ isSIMD base = true).
Proof.
  intros [_ Mr] [_ Mb] Mv H. unfold evex in H. apply emits_fn in H. cbv zeta in H.
  destruct (has type (T_EVEX ||| T_MUST_EVEX)) eqn:EV; cbn [negb] in H; [|einv H].
  ebind H i1 i2 rnd H1 H. ebind H i3 i4 p H2 H.
  assert (Mv' : 0 <= ovl v rounding_) by (destruct v as [v|]; cbn [ovl omods_ok] in *; [destruct Mv|]; lia).
  change (match v with Some v => rounding_ v | None => 0 end) with (ovl v rounding_) in H1.
  apply verifyDuplicate_agreed in H1 as [-> AG]; try lia.
  exists rnd. split; auto. destruct (rnd =? 0) eqn:Z0; cbn [negb] in H2; [lia|].
  ebind H2 i5 i6 uz H3 H4. destruct (rnd =? 5) eqn:Z5.
  - apply verifySAE_any in H3 as (_ & S & B). repeat split; auto; lia.
  - apply verifyER_any in H3 as (_ & S & B). repeat split; auto; lia.
Qed.

Lemma opVex_reg_rc r p1 base type code imm8 env pos its u :
  mods_ok r -> mods_ok base -> omods_ok p1 ->
  uses_evex_reg r p1 base type = true ->
  emits (opVex r p1 (OReg base) type code imm8) env pos its u ->
  exists rnd, agreed (rounding_ r) (rounding_ base) (ovl p1 rounding_) rnd
    /\ (rnd = 5 -> has type T_SAE_any = true) /\ (1 <= rnd <= 4 -> has type T_ER_any = true).
Proof.
  intros Mr Mb Mp Hu H. unfold opVex in H. apply emits_fn in H. ebind H i1 i2 u1 H1 H2.
  apply emits_bind in H1 as (i3 & i4 & u2 & H1 & _ & _).
  fold (ovb p1 hasEvex) in H1. fold (uses_evex_reg r p1 base type) in H1. rewrite Hu in H1.
  ebind H1 i5 i6 d8 H4 H5. apply evex_rc in H4 as (rnd & A & B & C & _); auto. eauto.
Qed.

Lemma opVex_mem_rc r p1 addr type code imm8 env pos its u :
  mods_ok r -> mods_ok (e_base (getRegExp addr)) -> omods_ok p1 -> wf_regexp (a_e addr) ->
  has type T_ER_R = false ->
  emits (opVex r p1 (OMem addr) type code imm8) env pos its u ->
  rounding_ (e_base (getRegExp addr)) = 0 ->
  no_rounding r p1 (e_base (getRegExp addr)).
Proof.
  intros Mr Mb Mp We HR H Rb. unfold opVex in H. apply emits_fn in H. ebind H i1 i2 u1 H1 H2.
  cbv zeta in H1. ebind H1 i3 i4 u2 H3 H1. ebind H1 i5 i6 d8 H4 H5.
  fold (ovb p1 hasEvex) in H4. fold (uses_evex_mem r p1 addr type) in H4.
  destruct (uses_evex_mem r p1 addr type) eqn:UE.
  - destruct (negb (mask_ (a_op addr) =? 0) && negb (has type T_M_K)); [einv H4|].
    destruct (a_broadcast addr && negb (has type (T_B32 ||| T_B64))); [einv H4|].
    apply evex_rc in H4 as (rnd & A & _ & _ & B); auto.
    destruct (Z.eq_dec rnd 0) as [->|N].
    + unfold agreed in A. unfold no_rounding. intuition lia.
    + destruct (B N) as [Q|Q]; [congruence|]. rewrite base_not_simd in Q; [discriminate|]. now apply getRegExp_wf.
  - unfold uses_evex_mem in UE. repeat apply orb_false_iff in UE as [UE ?].
    assert (K : forall q, hasEvex q = false -> rounding_ q = 0).
    { intros q Q. unfold hasEvex in Q. apply orb_false_iff in Q as [_ Q]. apply negb_false_iff in Q. lia. }
    unfold no_rounding. split; [|split]; auto. destruct p1; cbn [ovl ovb] in *; auto.
Qed.

(* ---- operands of an instruction ---- *)
Definition op_ok (op : Operand) : Prop :=
  match op with OReg b => mods_ok b /\ width_ok (bit_ b) | OMem a => mem_ok a end.
Lemma mem_ok_base a : mem_ok a -> bare (e_base (getRegExp a)).
Proof.
  intros [W _ _ B I _]. unfold getRegExp. destruct (a_optimize a); auto. unfold optimize. destruct (_ && _); auto.
Qed.
Lemma bare_mods r : bare r -> mods_ok r.
Proof. intros (A & B & _). unfold mods_ok. lia. Qed.

Definition oreg (p : option Reg) : list Operand := match p with Some p => [OReg p] | None => [] end.
(* two operand lists carry the same modifiers *)
Record same_mods (a b : list Operand) : Prop := {
  sm_mask : forall m, m <> 0 -> In m (map omask a) <-> In m (map omask b);
  sm_rnd : forall m, m <> 0 -> In m (map ornd a) <-> In m (map ornd b);
  sm_zero : existsb ozero a = existsb ozero b }.
Lemma common_ext a b v : (forall m, m <> 0 -> In m a <-> In m b) -> common a v -> common b v.
Proof.
  intros H [F C]. split.
  - rewrite Forall_forall in *. intros x Hx. destruct (Z.eq_dec x 0); auto. apply F. apply H; auto.
  - destruct C as [C|C]; auto. destruct (Z.eq_dec v 0); auto. right. apply H; auto.
Qed.
Lemma says_core_mods row vl reg v op a b tail bs rest : same_mods a b ->
  says_core row vl reg v op a tail bs rest -> says_core row vl reg v op b tail bs rest.
Proof.
  intros [M R Zz] [H|H]; [left|right].
  - destruct H as (f & h & rm & H1 & H2 & H3 & H4 & H5 & H6 & H7 & H8 & H9). exists f, h, rm.
    repeat (split; [assumption|]). rewrite Forall_forall in *. intros o Ho.
    split.
    + destruct (Z.eq_dec (omask o) 0) as [|N]; auto. apply (in_map omask) in Ho. apply M in Ho; auto.
      apply in_map_iff in Ho as (o' & E & I). rewrite <- E in *. now apply H9.
    + destruct (Z.eq_dec (ornd o) 0) as [|N]; auto. apply (in_map ornd) in Ho. apply R in Ho; auto.
      apply in_map_iff in Ho as (o' & E & I). rewrite <- E in *. now apply H9.
  - destruct H as (f & h & rm & rnd & H1 & H2 & H3 & H4 & H5 & H6 & H7 & H8 & H9 & H10 & H11 & H12). exists f, h, rm, rnd.
    repeat (split; [assumption|]). split; [eapply common_ext; eauto|]. split; [congruence|].
    split; [eapply common_ext; eauto|]. auto.
Qed.

Lemma common3 a b c v : agreed a b c v -> common [b; c; a] v.
Proof.
  intros (H & A & B & C). split. { repeat (apply Forall_cons; [assumption|]); auto. }
  destruct (Z.eq_dec v 0); auto. right. cbn. destruct (H n) as [|[|]]; auto.
Qed.
Lemma common2 a b v : agreed a b 0 v -> common [b; a] v.
Proof.
  intros (H & A & B & C). split. { repeat (apply Forall_cons; [assumption|]); auto. }
  destruct (Z.eq_dec v 0); auto. right. cbn. destruct (H n) as [|[|]]; auto; congruence.
Qed.
Lemma common_mods (r : Reg) p1 base (f : Reg -> Z) v : agreed (f base) (f r) (ovl p1 f) v ->
  common (map f (r :: (match p1 with Some p => [p] | None => [] end) ++ [base])) v.
Proof. destruct p1; cbn [ovl map app]; intros H; [apply common3|apply common2]; auto. Qed.
Lemma agreed_swap a b c v : agreed a b c v -> agreed b a c v.
Proof. intros (H & A & B & C). split; auto. intros N. destruct (H N) as [|[|]]; auto. Qed.

Lemma log2_L vl : vl = 128 \/ vl = 256 \/ vl = 512 -> Z.log2 (vl / 128) = if vl =? 128 then 0 else if vl =? 256 then 1 else 2.
Proof. intros [->|[->| ->]]; reflexivity. Qed.
Lemma L_ok_log2 c vl : (vl = 128 \/ vl = 256 \/ vl = 512) -> vl_in c vl = true -> c <> L_0 -> c <> L_1 -> L_ok c vl (Z.log2 (vl / 128)) = true.
Proof. intros H V N0 N1. rewrite log2_L by auto. unfold L_ok. destruct c; try congruence; rewrite ?V, Z.eqb_refl; reflexivity. Qed.

Lemma form_match_ok type code map w f h : form_match type code map w f = true ->
  h_pp h = getPP type -> h_map h = map -> h_W h = w -> h_opc h = w8 code ->
  h_66 h = false /\ h_F2 h = false /\ h_F3 h = false /\ h_lock h = false /\ h_seg h = None -> form_ok f h.
Proof.
  unfold form_match, form_ok. intros H A B C D E. repeat (apply andb_prop in H as [H ?]).
  rewrite A, B, C, D. repeat (split; [first [assumption|apply Z.eqb_eq; assumption]|]). exact E.
Qed.
Lemma tuple_match_ok type f vl : tuple_match type f = true -> vl_in (f_L (e_form f)) vl = true ->
  vl = 128 \/ vl = 256 \/ vl = 512 ->
  disp8_factor (tuple_of type) vl None = disp8_factor (e_tuple f) vl None.
Proof.
  unfold tuple_match. intros H V L. rewrite forallb_forall in H. specialize (H vl).
  assert (I : In vl lengths) by (cbn; intuition).
  specialize (H I). rewrite V in H. cbn [negb orb] in H. lia.
Qed.

(* L of the forms: what the caller guarantees about operand widths *)
Definition vex_lengths (type : Z) (r : Reg) (vl : Z) (row : vrow) : Prop :=
  forall f, r_vex row = Some f -> isZMM r = false -> L_ok (f_L f) vl (vex_L type r) = true.
Definition evex_lengths (vl : Z) (row : vrow) : Prop :=
  forall f, r_evex row = Some f ->
    vl_in (f_L (e_form f)) vl = true /\ f_L (e_form f) <> L_0 /\ f_L (e_form f) <> L_1.

Lemma hasEvex_false r : hasEvex r = false -> isZMM r = false /\ bit4 r = false /\ mask_ r = 0 /\ rounding_ r = 0.
Proof.
  unfold hasEvex. rewrite isExtIdx2_bit4. intros H.
  apply orb_false_iff in H as [H R]. apply orb_false_iff in H as [H M]. apply orb_false_iff in H as [Z B].
  apply negb_false_iff in R, M. repeat split; auto; lia.
Qed.

(* the displacement factor is irrelevant for register operands *)
Lemma dec_rm_reg_n8 h vs n m bs reg g v r : dec_rm h vs n bs = Some (reg, RReg g v, r) -> dec_rm h vs m bs = Some (reg, RReg g v, r).
Proof.
  unfold dec_rm. destruct bs as [|b bs]; auto. cbv zeta. destruct (b / 64 =? 3); auto.
  intros H. exfalso. repeat match type of H with
    | context [match ?x with _ => _ end] => destruct x; try discriminate
  end.
Qed.
Lemma decode_reg_n8 vs n m bs h reg g v r : decode vs n bs = Some (h, reg, RReg g v, r) -> decode vs m bs = Some (h, reg, RReg g v, r).
Proof.
  unfold decode. destruct (dec_header bs) as [[h0 r0]|]; [|discriminate].
  intros H. set (n' := match h_space h0 with Evex => n | _ => 1 end) in H. set (m' := match h_space h0 with Evex => m | _ => 1 end).
  destruct (dec_rm h0 vs n' r0) as [[[x y] z]|] eqn:Q; [|discriminate]. inversion H; subst.
  rewrite (dec_rm_reg_n8 _ _ n' m' _ _ _ _ _ Q). reflexivity.
Qed.

Lemma opVex_reg_says s row r p1 base b' type code imm8 vl env pos its rest u :
  row_match type code row = true ->
  (row_rc type row = true \/ (rounding_ r = 0 /\ ovl p1 rounding_ = 0 /\ rounding_ base = 0)) ->
  mods_ok r -> mods_ok base -> omods_ok p1 ->
  width_ok (bit_ r) -> width_ok (bit_ base) -> Forall width_ok (ow p1) ->
  (b' = base /\ (vector base = true \/ isREG base = true)) \/ (regno b' = regno base /\ regno base < 16) ->
  vl = veclen (bit_ r :: bit_ base :: 0 :: ow p1) ->
  vex_lengths type r vl row -> evex_lengths vl row ->
  emits (opVex r p1 (OReg base) type code imm8) env pos its u ->
  says_core row vl (regno r) (vreg p1) (OReg b') (OReg r :: oreg p1 ++ [OReg base]) (imm_bytes imm8) (render s its) rest.
Proof.
  intros RM RC Mr Mb Mp Wr Wb Wp Kb Evl VL EL H. unfold row_match in RM. repeat (apply andb_prop in RM as [RM ?]).
  assert (RI : forall h g v, (isSIMD base = true -> v = regno base) -> (isREG base = true -> g = regno base) ->
      (regno base < 16 -> g = regno base /\ v = regno base) -> rm_is (OReg b') h (RReg g v)).
  { intros h g v A B C. cbn [rm_is]. destruct Kb as [[-> Kb]|[E Kb]].
    - change (vector base) with (isSIMD base). change (vector base) with (isSIMD base) in Kb.
      destruct (isSIMD base) eqn:S; auto. destruct Kb as [K|K]; [congruence|auto].
    - destruct (C Kb) as [G V]. rewrite E. destruct (vector b'); auto. }
  destruct (uses_evex_reg r p1 base type) eqn:UE.
  - right. pose proof H as H'. apply opVex_reg_rc in H' as (rnd & AG & R5 & R14); auto.
    pose proof (opVex_reg_dec s _ _ _ _ _ _ _ _ _ rest _ Mr Mb Mp H) as (h0 & g0 & v0 & _ & _ & _ & _ & HE). rewrite UE in HE. destruct HE as [HE _].
    destruct (evex_reg_lemma s _ _ _ _ _ _ _ _ _ rest _ Mr Mb Mp Wr Wb Wp UE H) as (h & g & v & D & G1 & G2 & G3 & SY & HV & AM & HZ & rnd' & AG' & B0 & B5 & B14).
    rewrite <- (agreed_unique _ _ _ _ _ AG AG') in *. clear AG' rnd'.
    rewrite <- Evl in B0.
    match goal with Q : evex_match _ _ _ = true |- _ => unfold evex_match in Q; rewrite HE in Q; cbn [negb orb] in Q; rename Q into QM end.
    destruct (r_evex row) as [f|] eqn:ER; [|discriminate].
    do 2 apply andb_prop in QM as [QM ?]. destruct (EL _ ER) as (V1 & V2 & V3).
    assert (HvlC : vl = 128 \/ vl = 256 \/ vl = 512).
    { rewrite Evl. apply (max_widths r base p1 0); auto. left; auto. }
    exists f, h, (RReg g v), rnd. split; auto. split. { eapply decode_reg_n8; exact D. }
    destruct SY. split; auto. split. { eapply form_match_ok; eauto 10. }
    split; auto. split. { apply RI; auto. }
    split; auto. split. { cbn. discriminate. }
    split. { destruct p1; cbn [oreg app map omask]; [apply common3 | apply common2]; auto. }
    split. { rewrite HZ. f_equal. destruct p1; cbn [oreg app existsb ozero ovb]; destruct (zero_ r), (zero_ base); cbn [orb]; rewrite ?orb_false_r, ?orb_true_r; reflexivity. }
    split. { apply agreed_swap in AG. destruct p1; cbn [oreg app map ornd]; [apply common3 | apply common2]; auto. }
    split. { eauto. }
    split. { intros R0. destruct (B0 R0) as [HB HL]. split; auto. rewrite HL. apply L_ok_log2; auto. }
    assert (RC' : rnd <> 0 -> rc_match type (e_rc f) = true).
    { intros N. destruct RC as [RC|(A1 & A2 & A3)]; [unfold row_rc in RC; rewrite ER in RC; apply andb_prop in RC as [RC _]; auto|].
      exfalso. rewrite A1, A2, A3 in AG. apply agreed_zero in AG. auto. }
    split.
    + intros R. specialize (R5 R). split; [|apply B5; auto]. specialize (RC' ltac:(lia)). unfold rc_match in RC'.
      destruct (e_rc f); auto; rewrite R5, ?andb_false_r in RC'; discriminate.
    + intros R. specialize (R14 R). split; [|apply B14; auto]. specialize (RC' ltac:(lia)). unfold rc_match in RC'.
      destruct (e_rc f); auto; rewrite R14 in RC'; discriminate.
  - left. destruct (vex_reg_lemma s _ _ _ _ _ _ _ _ _ rest _ Mr Mb Mp UE H) as (h & D & SY).
    unfold vex_match in RM. pose proof UE as UE'. unfold uses_evex_reg in UE. repeat apply orb_false_iff in UE as [UE ?]. rewrite UE in RM. cbn [orb] in RM.
    destruct (r_vex row) as [f|] eqn:VR; [|discriminate].
    destruct SY as (S1 & S2 & S3 & S4' & S5 & S6 & S7 & S8).
    exists f, h, (RReg (regno base) (regno base)). split; auto. split; auto. split; auto.
    split. { eapply form_match_ok; eauto. }
    split. { rewrite S7. apply VL; auto. match goal with Q : hasEvex r = false |- _ => now apply hasEvex_false in Q end. }
    split; auto. split. { apply RI; auto. } split; auto.
    assert (F : forall q, hasEvex q = false -> omask (OReg q) = 0 /\ ornd (OReg q) = 0).
    { intros q Q. apply hasEvex_false in Q. cbn. tauto. }
    constructor; auto. apply Forall_app. split; auto. destruct p1; cbn [oreg ovb] in *; auto.
Qed.

Lemma vsib_refused r p1 a type code imm8 env pos its u :
  permitVsib a = false -> isVsib a = true -> has type T_VSIB = false ->
  emits (opVex r p1 (OMem a) type code imm8) env pos its u -> False.
Proof.
  intros PV VS HT H. unfold opVex in H. apply emits_fn in H. ebind H i1 i2 u1 H1 H2.
  cbv zeta in H1. ebind H1 i3 i4 u2 H3 H1. ebind H1 i5 i6 d8 H4 H5. rewrite HT in H5.
  unfold opAddr in H5. apply emits_fn in H5.
  match type of H5 with emits (if ?c then _ else _) _ _ _ _ => replace c with true in H5; [einv H5|] end.
  symmetry. destruct (d8 =? 0), (imm8 =? NONE); cbn [permitVsib set_disp8N set_immSize]; unfold isVsib, set_disp8N, set_immSize in *; cbn [permitVsib a_e]; rewrite PV; exact VS.
Qed.

Lemma opVex_mem_says s row r p1 a type code imm8 vl env pos its rest u :
  row_match type code row = true ->
  (has type T_ER_R = false \/ (rounding_ r = 0 /\ ovl p1 rounding_ = 0)) ->
  mods_ok r -> omods_ok p1 -> mem_ok a ->
  (mask_ (a_op a) <> 0 -> mask_ r = 0 /\ ovl p1 mask_ = 0) ->
  width_ok (bit_ r) -> Forall width_ok (ow p1) ->
  (tuple_of type = TMovddup -> 128 <= bit_ r) ->
  vl = veclen (bit_ r :: ow p1) ->
  vex_lengths type r vl row -> evex_lengths vl row ->
  emits (opVex r p1 (OMem a) type code imm8) env pos its u ->
  says_core row vl (regno r) (vreg p1) (OMem a) (OReg r :: oreg p1 ++ [OMem a]) (imm_bytes imm8) (render s its) rest.
Proof.
  intros RM HER Mr Mp Ma MM Wr Wp Hdup Evl VL EL H. unfold row_match in RM. repeat (apply andb_prop in RM as [RM ?]).
  rewrite negb_true_iff in *.
  pose proof (mem_ok_base _ Ma) as (BM & BR & BZ). pose proof (bare_mods _ (mem_ok_base _ Ma)) as Mb. destruct Ma as [Wa D8 PV _ _ Mk _].
  assert (NR : no_rounding r p1 (e_base (getRegExp a))). { destruct HER as [HER|[? ?]]; [eapply opVex_mem_rc; eauto; apply (wm_e _ Wa)|split; auto]. }
  destruct (isVsib a) eqn:VS.
  { exfalso. eapply vsib_refused; eauto. }
  destruct (uses_evex_mem r p1 a type) eqn:UE.
  - right. assert (NV : isVsib a = true -> ovb p1 bit4 = false) by congruence.
    pose proof (evex_mem_lemma s _ _ _ _ _ _ _ _ _ rest _ Wa D8 PV Mr Mp Mb Mk BM BZ NR Wr Wp UE NV Hdup H) as (h & m & D & DN & SY & HL & HB & HV & _ & HBC & AM & _ & HZ).
    rewrite VS in D, HL.
    assert (Evl' : vl = veclen (bit_ r :: bit_ (e_base (getRegExp a)) :: 0 :: ow p1)).
    { rewrite Evl. unfold veclen. cbn [fold_right]. pose proof (getRegExp_wf _ (wm_e _ Wa)) as We.
      assert (WB : bit_ (e_base (getRegExp a)) <= 64). { destruct (wf_base _ We) as [(_ & B & _)|(_ & B & _)]; lia. }
      assert (WL : forall l, 128 <= fold_right Z.max 128 l). { clear. induction l; cbn [fold_right]; lia. }
      specialize (WL (ow p1)). lia. }
    rewrite <- Evl' in D, HL.
    pose proof (opVex_mem_dec s _ _ _ _ _ _ _ _ _ rest _ Wa D8 PV Mr Mp Mb Mk NR (ltac:(congruence)) (ltac:(congruence)) H) as (h0 & m0 & d0 & _ & _ & HE & _).
    unfold vex_mem_header in HE. rewrite UE in HE. destruct HE as [HE _].
    match goal with Q : evex_match _ _ _ = true |- _ => unfold evex_match in Q; rewrite HE in Q; cbn [negb orb] in Q; rename Q into QM end.
    destruct (r_evex row) as [f|] eqn:ER; [|discriminate].
    do 2 apply andb_prop in QM as [QM ?]. destruct (EL _ ER) as (V1 & V2 & V3).
    assert (HvlC : vl = 128 \/ vl = 256 \/ vl = 512).
    { rewrite Evl. destruct (max_widths r noReg p1 0) as [K _]; auto; [left; auto..|]. cbn in K. cbn.
      replace (Z.max 0 (Z.max 0 (fold_right Z.max 128 (ow p1)))) with (fold_right Z.max 128 (ow p1)) in K; auto.
      assert (WL : forall l, 128 <= fold_right Z.max 128 l). { clear. induction l; cbn [fold_right]; lia. } specialize (WL (ow p1)). lia. }
    exists f, h, (RMem m), 0. split; auto.
    assert (BC : a_broadcast a = true -> e_bcast f = Some (bcast_size type)).
    { intros B. specialize (HBC B). match goal with Q : bcast_match _ _ = true |- _ => unfold bcast_match in Q; rewrite HBC in Q; cbn [negb orb] in Q;
        destruct (e_bcast f); [apply Z.eqb_eq in Q; subst; reflexivity|discriminate] end. }
    split.
    { cbn [bcast]. rewrite <- D. f_equal. destruct (a_broadcast a) eqn:B.
      - rewrite BC by auto. reflexivity.
      - symmetry. apply tuple_match_ok; auto. }
    destruct SY. split; auto. split. { eapply form_match_ok; eauto 10. }
    split; [auto|]. split; [exact DN|]. split; auto. split. { cbn [bcast]. intros B. rewrite BC by auto. discriminate. }
    split. { destruct (Z.eqb_spec (mask_ (a_op a)) 0) as [Q|Q].
      - rewrite Q in AM. destruct p1; cbn [oreg app map omask ovl] in *; rewrite ?Q; [apply common3 | apply common2]; auto.
      - destruct (MM Q) as [M1 M2]. destruct p1; cbn [oreg app map omask ovl] in *; rewrite ?M1, ?M2; [apply common3 | apply common2]; auto. }
    split. { rewrite HZ. f_equal. destruct p1; cbn [oreg app existsb ozero ovb]; rewrite ?orb_false_r; reflexivity. }
    destruct NR as (N1 & N2 & N3).
    split. { split; [|left; reflexivity]. constructor; [left; exact N1|]. destruct p1; cbn [oreg app map ornd ovl] in *; repeat constructor; auto. }
    split. { congruence. }
    split. { intros _. split; auto. rewrite HL. apply L_ok_log2; auto. } split; lia.
  - left. destruct (vex_mem_lemma s _ _ _ _ _ _ _ _ _ rest _ Wa D8 PV Mr Mp Mb Mk NR UE (ltac:(congruence)) H) as (h & m & D & DN & SY & _).
    rewrite VS in D. unfold vex_match in RM. pose proof UE as UE'. unfold uses_evex_mem in UE. repeat apply orb_false_iff in UE as [UE ?].
    rewrite has_lor in UE. apply orb_false_iff in UE as [UE _]. rewrite UE in RM. cbn [orb] in RM.
    destruct (r_vex row) as [f|] eqn:VR; [|discriminate].
    destruct SY as (S1 & S2 & S3 & S4' & S5 & S6 & S7 & S8).
    exists f, h, (RMem m). split; auto. split; auto. split; auto.
    split. { eapply form_match_ok; eauto. }
    split. { rewrite S7. apply VL; auto. match goal with Q : hasEvex r = false |- _ => now apply hasEvex_false in Q end. }
    split; auto. split; auto. split; auto.
    assert (F : forall q, hasEvex q = false -> omask (OReg q) = 0 /\ ornd (OReg q) = 0).
    { intros q Q. apply hasEvex_false in Q. cbn. tauto. }
    constructor; auto. apply Forall_app. split; [destruct p1; cbn [oreg ovb] in *; auto|]. constructor; auto. cbn.
    match goal with Q : negb (mask_ (a_op a) =? 0) = false |- _ => apply negb_false_iff in Q; split; lia end.
Qed.
