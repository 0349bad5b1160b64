(* The shapes of the methods with APX encodings: digits, immediates, shifts, forms without NDD operand. *)
From Coq Require Import ZArith List Bool Lia String.
From Verif Require Import Base Types Emit Encode SpecX86 SpecAddr EmitFacts BitFacts Wf MemFacts LegacyFacts VexFacts
  SpecIsa SpecInsn SpecLeg EncThms LegFacts LegShapes LegGpr LegGpr2 LegGpr3 SpecApx ApxFacts ApxShapes.
Import ListNotations.
Open Scope Z_scope.

Lemma size4_std w : size4 w -> w_std w.
Proof. exact (fun H => H). Qed.
Lemma size4_range w : size4 w -> 0 <= w < 16384.
Proof. unfold size4. lia. Qed.
Lemma dig_facts e b : 0 <= e < 16 -> 0 <= b < 16384 ->
  regno (regOf e REG b false) = e /\ bit_ (regOf e REG b false) = b.
Proof.
  intros H Hb. split; [|unfold regOf; cbn [bit_]; apply Z.mod_small; lia].
  assert (Q : forallb (fun e => regno (regOf e REG 0 false) =? e) (upto 16) = true) by reflexivity.
  pose proof (sweep1 16 _ Q e H) as T. apply Z.eqb_eq in T. exact T.
Qed.
Lemma dig_mods e b : NF_ (regOf e REG b false) = false /\ ZU_ (regOf e REG b false) = false.
Proof. split; reflexivity. Qed.
Lemma nd1_not0 row : a_ndk row = Nd1 -> a_ndk row <> Nd0.
Proof. intros ->. discriminate. Qed.
Lemma no_mods_cl c : aarg_ok cCl (OReg c) -> NF_ c = false /\ ZU_ c = false.
Proof. simpl. tauto. Qed.
Lemma ok_cl w h reg rm c : aarg_ok cCl (OReg c) -> getIdx c = 1 -> aoper_ok w h reg rm cl_a (OReg c).
Proof.
  simpl. intros (G & L & B & _) I. split; [exists KG; auto|]. split; auto. split; [|auto]. now rewrite <- regno_getIdx.
Qed.

(* ---- NDD register and digit ---- *)
Lemma bits2' r d w rb : bit_ r = rb -> rb = w \/ rb = 0 -> bit_ d = w -> size4 w -> size_bits r d w.
Proof.
  intros Hr [->| ->] Hd Hw; [apply bits2; auto|]. destruct (bits_of d w Hd Hw) as (B1 & B2 & B3).
  unfold size_bits, size_b. rewrite B1, B2, B3. unfold isBit, getBit. rewrite Hr. auto.
Qed.
Lemma dig_says s row d op e type code imz env pos its tl w imm dfv rest extra xops rb :
  aarg_ok cG (OReg d) -> bit_ d = w -> size4 w -> aarg_ok cE op -> psize w op -> 0 <= e < 16 -> rb = w \/ rb = 0 ->
  emits (opROO d op (OReg (regOf e REG rb false)) type code imz NONE) env pos its true ->
  a_ops row = v_ :: rm_a :: extra -> (forall h reg rm, Forall2 (aoper_ok w h reg rm) extra xops) -> wants_nf xops = false ->
  a_digit row = Some (e mod 8) -> a_sc row = None -> a_ndk row = Nd1 -> a_nf row <> Nf1 ->
  achk row type code true w = true -> has type T_ZU = false -> imm_ok (a_immk row) w imm tl ->
  asays row (OReg d :: op :: xops) imm dfv (render s its ++ tl) rest.
Proof.
  intros (Gd & Ld) Bd Hw Ao Po He Hrb H Eo Hx Nx Dg Sc Nd Nf C HZ I.
  assert (Rr : 0 <= rb < 16384) by (pose proof (size4_range w Hw); lia).
  destruct (dig_facts e rb He Rr) as (Re & Be).
  eapply says1 with (w := w) (b64 := w =? 64) (b16 := w =? 16) (b8 := w =? 8) (r := regOf e REG rb false); eauto using cE_rm_ok, nd1_not0.
  - rewrite (gpr_isREG d Gd). exact C.
  - eapply bits2'; eauto.
  - apply nf_wants; auto. unfold wants_nf. cbn [existsb ob]. fold (wants_nf xops). rewrite Nx, (opnf_ok op) by (apply cE_rm_ok; auto).
    cbn [NF_ regOf]. destruct (opnf op), (NF_ d); reflexivity.
  - congruence.
  - unfold has_v. rewrite Eo. discriminate.
  - rewrite Dg, Re. congruence.
  - intros h rm R V. rewrite Eo. apply Forall2_cons; [apply ok_v; auto|]. apply Forall2_cons; [apply ok_rm; auto|]. apply Hx.
  - eapply sized_hd; eauto.
Qed.

(* inc, dec, neg, not *)
Lemma ro_digit_entry nm f row e tyc :
  (forall d op, isREG d = true -> f d op = opROO d op (OReg (regOf e REG (getBit d) false)) (fst (tyc (getBit d))) (snd (tyc (getBit d))) 0 NONE ;;; ret tt) ->
  0 <= e < 8 -> a_ops row = [v_; rm_a] -> a_digit row = Some e -> a_sc row = None -> a_ndk row = Nd1 -> a_nf row <> Nf1 -> a_immk row = I_none ->
  forallb (fun w => achk row (fst (tyc w)) (snd (tyc w)) true w && negb (has (fst (tyc w)) T_ZU)) all4 = true ->
  aimplements (mkAE nm [cG; cE] XNo (a_ro f) [row]).
Proof.
  intros Ef He Eo Dg Sc Nd Nf Im C s ops imm dfv act env pos its rest u Ha Harg Hsz _ _ _ Hzu _ H. cbn [ae_fun ae_sig ae_rows] in *.
  apply sig2 in Harg as (o & op & -> & A1 & A2).
  destruct o as [d|a]; [|contradiction]. cbn [a_ro] in Ha. injection Ha as <-. rewrite Ef in H by (apply gpr_isREG, A1).
  apply same2 in Hsz as (w & Hw & P1 & P2 & _); [|reflexivity].
  specialize (P1 eq_refl). specialize (P2 eq_refl). cbn [psize] in P1. unfold getBit in H. rewrite P1 in H.
  ebind H i1 i2 bb H1 H. apply emits_ret in H as [-> _].
  pose proof (gpr_isREG d (proj1 A1)) as Rd. rewrite (opROO_ndd _ _ _ _ _ _ _ _ _ _ _ Rd H1) in H1.
  rewrite forallb_forall in C. specialize (C w (size4_all w Hw)). apply andb_true_iff in C as [C CZ]. apply negb_true_iff in CZ.
  rewrite app_nil_r, <- (app_nil_r (render s i1)). apply Exists_cons_hd.
  refine (dig_says s row d op e _ _ _ _ _ _ [] w _ _ _ [] [] w A1 P1 Hw A2 P2 _ (or_introl eq_refl) H1 Eo _ eq_refl _ Sc Nd Nf C CZ _).
  - lia.
  - constructor.
  - rewrite Z.mod_small; auto.
  - rewrite Im. apply imm_none.
Qed.
Definition ndrow (opc e : Z) (nf : nfk) (k : immk) : arow := mkA NP 4 opc (Some e) [v_; rm_a] OsB Nd1 nf None k.

(* add d, op, imm *)
Definition roi8 (e : Z) (nf : nfk) : arow := mkA NP 4 0x83 (Some e) [v_; rm_a] OsV Nd1 nf None I_8s.
Definition roi_rows (e : Z) (nf : nfk) : list arow := [ndrow 0x80 e nf I_z; roi8 e nf].
Lemma roi_entry nm f e type nf :
  (forall d op imm, f d op imm = opROI d op (w32 imm) type e) -> 0 <= e < 8 -> nf <> Nf1 -> has type T_ZU = false ->
  achk_sizes (ndrow 0x80 e nf I_z) type 0x80 true all4 = true ->
  achk_sizes (roi8 e nf) type 0x82 true no8 = true ->
  aimplements (mkAE nm [cG; cE] XNo (a_roi f) (roi_rows e nf)).
Proof.
  intros Ef He Nf HZ C1 C2 s ops imm dfv act env pos its rest u Ha Harg Hsz _ _ _ Hzu _ H. cbn [ae_fun ae_sig ae_rows] in *.
  apply sig2 in Harg as (o & op & -> & A1 & A2).
  destruct o as [d|a]; [|contradiction]. cbn [a_roi] in Ha. injection Ha as <-. rewrite Ef in H.
  apply same2 in Hsz as (w & Hw & P1 & P2 & _); [|reflexivity].
  specialize (P1 eq_refl). specialize (P2 eq_refl). cbn [psize] in P1.
  unfold opROI in H. cbv zeta in H. ebind H i1 i2 n H1 H2. ebind H2 i3 i4 bb H3 H4.
  apply getImmBit_split in H1 as (-> & -> & _ & _).
  2:{ cbn [ob]. rewrite P1. apply size4_in in Hw. right. exact Hw. }
  2:{ cbn [ob]. rewrite P1. destruct Hw as [->|[->|[->| ->]]]; discriminate. }
  pose proof (gpr_isREG d (proj1 A1)) as Rd. rewrite (opROO_ndd _ _ _ _ _ _ _ _ _ _ _ Rd H3) in H3.
  cbn [app items_size] in *. rewrite Z.add_0_r in H3, H4. unfold getBit in H3. rewrite P1 in H3.
  assert (V : w32 (w32 imm) mod 2 ^ 32 = imm mod 2 ^ 32) by (unfold w32; rewrite !Z.mod_mod by lia; reflexivity).
  set (v := w32 (w32 imm)) in *. clearbody v.
  apply (dbn_render s) in H4 as [_ R4]; [|unfold immBit; cbn [ob]; rewrite P1; destruct Hw as [->|[->|[->| ->]]]; destruct (IsInDisp8 _); vm_compute; discriminate].
  rewrite render_app, R4. clear R4.
  assert (IB : immBit (OReg d) v = 8 /\ w <> 8 /\ IsInDisp8 v = true \/ immBit (OReg d) v = Z.min w 32).
  { unfold immBit. cbn [ob]. rewrite P1. destruct Hw as [->|[->|[->| ->]]]; destruct (IsInDisp8 v); cbn [Z.eqb Pos.eqb]; auto; left; repeat split; auto; discriminate. }
  destruct IB as [(IB & W8 & D8)|IB]; rewrite IB in *.
  - apply Exists_cons_tl, Exists_cons_hd.
    replace (8 <? Z.min w 32) with true in H3 by (destruct Hw as [->|[->|[->| ->]]]; auto; exfalso; apply W8; reflexivity).
    refine (dig_says s (roi8 e nf) d op e _ _ _ _ _ _ _ w _ _ _ [] [] w A1 P1 Hw A2 P2 _ (or_introl eq_refl) H3 eq_refl _ eq_refl _ eq_refl eq_refl Nf _ HZ _).
    + lia.
    + constructor.
    + cbn [a_digit roi8]. rewrite Z.mod_small; auto.
    + eapply achk_sizes_in; eauto using size4_no8.
    + apply imm_8s_ok; auto.
  - apply Exists_cons_hd. rewrite Z.ltb_irrefl in H3.
    refine (dig_says s (ndrow 0x80 e nf I_z) d op e _ _ _ _ _ _ _ w _ _ _ [] [] w A1 P1 Hw A2 P2 _ (or_introl eq_refl) H3 eq_refl _ eq_refl _ eq_refl eq_refl Nf _ HZ _).
    + lia.
    + constructor.
    + cbn [a_digit ndrow]. rewrite Z.mod_small; auto.
    + eapply achk_sizes_in; eauto using size4_all.
    + apply imm_z_ok; auto. f_equal. destruct Hw as [->|[->|[->| ->]]]; reflexivity.
Qed.

(* shifts with NDD register *)
Lemma rext_d op ext type code n d env pos its u :
  emits (opRext op 0 ext type code false n (Some d)) env pos its u -> has type T_APX = true -> isREG d = true ->
  emits (opROO d op (OReg (regOf ext REG (ogetBit op) false)) type code 0 NONE) env pos its true.
Proof.
  intros H HA Rd. unfold opRext in H. apply emits_fn in H. cbv zeta in H. cbn [andb orb] in H. rewrite HA in H. cbn [andb] in H.
  ebind H i1 i2 b H1 H2. pose proof (opROO_ndd _ _ _ _ _ _ _ _ _ _ _ Rd H1) as ->. apply emits_ret in H2 as [-> _]. rewrite app_nil_r. exact H1.
Qed.
Definition shift_d_rows (dg : Z) (nf : nfk) : list arow := [ndrow 0xD0 dg nf I_1; ndrow 0xC0 dg nf I_8].
Definition cl_d_row (dg : Z) (nf : nfk) : arow := mkA NP 4 0xD2 (Some dg) [v_; rm_a; cl_a] OsB Nd1 nf None I_none.

Lemma s32_byte imm : 0 <= imm < 256 -> s32 imm = imm.
Proof. intros H. unfold s32, w32. rewrite Z.mod_small by lia. destruct (imm <? 2147483648) eqn:Q; lia. Qed.
Lemma psize_bit op w : psize w op -> ogetBit op = w \/ ogetBit op = 0.
Proof. destruct op as [b|a]; simpl; unfold ogetBit, getBit; cbn [ob]; tauto. Qed.
Lemma shift_roi_entry nm f e dg nf type :
  (forall d op imm, f d op imm = opShift op (s32 imm) e (Some d)) -> 0 <= dg < 8 -> e &&& 7 = dg -> (forall d, shiftType e (Some d) = type) ->
  nf <> Nf1 -> has type T_ZU = false -> has type T_APX = true ->
  achk_sizes (ndrow 0xD0 dg nf I_1) type 0xD0 true all4 = true ->
  achk_sizes (ndrow 0xC0 dg nf I_8) type 0xC0 true all4 = true ->
  aimplements (mkAE nm [cG; cE] XNo (a_roi f) (shift_d_rows dg nf)).
Proof.
  intros Ef He Ed Ht Nf HZ HA C1 C2 s ops imm dfv act env pos its rest u Ha Harg Hsz _ _ _ Hzu Hi H. cbn [ae_fun ae_sig ae_rows] in *.
  apply sig2 in Harg as (o & op & -> & A1 & A2).
  destruct o as [d|a]; [|contradiction]. cbn [a_roi] in Ha. injection Ha as <-. rewrite Ef in H.
  apply same2 in Hsz as (w & Hw & P1 & P2 & _); [|reflexivity].
  specialize (P1 eq_refl). specialize (P2 eq_refl). cbn [psize] in P1.
  assert (Ii : 0 <= imm < 256). { inversion Hi as [|? ? _ Hi1]; subst. inversion Hi1 as [|? ? Hi2 _]; subst. exact Hi2. }
  rewrite (s32_byte _ Ii) in H. unfold opShift in H. apply emits_fn in H. rewrite Ht, Ed in H. cbv iota beta in H.
  ebind H j1 j2 x J1 J2. apply emits_ret in J1 as [-> _]. cbn [app items_size] in *. rewrite Z.add_0_r in J2.
  match type of J2 with emits (if ?c then _ else _) _ _ _ _ => destruct c; [einv J2|] end.
  ebind J2 i1 i2 y H1 H2.
  pose proof (gpr_isREG d (proj1 A1)) as Rd. rewrite render_app.
  destruct (imm =? 1) eqn:I1; cbn [negb] in H2.
  - apply (rext_d _ _ _ _ _ _ _ _ _ _) in H1; auto. apply Z.eqb_eq in I1. simpl in H2. apply emits_ret in H2 as [-> _].
    apply Exists_cons_hd.
    refine (dig_says s (ndrow 0xD0 dg nf I_1) d op dg _ _ _ _ _ _ _ w _ _ _ [] [] _ A1 P1 Hw A2 P2 _ (psize_bit _ _ P2) H1 eq_refl _ eq_refl _ eq_refl eq_refl Nf _ HZ _).
    + lia.
    + constructor.
    + cbn [a_digit ndrow]. rewrite Z.mod_small; auto.
    + eapply achk_sizes_in; eauto using size4_all.
    + apply imm_1_ok; auto.
  - apply (rext_d _ _ _ _ _ _ _ _ _ _) in H1; auto. simpl in H2. apply emits_db in H2 as ->.
    apply Exists_cons_tl, Exists_cons_hd.
    refine (dig_says s (ndrow 0xC0 dg nf I_8) d op dg _ _ _ _ _ _ _ w _ _ _ [] [] _ A1 P1 Hw A2 P2 _ (psize_bit _ _ P2) H1 eq_refl _ eq_refl _ eq_refl eq_refl Nf _ HZ _).
    + lia.
    + constructor.
    + cbn [a_digit ndrow]. rewrite Z.mod_small; auto.
    + eapply achk_sizes_in; eauto using size4_all.
    + cbn [render render1]. apply imm_8_byte. reflexivity.
Qed.
Lemma shift_rob_entry nm f e dg nf type :
  (forall d op c, f d op c = opShiftCL op c e (Some d)) -> 0 <= dg < 8 -> e &&& 7 = dg -> (forall d, shiftType e (Some d) = type) ->
  nf <> Nf1 -> has type T_ZU = false -> has type T_APX = true ->
  achk_sizes (cl_d_row dg nf) type 0xD2 true all4 = true ->
  aimplements (mkAE nm [cG; cE; cCl] XNo (a_ror f) [cl_d_row dg nf]).
Proof.
  intros Ef He Ed Ht Nf HZ HA C1 s ops imm dfv act env pos its rest u Ha Harg Hsz _ _ _ Hzu Hi H. cbn [ae_fun ae_sig ae_rows] in *.
  apply sig3 in Harg as (o & op & oc & -> & A1 & A2 & A3).
  destruct o as [d|a]; [|contradiction]. destruct oc as [c|a]; [|contradiction]. cbn [a_ror] in Ha. injection Ha as <-. rewrite Ef in H.
  apply same3 in Hsz as (w & Hw & P1 & P2 & _); [|reflexivity].
  specialize (P1 eq_refl). specialize (P2 eq_refl). cbn [psize] in P1.
  unfold opShiftCL in H. apply emits_fn in H. destruct (getIdx c =? 1) eqn:Ic; cbn [negb] in H; [|einv H]. apply Z.eqb_eq in Ic.
  rewrite Ht, Ed in H. cbv iota beta in H.
  match type of H with emits (if ?c then _ else _) _ _ _ _ => destruct c; [einv H|] end.
  pose proof (gpr_isREG d (proj1 A1)) as Rd. apply rext_d in H; auto.
  apply Exists_cons_hd. rewrite <- (app_nil_r (render s its)).
  refine (dig_says s (cl_d_row dg nf) d op dg _ _ _ _ _ _ _ w _ _ _ [cl_a] [OReg c] _ A1 P1 Hw A2 P2 _ (psize_bit _ _ P2) H eq_refl _ _ _ eq_refl eq_refl Nf _ HZ _).
  - lia.
  - intros h reg rm. apply Forall2_cons; [apply ok_cl; auto|constructor].
  - destruct (no_mods_cl c A3) as (N1 & _). unfold wants_nf. cbn [existsb ob]. rewrite N1. reflexivity.
  - cbn [a_digit cl_d_row]. rewrite Z.mod_small; auto.
  - eapply achk_sizes_in; eauto using size4_all.
  - apply imm_none.
Qed.

(* ---- extended operands take the extended encoding ---- *)
Lemma ext_gpr r : gpr r -> 16 <= regno r -> regHasRex2 r = true.
Proof.
  intros G N. unfold regHasRex2. rewrite (gpr_isREG r G), isExtIdx2_bit4. cbn [andb].
  rewrite regno_split in N. pose proof (low3_range r). destruct (bit4 r); auto. destruct (bit3 r); cbn [z01] in N; lia.
Qed.
Lemma ext_addr r : no_reg r \/ addr_gpr r -> 16 <= regno r -> regHasRex2 r = true.
Proof.
  intros [N|G] H.
  - exfalso. destruct (no_reg_bits _ N) as [B3 B4]. rewrite regno_split, B3, B4 in H. pose proof (low3_range r). cbn [z01] in H. lia.
  - unfold regHasRex2. assert (R : isREG r = true). { destruct G as (K & _). unfold isREG, is_. rewrite K. reflexivity. }
    rewrite R, isExtIdx2_bit4. rewrite regno_split in H. pose proof (low3_range r). destruct (bit4 r); auto. destruct (bit3 r); cbn [z01] in H; lia.
Qed.
Lemma ext_mem a : amem a -> extended (OMem a) = true -> hasRex2NFZU (OMem a) = true.
Proof.
  intros (M & (_ & V) & N & Zu & _). unfold extended, ext_reg, hasRex2NFZU, hasRex2, addrHasRex2. cbn [ob]. rewrite N, Zu. cbn [orb]. rewrite !orb_false_r.
  pose proof (wm_e _ (mo_wf _ M)) as We. intros H. apply orb_true_iff in H as [H|H]; apply Z.leb_le in H.
  - rewrite (ext_addr _ (wf_base _ We) H). reflexivity.
  - rewrite (ext_addr (e_index (a_e a))); auto using orb_true_r. destruct (wf_index _ We) as [B|[[B|B] _]]; auto. contradiction.
Qed.
Lemma ext_op op : aarg_ok cE op -> extended op = true -> hasRex2NFZU op = true.
Proof.
  destruct op as [r|a]; [|intros A; apply ext_mem; exact A].
  intros (G & _). unfold extended, ext_reg, hasRex2NFZU, hasRex2. cbn [ob]. intros H. apply orb_true_iff in H as [H|H].
  - rewrite <- orb_assoc, H. apply orb_true_r.
  - apply Z.leb_le in H. rewrite (ext_gpr _ G H). reflexivity.
Qed.

(* ---- digit without NDD register ---- *)
Lemma zu_nd0 (ops : list Operand) rows row : (wants_zu ops = true -> Forall (fun row => a_ndk row <> Nd0) rows) ->
  In row rows -> a_ndk row = Nd0 -> wants_zu ops = false.
Proof. intros H I N. destruct (wants_zu ops) eqn:W; auto. exfalso. specialize (H eq_refl). rewrite Forall_forall in H. exact (H row I N). Qed.
Lemma rext_nod op ext type code n env pos its u :
  emits (opRext op 0 ext type code false n None) env pos its u -> has type T_APX = true -> hasRex2NFZU op = true ->
  emits (opROO (regOf 0 REG (ogetBit op) false) op (OReg (regOf ext REG (ogetBit op) false)) type code 0 NONE) env pos its true.
Proof.
  intros H HA Rd. unfold opRext in H. apply emits_fn in H. cbv zeta in H. cbn [andb orb] in H. rewrite HA, Rd in H. cbn [andb] in H.
  ebind H i1 i2 b H1 H2. destruct (opROO_result _ _ _ _ _ _ _ _ _ _ _ H1) as (-> & _). rewrite regOf_isREG, orb_true_r in H1, H2.
  cbn [orb] in *. apply emits_ret in H2 as [-> _]. rewrite app_nil_r. exact H1.
Qed.
Lemma nod_says s row op e type code env pos its tl w imm dfv rest extra xops :
  size4 w -> aarg_ok cE op -> ogetBit op = w -> 0 <= e < 16 ->
  emits (opROO (regOf 0 REG w false) op (OReg (regOf e REG w false)) type code 0 NONE) env pos its true ->
  a_ops row = rm_a :: extra -> (forall h reg rm, Forall2 (aoper_ok w h reg rm) extra xops) -> wants_nf xops = false ->
  existsb (fun o => match ao_at o with AtV => true | _ => false end) extra = false ->
  (forall dg, a_digit row = Some dg -> e mod 8 = dg) -> a_sc row = None -> a_nf row <> Nf1 ->
  achk row type code true w = true -> has type T_ZU = false -> wants_zu (op :: xops) = false -> imm_ok (a_immk row) w imm tl ->
  asays row (op :: xops) imm dfv (render s its ++ tl) rest.
Proof.
  intros Hw Ao Po He H Eo Hx Nx Vx Dg Sc Nf C HZ Hz I.
  pose proof (size4_range w Hw) as Rw.
  destruct (dig_facts e w He Rw) as (Re & Be). destruct (dig_facts 0 w ltac:(lia) Rw) as (R0 & B0).
  eapply says1 with (w := w) (b64 := w =? 64) (b16 := w =? 16) (b8 := w =? 8) (r := regOf e REG w false) (d := regOf 0 REG w false); eauto using cE_rm_ok.
  - apply bits2; auto.
  - apply nf_wants; auto. unfold wants_nf. cbn [existsb ob]. fold (wants_nf xops). rewrite Nx, (opnf_ok op) by (apply cE_rm_ok; auto).
    reflexivity.
  - congruence.
  - congruence.
  - rewrite Re. auto.
  - intros h rm R V. rewrite Eo. apply Forall2_cons; [|apply Hx]. apply ok_rm; auto.
    unfold ogetBit, getBit in Po. destruct op as [b|a]; cbn [ob] in Po; auto.
  - eapply sized_hd; eauto.
Qed.
Lemma cG_cE r : aarg_ok cG (OReg r) -> aarg_ok cE (OReg r).
Proof. exact (fun H => H). Qed.
Lemma ext1 op : existsb extended [op] = true -> extended op = true.
Proof. cbn [existsb]. rewrite orb_false_r. auto. Qed.

(* mul, div, neg, not ... *)
Lemma o_digit_entry nm f row e type code :
  (forall op, f op = opRext op 0 e type code false 0 None) -> 0 <= e < 8 ->
  a_ops row = [rm_a] -> a_digit row = Some e -> a_sc row = None -> a_ndk row = Nd0 -> a_nf row <> Nf1 -> a_immk row = I_none ->
  has type T_APX = true -> has type T_ZU = false -> achk_sizes row type code true all4 = true ->
  aimplements (mkAE nm [cE] XAny (a_o f) [row]).
Proof.
  intros Ef He Eo Dg Sc Nd Nf Im HA HZ C s ops imm dfv act env pos its rest u Ha Harg Hsz _ Hx _ Hzu _ H. cbn [ae_fun ae_sig ae_rows ae_ext] in *.
  apply sig1 in Harg as (op & -> & A1). cbn [a_o] in Ha. injection Ha as <-. rewrite Ef in H.
  apply same1 in Hsz as (w & Hw & P1 & B1); [|reflexivity].
  cbn [ext_ok] in Hx. apply ext1 in Hx. apply rext_nod in H; auto using ext_op.
  assert (Ob : ogetBit op = w) by exact B1. rewrite Ob in H.
  rewrite <- (app_nil_r (render s its)). apply Exists_cons_hd.
  refine (nod_says s row op e _ _ _ _ _ [] w _ _ _ [] [] Hw A1 Ob _ H Eo _ eq_refl eq_refl _ Sc Nf _ HZ _ _).
  - lia.
  - constructor.
  - rewrite Dg. intros dg Q. injection Q as <-. apply Z.mod_small; auto.
  - eapply achk_sizes_in; eauto using size4_all.
  - eapply zu_nd0; eauto. left. reflexivity.
  - rewrite Im. apply imm_none.
Qed.
Definition norow (opc e : Z) (nf : nfk) (k : immk) : arow := mkA NP 4 opc (Some e) [rm_a] OsB Nd0 nf None k.
Definition shift_o_rows (dg : Z) (nf : nfk) : list arow := [norow 0xD0 dg nf I_1; norow 0xC0 dg nf I_8].
Definition cl_o_row (dg : Z) (nf : nfk) : arow := mkA NP 4 0xD2 (Some dg) [rm_a; cl_a] OsB Nd0 nf None I_none.
Lemma shift_oi_entry nm f e dg nf type :
  (forall op imm, f op imm = opShift op (s32 imm) e None) -> 0 <= dg < 8 -> e &&& 7 = dg -> shiftType e None = type ->
  nf <> Nf1 -> has type T_ZU = false -> has type T_APX = true ->
  achk_sizes (norow 0xD0 dg nf I_1) type 0xD0 true all4 = true ->
  achk_sizes (norow 0xC0 dg nf I_8) type 0xC0 true all4 = true ->
  aimplements (mkAE nm [cE] XAny (a_oi f) (shift_o_rows dg nf)).
Proof.
  intros Ef He Ed Ht Nf HZ HA C1 C2 s ops imm dfv act env pos its rest u Ha Harg Hsz _ Hx _ Hzu Hi H. cbn [ae_fun ae_sig ae_rows ae_ext] in *.
  apply sig1 in Harg as (op & -> & A1). cbn [a_oi] in Ha. injection Ha as <-. rewrite Ef in H.
  apply same1 in Hsz as (w & Hw & P1 & B1); [|reflexivity]. assert (Ob : ogetBit op = w) by exact B1.
  cbn [ext_ok] in Hx. apply ext1 in Hx. apply ext_op in Hx; auto.
  assert (Ii : 0 <= imm < 256). { inversion Hi as [|? ? _ Hi1]; subst. inversion Hi1 as [|? ? Hi2 _]; subst. exact Hi2. }
  rewrite (s32_byte _ Ii) in H. unfold opShift in H. apply emits_fn in H. rewrite Ht, Ed in H. cbv iota beta in H.
  ebind H j1 j2 x J1 J2. apply verify_split in J1 as [-> _]. cbn [app items_size] in *. rewrite Z.add_0_r in J2.
  ebind J2 i1 i2 y H1 H2. apply rext_nod in H1; auto. rewrite Ob in H1. rewrite render_app.
  assert (ZZ : wants_zu [op] = false). { eapply zu_nd0; eauto; [left; reflexivity|reflexivity]. }
  destruct (imm =? 1) eqn:I1; cbn [negb] in H2.
  - apply Z.eqb_eq in I1. simpl in H2. apply emits_ret in H2 as [-> _]. apply Exists_cons_hd.
    refine (nod_says s (norow 0xD0 dg nf I_1) op dg _ _ _ _ _ _ w _ _ _ [] [] Hw A1 Ob _ H1 eq_refl _ eq_refl eq_refl _ eq_refl Nf _ HZ ZZ _).
    + lia.
    + constructor.
    + cbn [a_digit norow]. intros g Q. injection Q as <-. apply Z.mod_small; auto.
    + eapply achk_sizes_in; eauto using size4_all.
    + apply imm_1_ok; auto.
  - simpl in H2. apply emits_db in H2 as ->. apply Exists_cons_tl, Exists_cons_hd.
    refine (nod_says s (norow 0xC0 dg nf I_8) op dg _ _ _ _ _ _ w _ _ _ [] [] Hw A1 Ob _ H1 eq_refl _ eq_refl eq_refl _ eq_refl Nf _ HZ ZZ _).
    + lia.
    + constructor.
    + cbn [a_digit norow]. intros g Q. injection Q as <-. apply Z.mod_small; auto.
    + eapply achk_sizes_in; eauto using size4_all.
    + cbn [render render1]. apply imm_8_byte. reflexivity.
Qed.
Lemma shift_ob_entry nm f e dg nf type :
  (forall op c, f op c = opShiftCL op c e None) -> 0 <= dg < 8 -> e &&& 7 = dg -> shiftType e None = type ->
  nf <> Nf1 -> has type T_ZU = false -> has type T_APX = true ->
  achk_sizes (cl_o_row dg nf) type 0xD2 true all4 = true ->
  aimplements (mkAE nm [cE; cCl] XAny (a_or f) [cl_o_row dg nf]).
Proof.
  intros Ef He Ed Ht Nf HZ HA C1 s ops imm dfv act env pos its rest u Ha Harg Hsz _ Hx _ Hzu Hi H. cbn [ae_fun ae_sig ae_rows ae_ext] in *.
  apply sig2 in Harg as (op & oc & -> & A2 & A3).
  destruct oc as [c|a]; [|contradiction]. cbn [a_or] in Ha. injection Ha as <-. rewrite Ef in H.
  apply same2 in Hsz as (w & Hw & P2 & _ & X); [|reflexivity]. specialize (P2 eq_refl).
  destruct X as [(_ & B1)|(X & _)]; [|discriminate]. assert (Ob : ogetBit op = w) by exact B1.
  unfold opShiftCL in H. apply emits_fn in H. destruct (getIdx c =? 1) eqn:Ic; cbn [negb] in H; [|einv H]. apply Z.eqb_eq in Ic.
  rewrite Ht, Ed in H. cbv iota beta in H. cbn [ext_ok] in Hx.
  assert (Xo : extended op = true).
  { cbn [existsb] in Hx. rewrite orb_false_r in Hx. apply orb_true_iff in Hx as [Hx|Hx]; auto. exfalso.
    destruct (no_mods_cl c A3) as (N1 & N2). unfold extended, ext_reg in Hx. cbn [ob] in Hx. rewrite N1, N2, <- regno_getIdx, Ic in Hx. discriminate. }
  apply rext_nod in H; auto using ext_op. rewrite Ob in H.
  assert (ZZ : wants_zu [op; OReg c] = false). { eapply zu_nd0; eauto; [left; reflexivity|reflexivity]. }
  apply Exists_cons_hd. rewrite <- (app_nil_r (render s its)).
  refine (nod_says s (cl_o_row dg nf) op dg _ _ _ _ _ _ w _ _ _ [cl_a] [OReg c] Hw A2 Ob _ H eq_refl _ _ eq_refl _ eq_refl Nf _ HZ ZZ _).
  - lia.
  - intros h reg rm. apply Forall2_cons; [apply ok_cl; auto|constructor].
  - destruct (no_mods_cl c A3) as (N1 & _). unfold wants_nf. cbn [existsb ob]. rewrite N1. reflexivity.
  - cbn [a_digit cl_o_row]. intros g Q. injection Q as <-. apply Z.mod_small; auto.
  - eapply achk_sizes_in; eauto using size4_all.
  - apply imm_none.
Qed.
