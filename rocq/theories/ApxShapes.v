(* The shapes of the methods with APX encodings. *)
From Coq Require Import ZArith List Bool Lia String.
From Verif Require Import Base Types Emit Encode SpecX86 SpecAddr EmitFacts BitFacts Wf MemFacts LegacyFacts VexFacts
  SpecIsa SpecInsn SpecLeg SpecApx ApxFacts.
Import ListNotations.
Open Scope Z_scope.

(* The fields of a row against the type word, for operand size w; hd: the NDD register is present; b64, b16, b8:
   the widths the encoder sees *)
Definition achkb (row : arow) (type code : Z) (hd : bool) (w : Z) (b64 b16 b8 : bool) : bool :=
  w_in (a_osz row) w
  && (apx_map type =? a_map row)
  && ((if has type (T_F2 ||| T_F3 ||| T_66) then getPP type else b2z b16) =? (if w_66 (a_osz row) w then 1 else pp_num (a_pp row)))
  && w_W (a_osz row) w (if has type T_W0 then false else b64 || has type T_W1)
  && (w8 (code ||| b2z ((((type &&& T_SENTRY) =? 0) || has type T_CODE1_IF1) && negb b8)) =? w_opc (a_osz row) w (a_opc row))
  && match a_ndk row with
     | NdZU => has type T_ZU
     | Nd1 => negb (has type T_ZU) && (has type T_ND1 || (negb (has type T_APX) && hd))
     | Nd0 => negb (has type T_ZU) && negb (has type T_ND1) && (has type T_APX || negb hd)
     end
  && match a_nf row with NfNo => negb (has type T_NF) | _ => true end
  && (has type T_APX || (getMap type =? 0)).
Definition achk (row : arow) (type code : Z) (hd : bool) (w : Z) : bool :=
  achkb row type code hd w (w =? 64) (w =? 16) (w =? 8).

Definition size_b (r d : Reg) (b64 b16 b8 : bool) : Prop :=
  isBit r 64 || isBit d 64 = b64 /\ isBit r 16 || isBit d 16 = b16 /\ isBit d 8 = b8.
Definition size_bits (r d : Reg) (w : Z) : Prop := size_b r d (w =? 64) (w =? 16) (w =? 8).

Lemma achk_map row type code hd w b64 b16 b8 : achkb row type code hd w b64 b16 b8 = true -> has type T_APX = true \/ getMap type = 0.
Proof. unfold achkb. rewrite !andb_true_iff. intros (_ & H). apply orb_true_iff in H as [H|H]; auto. right. now apply Z.eqb_eq. Qed.

(* what the NF modifiers of the encoded registers have to be *)
Definition nf_as (row : arow) (ops : list Operand) (nf : bool) : Prop :=
  match a_nf row with Nf1 => nf = true | _ => nf = wants_nf ops end.
Lemma ahead_intro row w dfv ops type code r b d nf h b64 b16 b8 :
  apx_fields type code r b d nf NONE h -> a_sc row = None ->
  achkb row type code (isREG d) w b64 b16 b8 = true -> size_b r d b64 b16 b8 ->
  nf_as row ops nf -> (nf = true -> has type T_NF = true) ->
  (has type T_ZU = true -> ZU_ r || ZU_ b = wants_zu ops) ->
  (wants_zu ops = true -> a_ndk row <> Nd0) ->
  (has_v row = false -> regno d = 0) ->
  ahead row w dfv ops h.
Proof.
  intros F Hsc C (S64 & S16 & S8) Hn Hnf Hzu1 Hzu2 HV.
  unfold achkb in C. rewrite !andb_true_iff in C. destruct C as (((((((C1 & C2) & C3) & C4) & C5) & C6) & C7) & C8).
  apply Z.eqb_eq in C2, C3, C5.
  destruct F as [F1 (P1 & P2 & P3 & P4 & P5 & P6) F3 F4 F5 F6 (L1 & L2) F8 F9 _]. destruct (F9 eq_refl) as (V1 & V2 & V3).
  unfold ahead. rewrite Hsc.
  repeat (split; [solve [auto]|]).
  split. { congruence. }
  split. { rewrite F4. unfold apx_pp. rewrite S16. auto. }
  split. { rewrite F5. unfold apx_W. rewrite S64. auto. }
  split. { rewrite F6. unfold final_opc. rewrite S8. auto. }
  split; auto. split; auto.
  split. { rewrite F8. unfold apx_nd. destruct (a_ndk row).
    - apply andb_true_iff in C6 as [C6 C9]. apply andb_true_iff in C6 as [C6 C10]. apply negb_true_iff in C6, C10. rewrite C6, C10.
      destruct (has type T_APX); auto. now apply negb_true_iff in C9.
    - apply andb_true_iff in C6 as [C6 C9]. apply negb_true_iff in C6. rewrite C6.
      destruct (has type T_ND1); auto. cbn [orb] in C9. destruct (has type T_APX); [discriminate|]. auto.
    - rewrite C6. auto. }
  split; auto.
  split. { unfold nf_as in Hn. destruct (a_nf row); [|congruence|congruence].
    apply negb_true_iff in C7. assert (nf = false) by (destruct nf; auto; rewrite Hnf in C7; auto; discriminate). split; congruence. }
  split; auto. intros N. rewrite V1. auto.
Qed.
(* with a source condition *)
Lemma ahead_sc row w dfv ops type code r b d nf sc h b64 b16 b8 :
  apx_fields type code r b d nf sc h -> sc <> NONE -> a_sc row = Some sc -> a_ndk row = Nd0 -> a_nf row = NfNo ->
  achkb row type code (isREG d) w b64 b16 b8 = true -> size_b r d b64 b16 b8 ->
  nf = wants_nf ops -> (nf = true -> has type T_NF = true) ->
  wants_zu ops = false -> 0 <= dfv < 16 -> regno d = 15 - dfv ->
  ahead row w dfv ops h.
Proof.
  intros F Nsc Hsc Hnd Hnf0 C (S64 & S16 & S8) Hn Hnf Hzu Hdfv Hd.
  unfold achkb in C. rewrite Hnd, Hnf0 in C. rewrite !andb_true_iff in C. destruct C as (((((((C1 & C2) & C3) & C4) & C5) & ((C6 & C9) & C10)) & C7) & C8).
  apply Z.eqb_eq in C2, C3, C5. apply negb_true_iff in C6, C9, C7.
  destruct F as [F1 (P1 & P2 & P3 & P4 & P5 & P6) F3 F4 F5 F6 (L1 & L2) F8 _ F9]. destruct (F9 Nsc) as (V1 & V2).
  unfold ahead. rewrite Hsc.
  repeat (split; [solve [auto]|]).
  split. { congruence. }
  split. { rewrite F4. unfold apx_pp. rewrite S16. auto. }
  split. { rewrite F5. unfold apx_W. rewrite S64. auto. }
  split. { rewrite F6. unfold final_opc. rewrite S8. auto. }
  split; auto. split; auto.
  split. { rewrite F8. unfold apx_nd. rewrite C6, C9. destruct (has type T_APX); auto. now apply negb_true_iff in C10. }
  split; auto. split. { rewrite V1, Hd, Z.mod_small; lia. }
  split; auto. split; auto. rewrite <- Hn. destruct nf; auto. rewrite Hnf in C7; auto; discriminate.
Qed.

Lemma nf_wants row ops nf : a_nf row <> Nf1 -> nf = wants_nf ops -> nf_as row ops nf.
Proof. unfold nf_as. intros H ->. destruct (a_nf row); congruence. Qed.
Definition opnf (op : Operand) : bool := match op with OReg b => NF_ b | OMem _ => false end.
Definition opzu (op : Operand) : bool := match op with OReg b => ZU_ b | OMem _ => false end.
Lemma rm_reg_zu op : rm_ok op -> ZU_ (rm_reg op) = opzu op.
Proof. destruct op as [b|a]; intros H; auto. apply getRegExp_mods in H as (_ & _ & H). exact H. Qed.

(* op in r/m, r in reg *)
Lemma says1 s row ops imm dfv d op r type code imz env pos its rest tl w b64 b16 b8 :
  rm_ok op ->
  emits (opROO d op (OReg r) type code imz NONE) env pos its true ->
  a_sc row = None ->
  achkb row type code (isREG d) w b64 b16 b8 = true -> size_b r d b64 b16 b8 ->
  nf_as row ops (NF_ r || opnf op || NF_ d) ->
  (has type T_ZU = true -> ZU_ r || opzu op = wants_zu ops) ->
  (wants_zu ops = true -> a_ndk row <> Nd0) ->
  (has_v row = false -> regno d = 0) ->
  (forall dg, a_digit row = Some dg -> regno r mod 8 = dg) ->
  (forall h rm, rm_is op h rm -> h_V h = regno d -> Forall2 (aoper_ok w h (regno r) rm) (a_ops row) ops) ->
  asized row w ops -> imm_ok (a_immk row) w imm tl ->
  asays row ops imm dfv (render s its ++ tl) rest.
Proof.
  intros Ho H Hsc C Sb Hn Z1 Z2 HV Hd Hops Hs Hi.
  destruct (opROO_dec1 s _ _ _ _ _ _ _ _ _ _ (tl ++ rest) Ho (achk_map _ _ _ _ _ _ _ _ C) (or_introl eq_refl) H)
    as (h & rm & nf & D & F & R & En & N1 & N2).
  exists w, h, (regno r), rm, tl. split. { rewrite <- app_assoc. exact D. }
  split. { refine (ahead_intro _ _ _ _ _ _ _ _ _ _ _ _ _ _ F Hsc C Sb _ N1 _ Z2 HV).
    { rewrite En. destruct op; exact Hn. } { rewrite rm_reg_zu; auto. } }
  split; auto. split; [|auto]. apply Hops; auto. destruct F as [_ _ _ _ _ _ _ _ F _]. apply F. auto.
Qed.
(* r in reg, memory in r/m *)
Lemma says2 s row ops imm dfv d a r type code imz env pos its rest tl w b64 b16 b8 :
  amem a ->
  emits (opROO d (OReg r) (OMem a) type code imz NONE) env pos its true ->
  a_sc row = None ->
  achkb row type (code ||| 2) (isREG d) w b64 b16 b8 = true -> size_b r d b64 b16 b8 ->
  nf_as row ops (NF_ r || NF_ d) ->
  (has type T_ZU = true -> ZU_ r = wants_zu ops) ->
  (wants_zu ops = true -> a_ndk row <> Nd0) ->
  (has_v row = false -> regno d = 0) ->
  (forall dg, a_digit row = Some dg -> regno r mod 8 = dg) ->
  (forall h rm, rm_is (OMem a) h rm -> h_V h = regno d -> Forall2 (aoper_ok w h (regno r) rm) (a_ops row) ops) ->
  asized row w ops -> imm_ok (a_immk row) w imm tl ->
  asays row ops imm dfv (render s its ++ tl) rest.
Proof.
  intros Ho H Hsc C Sb Hn Z1 Z2 HV Hd Hops Hs Hi.
  destruct (opROO_dec2 s _ _ _ _ _ _ _ _ _ _ (tl ++ rest) Ho (achk_map _ _ _ _ _ _ _ _ C) (or_introl eq_refl) H)
    as (h & rm & nf & D & F & R & En & N1 & N2).
  exists w, h, (regno r), rm, tl. split. { rewrite <- app_assoc. exact D. }
  split. { refine (ahead_intro _ _ _ _ _ _ _ _ _ _ _ _ _ _ F Hsc C Sb _ N1 _ Z2 HV). { rewrite En. exact Hn. }
    rewrite rm_reg_zu by auto. cbn [opzu]. rewrite orb_false_r. exact Z1. }
  split; auto. split; [|auto]. apply Hops; auto. destruct F as [_ _ _ _ _ _ _ _ F _]. apply F. auto.
Qed.
(* with a source condition: op in r/m, r in reg *)
Lemma says1_sc s row ops imm dfv d op r type code imz sc env pos its rest tl w b64 b16 b8 :
  rm_ok op -> 0 <= sc < 16 ->
  emits (opROO d op (OReg r) type code imz sc) env pos its true ->
  a_sc row = Some sc -> a_ndk row = Nd0 -> a_nf row = NfNo ->
  achkb row type code (isREG d) w b64 b16 b8 = true -> size_b r d b64 b16 b8 ->
  NF_ r || opnf op || NF_ d = wants_nf ops ->
  wants_zu ops = false -> 0 <= dfv < 16 -> regno d = 15 - dfv ->
  (forall dg, a_digit row = Some dg -> regno r mod 8 = dg) ->
  (forall h rm, rm_is op h rm -> Forall2 (aoper_ok w h (regno r) rm) (a_ops row) ops) ->
  asized row w ops -> imm_ok (a_immk row) w imm tl ->
  asays row ops imm dfv (render s its ++ tl) rest.
Proof.
  intros Ho Sr H Hsc Hnd Hnf C Sb Hn Z2 Hdf Hv Hd Hops Hs Hi.
  destruct (opROO_dec1 s _ _ _ _ _ _ _ _ _ _ (tl ++ rest) Ho (achk_map _ _ _ _ _ _ _ _ C) (or_intror Sr) H)
    as (h & rm & nf & D & F & R & En & N1 & N2).
  exists w, h, (regno r), rm, tl. split. { rewrite <- app_assoc. exact D. }
  split. { refine (ahead_sc _ _ _ _ _ _ _ _ _ _ _ _ _ _ _ F _ Hsc Hnd Hnf C Sb _ N1 Z2 Hdf Hv).
    { unfold NONE. lia. } { rewrite En. destruct op; exact Hn. } }
  split; auto.
Qed.
Lemma says2_sc s row ops imm dfv d a r type code imz sc env pos its rest tl w b64 b16 b8 :
  amem a -> 0 <= sc < 16 ->
  emits (opROO d (OReg r) (OMem a) type code imz sc) env pos its true ->
  a_sc row = Some sc -> a_ndk row = Nd0 -> a_nf row = NfNo ->
  achkb row type (code ||| 2) (isREG d) w b64 b16 b8 = true -> size_b r d b64 b16 b8 ->
  NF_ r || NF_ d = wants_nf ops ->
  wants_zu ops = false -> 0 <= dfv < 16 -> regno d = 15 - dfv ->
  (forall dg, a_digit row = Some dg -> regno r mod 8 = dg) ->
  (forall h rm, rm_is (OMem a) h rm -> Forall2 (aoper_ok w h (regno r) rm) (a_ops row) ops) ->
  asized row w ops -> imm_ok (a_immk row) w imm tl ->
  asays row ops imm dfv (render s its ++ tl) rest.
Proof.
  intros Ho Sr H Hsc Hnd Hnf C Sb Hn Z2 Hdf Hv Hd Hops Hs Hi.
  destruct (opROO_dec2 s _ _ _ _ _ _ _ _ _ _ (tl ++ rest) Ho (achk_map _ _ _ _ _ _ _ _ C) (or_intror Sr) H)
    as (h & rm & nf & D & F & R & En & N1 & N2).
  exists w, h, (regno r), rm, tl. split. { rewrite <- app_assoc. exact D. }
  split. { refine (ahead_sc _ _ _ _ _ _ _ _ _ _ _ _ _ _ _ F _ Hsc Hnd Hnf C Sb _ N1 Z2 Hdf Hv).
    { unfold NONE. lia. } { rewrite En. exact Hn. } }
  split; auto.
Qed.


(* ---- operands ---- *)
Definition size4 (w : Z) : Prop := w = 8 \/ w = 16 \/ w = 32 \/ w = 64.
Lemma size4_in w : In w [8; 16; 32; 64] <-> size4 w.
Proof. unfold size4. simpl. intuition auto. Qed.
Lemma bits_of r w : bit_ r = w -> size4 w -> isBit r 64 = (w =? 64) /\ isBit r 16 = (w =? 16) /\ isBit r 8 = (w =? 8).
Proof. unfold isBit. intros -> [->|[->|[->| ->]]]; repeat split. Qed.
Lemma bits2 r d w : bit_ r = w -> bit_ d = w -> size4 w -> size_bits r d w.
Proof.
  intros Hr Hd Hw. destruct (bits_of r w Hr Hw) as (A1 & A2 & A3). destruct (bits_of d w Hd Hw) as (B1 & B2 & B3).
  unfold size_bits, size_b. rewrite A1, A2, B1, B2, B3. destruct (w =? 64), (w =? 16); auto.
Qed.
(* without NDD register the opcode does not depend on the size *)
Lemma bits_noReg r w : bit_ r = w -> size4 w -> w <> 8 -> size_bits r noReg w.
Proof.
  intros Hr Hw N. destruct (bits_of r w Hr Hw) as (A1 & A2 & A3). unfold size_bits, size_b. rewrite A1, A2.
  apply Z.eqb_neq in N. rewrite N, !orb_false_r. auto.
Qed.
Lemma gpr_isREG r : gpr r -> isREG r = true.
Proof. intros (K & _). unfold isREG, is_. rewrite K. reflexivity. Qed.

Lemma ok_v w h reg rm d : gpr d -> low8 d -> bit_ d = w -> h_V h = regno d -> aoper_ok w h reg rm v_ (OReg d).
Proof. intros G L B V. simpl. split; [exists KG; auto|]. auto. Qed.
Lemma ok_rg w h rm r : gpr r -> low8 r -> bit_ r = w -> aoper_ok w h (regno r) rm rg_ (OReg r).
Proof. intros G L B. simpl. split; [exists KG; auto|]. auto. Qed.
Lemma ok_rm w h reg rm op : aarg_ok cE op -> (match op with OReg b => bit_ b = w | OMem a => bit_ (a_op a) = 0 \/ bit_ (a_op a) = w end) ->
  rm_is op h rm -> aoper_ok w h reg rm rm_a op.
Proof.
  destruct op as [b|a]; simpl.
  - intros (G & L) B (R & X). split; [exists KG; auto|]. auto.
  - intros Am B R. auto.
Qed.
Lemma ok_mm w h reg rm a : (bit_ (a_op a) = 0 \/ bit_ (a_op a) = w) -> rm_is (OMem a) h rm -> aoper_ok w h reg rm mm_a (OMem a).
Proof. simpl. intros B R. auto. Qed.
Lemma cE_rm_ok op : aarg_ok cE op -> rm_ok op.
Proof. destruct op; simpl; auto. Qed.
Lemma cEv_cE op : aarg_ok cEv op -> aarg_ok cE op.
Proof. destruct op as [b|a]; simpl. { intros (G & B). split; auto. intros Q. contradiction. } tauto. Qed.
Lemma cGv_cG r : aarg_ok cGv (OReg r) -> gpr r /\ low8 r.
Proof. simpl. intros (G & B). split; auto. intros Q. contradiction. Qed.
Lemma amem_nf a : amem a -> NF_ (a_op a) = false /\ ZU_ (a_op a) = false.
Proof. intros (_ & _ & A & B & _). auto. Qed.
Lemma opnf_ok op : rm_ok op -> NF_ (ob op) = opnf op.
Proof. destruct op; simpl; auto. intros H. apply amem_nf in H as [A _]. auto. Qed.
Lemma opzu_ok op : rm_ok op -> ZU_ (ob op) = opzu op.
Proof. destruct op; simpl; auto. intros H. apply amem_nf in H as [_ A]. auto. Qed.
Lemma imm_none w imm : imm_ok I_none w imm [].
Proof. repeat split; auto. Qed.

(* ---- argument lists ---- *)
Definition psize (w : Z) (o : Operand) : Prop := match o with OReg r => bit_ r = w | OMem a => bit_ (a_op a) = 0 \/ bit_ (a_op a) = w end.
Lemma sig1 c1 ops : Forall2 aarg_ok [c1] ops -> exists o1, ops = [o1] /\ aarg_ok c1 o1.
Proof. intros H. inversion H as [|? o1 ? ? A R]; subst. inversion R; subst. eauto. Qed.
Lemma sig2 c1 c2 ops : Forall2 aarg_ok [c1; c2] ops -> exists o1 o2, ops = [o1; o2] /\ aarg_ok c1 o1 /\ aarg_ok c2 o2.
Proof. intros H. inversion H as [|? o1 ? ? A R]; subst. apply sig1 in R as (o2 & -> & B). eauto 6. Qed.
Lemma sig3 c1 c2 c3 ops : Forall2 aarg_ok [c1; c2; c3] ops ->
  exists o1 o2 o3, ops = [o1; o2; o3] /\ aarg_ok c1 o1 /\ aarg_ok c2 o2 /\ aarg_ok c3 o3.
Proof. intros H. inversion H as [|? o1 ? ? A R]; subst. apply sig2 in R as (o2 & o3 & -> & B & C). eauto 8. Qed.
Lemma sig4 c1 c2 c3 c4 ops : Forall2 aarg_ok [c1; c2; c3; c4] ops ->
  exists o1 o2 o3 o4, ops = [o1; o2; o3; o4] /\ aarg_ok c1 o1 /\ aarg_ok c2 o2 /\ aarg_ok c3 o3 /\ aarg_ok c4 o4.
Proof. intros H. inversion H as [|? o1 ? ? A R]; subst. apply sig3 in R as (o2 & o3 & o4 & -> & B & C & D). eauto 10. Qed.
Lemma all_psize sig ops w : Forall (fun p => takes_size (fst p) = true ->
       match snd p with OReg r => bit_ r = w | OMem a => bit_ (a_op a) = 0 \/ bit_ (a_op a) = w end) (combine sig ops) ->
  Forall (fun p => takes_size (fst p) = true -> psize w (snd p)) (combine sig ops).
Proof. auto. Qed.
Lemma same1 c1 o1 : same_size [c1] [o1] -> takes_size c1 = true -> exists w, size4 w /\ psize w o1 /\ bit_ (ob o1) = w.
Proof.
  intros [N|(w & Hw & A & X)] T1; [cbn [existsb] in N; rewrite T1 in N; discriminate|]. exists w. apply size4_in in Hw. split; auto. apply all_psize in A. cbn [combine] in *.
  apply Forall_inv in A. split; [apply A; auto|]. apply Exists_cons in X as [(_ & X)|X]; auto. apply Exists_nil in X. contradiction.
Qed.
Lemma same2 c1 c2 o1 o2 : same_size [c1; c2] [o1; o2] -> existsb takes_size [c1; c2] = true ->
  exists w, size4 w /\ (takes_size c1 = true -> psize w o1) /\ (takes_size c2 = true -> psize w o2)
    /\ ((takes_size c1 = true /\ bit_ (ob o1) = w) \/ (takes_size c2 = true /\ bit_ (ob o2) = w)).
Proof.
  intros [N|(w & Hw & A & X)] T; [congruence|]. exists w. apply size4_in in Hw. split; auto. apply all_psize in A. cbn [combine] in *.
  inversion A as [|? ? A1 A']; subst. apply Forall_inv in A'. cbn [fst snd] in *. split; auto. split; auto.
  apply Exists_cons in X as [X|X]; auto. apply Exists_cons in X as [X|X]; auto. apply Exists_nil in X. contradiction.
Qed.
Lemma same3 c1 c2 c3 o1 o2 o3 : same_size [c1; c2; c3] [o1; o2; o3] -> existsb takes_size [c1; c2; c3] = true ->
  exists w, size4 w /\ (takes_size c1 = true -> psize w o1) /\ (takes_size c2 = true -> psize w o2) /\ (takes_size c3 = true -> psize w o3)
    /\ ((takes_size c1 = true /\ bit_ (ob o1) = w) \/ (takes_size c2 = true /\ bit_ (ob o2) = w) \/ (takes_size c3 = true /\ bit_ (ob o3) = w)).
Proof.
  intros [N|(w & Hw & A & X)] T; [congruence|]. exists w. apply size4_in in Hw. split; auto. apply all_psize in A. cbn [combine] in *.
  inversion A as [|? ? A1 A']; subst. inversion A' as [|? ? A2 A3]; subst. apply Forall_inv in A3. cbn [fst snd] in *.
  split; auto. split; auto. split; auto.
  apply Exists_cons in X as [X|X]; auto. apply Exists_cons in X as [X|X]; auto. apply Exists_cons in X as [X|X]; auto. apply Exists_nil in X. contradiction.
Qed.
Lemma sized_hd row w o ops a aops : a_ops row = a :: aops -> ao_size a = Sv -> bit_ (ob o) = w -> asized row w (o :: ops).
Proof. intros Q Hs B. unfold asized. rewrite Q. right. simpl. apply Exists_cons_hd. auto. Qed.
Lemma sized_tl row w o o2 ops a a2 aops : a_ops row = a :: a2 :: aops -> ao_size a2 = Sv -> bit_ (ob o2) = w -> asized row w (o :: o2 :: ops).
Proof. intros Q Hs B. unfold asized. rewrite Q. right. simpl. apply Exists_cons_tl, Exists_cons_hd. auto. Qed.

(* ---- d, op1, op2 ---- *)
Definition achk_sizes (row : arow) (type code : Z) (hd : bool) (ws : list Z) : bool := forallb (achk row type code hd) ws.
Lemma achk_sizes_in row type code hd ws w : achk_sizes row type code hd ws = true -> In w ws -> achk row type code hd w = true.
Proof. unfold achk_sizes. rewrite forallb_forall. auto. Qed.
Definition all4 := [8; 16; 32; 64].
Definition no8 := [16; 32; 64].

Definition roo_rows (opc : Z) (nf : nfk) : list arow :=
  [mkA NP 4 opc None [v_; rm_a; rg_] OsB Nd1 nf None I_none; mkA NP 4 (opc ||| 2) None [v_; rg_; mm_a] OsB Nd1 nf None I_none].
Definition roochk (type code opc : Z) (nf : nfk) : bool :=
  match roo_rows opc nf with
  | [r1; r2] => achk_sizes r1 type code true all4 && achk_sizes r2 type (code ||| 2) true all4
  | _ => false end.
Lemma size4_all w : size4 w -> In w all4.
Proof. unfold size4, all4. simpl. intuition auto. Qed.
Lemma size4_no8 w : size4 w -> w <> 8 -> In w no8.
Proof. unfold size4, no8. simpl. intuition auto. Qed.
Lemma opROO_ndd d o1 o2 type code imz sc env pos its b : isREG d = true ->
  emits (opROO d o1 o2 type code imz sc) env pos its b -> b = true.
Proof. intros R H. destruct (opROO_result _ _ _ _ _ _ _ _ _ _ _ H) as (-> & _). rewrite R, orb_true_r. reflexivity. Qed.
Lemma forall_zu (ops : list Operand) (rows : list arow) row :
  (wants_zu ops = true -> Forall (fun row => a_ndk row <> Nd0) rows) -> In row rows -> wants_zu ops = true -> a_ndk row <> Nd0.
Proof. intros H I W. specialize (H W). rewrite Forall_forall in H. auto. Qed.

Lemma roo_entry nm type code opc nf :
  roochk type code opc nf = true -> has type T_ZU = false -> nf <> Nf1 ->
  aimplements (mkAE nm [cG; cE; cE] XNo (a_roo (fun d o1 o2 => opROO d o1 o2 type code 0 NONE ;;; ret tt)) (roo_rows opc nf)).
Proof.
  intros C HZ HN s ops imm dfv act env pos its rest u Ha Harg Hsz _ _ _ Hzu _ H. cbn [ae_fun ae_sig ae_rows] in *.
  unfold roochk in C. cbn [roo_rows] in C. apply andb_true_iff in C as [C1 C2].
  apply sig3 in Harg as (o & o1 & o2 & -> & A1 & A2 & A3).
  destruct o as [d|a]; [|contradiction]. cbn [a_roo] in Ha. injection Ha as <-.
  apply same3 in Hsz as (w & Hw & P1 & P2 & P3 & _); [|reflexivity].
  specialize (P1 eq_refl). specialize (P2 eq_refl). specialize (P3 eq_refl). cbn [psize] in P1.
  ebind H i1 i2 bb H1 H. apply emits_ret in H as [-> _].
  destruct A1 as (Gd & Ld). pose proof (gpr_isREG d Gd) as Rd.
  rewrite (opROO_ndd _ _ _ _ _ _ _ _ _ _ _ Rd H1) in H1. rewrite app_nil_r, <- (app_nil_r (render s i1)).
  destruct o2 as [r|a].
  - apply Exists_cons_hd. destruct A3 as (Gr & Lr). cbn [psize] in P3.
    eapply says1 with (w := w) (b64 := w =? 64) (b16 := w =? 16) (b8 := w =? 8); eauto using cE_rm_ok, imm_none.
    + rewrite Rd. eapply achk_sizes_in with (w := w); eauto using size4_all.
    + apply bits2; auto.
    + apply nf_wants; auto. unfold wants_nf. cbn [existsb ob]. rewrite <- (opnf_ok o1) by (apply cE_rm_ok; auto);
        destruct (NF_ r), (NF_ (ob o1)), (NF_ d); reflexivity.
    + congruence.
    + discriminate.
    + discriminate.
    + discriminate.
    + intros h rm R V. cbn [a_ops]. apply Forall2_cons; [apply ok_v; auto|].
      apply Forall2_cons; [apply ok_rm; auto|]. apply Forall2_cons; [apply ok_rg; auto|]. constructor.
    + eapply sized_hd; try reflexivity. auto.
  - apply Exists_cons_tl, Exists_cons_hd. destruct o1 as [r|a1].
    + destruct A2 as (Gr & Lr). cbn [psize] in P2.
      eapply says2 with (w := w) (b64 := w =? 64) (b16 := w =? 16) (b8 := w =? 8); eauto using imm_none.
      * rewrite Rd. eapply achk_sizes_in with (w := w); eauto using size4_all.
      * apply bits2; auto.
      * apply nf_wants; auto. unfold wants_nf; cbn [existsb ob]; destruct (amem_nf _ A3) as [-> _];
        destruct (NF_ r), (NF_ d); reflexivity.
      * congruence.
      * discriminate.
      * discriminate.
      * discriminate.
      * intros h rm R V. cbn [a_ops]. apply Forall2_cons; [apply ok_v; auto|].
        apply Forall2_cons; [apply ok_rg; auto|]. apply Forall2_cons; [apply ok_mm; auto|]. constructor.
      * eapply sized_hd; try reflexivity. auto.
    + exfalso. unfold opROO in H1. apply emits_fn in H1. rewrite Rd in H1. cbn [isMEM negb] in H1. rewrite andb_false_r in H1. cbn [andb] in H1. einv H1.
Qed.
Lemma roo_alu nf type : (type = T_NONE /\ nf = NfNo) \/ (type = T_NF ||| T_CODE1_IF1 /\ nf = NfOpt) ->
  forall nm opc, In opc [0x00; 0x08; 0x10; 0x18; 0x20; 0x28; 0x30] ->
  aimplements (mkAE nm [cG; cE; cE] XNo (a_roo (fun d o1 o2 => opROO d o1 o2 type opc 0 NONE ;;; ret tt)) (roo_rows opc nf)).
Proof.
  intros T nm opc Ho. apply roo_entry.
  - destruct T as [(-> & ->)|(-> & ->)]; destruct Ho as [<-|[<-|[<-|[<-|[<-|[<-|[<-|[]]]]]]]]; vm_compute; reflexivity.
  - destruct T as [(-> & _)|(-> & _)]; reflexivity.
  - destruct T as [(_ & ->)|(_ & ->)]; discriminate.
Qed.
