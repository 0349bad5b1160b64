(* Methods of the remaining legacy shapes against rows: what the argument classes give, one lemma per way of calling opSSE,
   opMR, opRR. *)
From Coq Require Import ZArith List Bool String Lia.
From Verif Require Import Base Types Emit Encode SpecX86 SpecAddr SpecIsa SpecInsn SpecLeg SpecMix Wf EmitFacts BitFacts MemFacts LegacyFacts VexFacts EncThms LegFacts LegShapes LegGpr LegGpr2 LegGpr3 SseFacts.
Import ListNotations.
Open Scope Z_scope.

Fixpoint cregs (c : mcls) : list (okind * list Z) :=
  match c with
  | aX => [(KX, [128])] | aMm => [(KM, [64])] | aR l => [(KG, l)] | aB => [(KB, [128])] | aM _ => [] | aAny => []
  | aOr c1 c2 => cregs c1 ++ cregs c2 | aLow c => cregs c end.
Fixpoint cmems (c : mcls) : list Z :=
  match c with aM l => l | aOr c1 c2 => cmems c1 ++ cmems c2 | aLow c => cmems c | _ => [] end.
Fixpoint no_any (c : mcls) : bool := match c with aAny => false | aOr c1 c2 => no_any c1 && no_any c2 | aLow c => no_any c | _ => true end.
Lemma aX_any r : vec_reg r /\ kind_ r = XMM -> any_reg r.
Proof. unfold any_reg. intuition. Qed.
Lemma aX_file r : vec_reg r /\ kind_ r = XMM -> isValidSSE (OReg r) = true -> in_file KX r.
Proof. intros A V. apply xmm_file; auto. apply aX_any; auto. unfold isXMM, is_. destruct A as [_ ->]. reflexivity. Qed.
Lemma in_file_bits k r : in_file k r -> In (bit_ r) (match k with KG => [8; 16; 32; 64] | KX => [128] | KM => [64] | KB => [128] end).
Proof. destruct k; cbn [in_file]; [intros; now apply gpr_bits|..]; intros (_ & -> & _); cbn; auto. Qed.
Lemma among_app_l l m x y op : op_among l x op -> op_among (l ++ m) (x ++ y) op.
Proof. unfold op_among. destruct op; [intros (k & bs & Hin & ?); exists k, bs; split; auto; apply in_or_app; auto|]. intros [? ?]; split; auto; apply in_or_app; auto. Qed.
Lemma among_app_r l m x y op : op_among m y op -> op_among (l ++ m) (x ++ y) op.
Proof. unfold op_among. destruct op; [intros (k & bs & Hin & ?); exists k, bs; split; auto; apply in_or_app; auto|]. intros [? ?]; split; auto; apply in_or_app; auto. Qed.
Lemma among c op : no_any c = true -> marg_ok c op -> isValidSSE op = true -> op_among (cregs c) (cmems c) op.
Proof.
  induction c; cbn [no_any marg_ok cregs cmems]; intros N H V; try discriminate N.
  - destruct op as [r|]; [|contradiction]. exists KX, [128]. pose proof (aX_file _ H V) as F. repeat split; cbn; auto; try apply F.
    destruct F as (_ & B & _). auto.
  - destruct op as [r|]; [|contradiction]. exists KM, [64]. destruct H as (K & B & X). split; [cbn; auto|]. split; [split; auto|]. cbn. auto.
  - destruct op as [r|]; [|contradiction]. destruct H as [G B]. exists KG, widths. split; [cbn; auto|]. split; auto.
  - destruct op as [r|]; [|contradiction]. exists KB, [128]. destruct H as (K & B & X). split; [cbn; auto|]. split; [split; auto|]. cbn. auto.
  - destruct op as [|a]; [contradiction|]. exact H.
  - apply andb_prop in N as [N1 N2]. destruct H as [H|H]; [apply among_app_l|apply among_app_r]; auto.
  - apply IHc; auto. apply H.
Qed.
(* a register operand *)
Lemma among_reg c r : no_any c = true -> marg_ok c (OReg r) -> isValidSSE (OReg r) = true ->
  exists k bs, In (k, bs) (cregs c) /\ in_file k r /\ In (bit_ r) bs.
Proof. intros N H V. exact (among c (OReg r) N H V). Qed.

Definition imm_ret (ik : immk) (imm imm8 : Z) : Prop := forall w, imm_ok ik w imm (imm_tail imm8).
Lemma ret_none imm : imm_ret I_none imm NONE.
Proof. intros w. apply imm_none_ok. Qed.
Lemma ret_8 imm : 0 <= imm < 256 -> imm_ret I_8 imm (w8 imm).
Proof. intros R w. apply imm_8_ok; auto. unfold w8. rewrite Z.mod_small; lia. Qed.

(* opRO, opSSE, opMR with the operand itself or a stand-in *)
Lemma ro_gen s rows ik srcs k1 bits1 st type code regs mems r r' op n c env pos i1 u imm tail rest :
  gchk rows ik srcs None k1 bits1 st type code regs mems = true ->
  in_file k1 r -> In (bit_ r) bits1 -> stands st k1 r r' -> op_among regs mems op ->
  emits (opRO r' op type code c n) env pos i1 u -> (forall w, imm_ok ik w imm tail) ->
  Exists (fun row => lsays row (map (arg_of r op) srcs) imm (render s i1 ++ tail) rest) rows.
Proof.
  intros C F1 B1 St Op H I. destruct u. apply opRO_call in H as (op' & So & H & Bo & Eo); [|destruct op; [exact Logic.I|apply Op]].
  eapply gen_says; eauto; try discriminate. intros Q; now destruct Q.
Qed.
Lemma sse_gen s rows ik srcs k1 bits1 st type code v regs mems r r' op imm8 env pos its u imm rest :
  gchk rows ik srcs None k1 bits1 st type code regs mems = true ->
  (isValidSSE (OReg r') = true -> in_file k1 r) -> In (bit_ r) bits1 -> (in_file k1 r -> stands st k1 r r') -> (isValidSSE op = true -> op_among regs mems op) ->
  emits (opSSE r' op type code v imm8) env pos its u -> imm_ret ik imm imm8 ->
  Exists (fun row => lsays row (map (arg_of r op) srcs) imm (render s its) rest) rows.
Proof.
  intros C F1 B1 St Op H I. apply (opSSE_split s) in H as (V & V1 & V2 & n & i1 & H & ->). eapply ro_gen; eauto.
Qed.
Lemma dg_gen s rows ik d bits1 b type code mems a env pos i1 u imm tail rest :
  gchk rows ik [SRm] (Some d) KG bits1 (Some b) type code [] mems = true -> In b bits1 -> 0 <= d < 32 -> b = 32 \/ b = 64 ->
  mem_ok a -> In (bit_ (a_op a)) mems ->
  emits (opMR a (regOf d REG b false) type code 0 NONE) env pos i1 u -> (forall w, imm_ok ik w imm tail) ->
  Exists (fun row => lsays row [OMem a] imm (render s i1 ++ tail) rest) rows.
Proof.
  intros C Hb D B M Sz H I.
  assert (Bb : bit_ (regOf d REG b false) = b) by (destruct B as [->| ->]; reflexivity).
  assert (Rn : regno (regOf d REG b false) = d).
  { unfold regno, regOf. cbn [idx_]. rewrite Z.lor_0_r. rewrite (Z.mod_small d 64) by lia. apply Z.mod_small. lia. }
  change [OMem a] with (map (arg_of (regOf d REG b false) (OMem a)) [SRm]).
  eapply (gen_says s rows ik [SRm] (Some d) KG bits1 (Some b) type code [] mems _ (regOf d REG b false) (OMem a) (OMem a)); eauto.
  - discriminate.
  - intros _. split; [discriminate|]. intros [Q|[]]. discriminate Q.
  - rewrite Bb. auto.
  - cbn [stands]. rewrite Bb. destruct B as [->| ->]; repeat split; auto.
  - intros d' [= <-]. auto.
  - cbn. auto.
  - cbn. auto.
Qed.
Lemma one_row {A} (P : A -> Prop) x : Exists P [x] -> P x.
Proof. intros H. inversion H; subst; auto. inversion H1. Qed.

(* ---- methods with an operand in ModRM.reg and one in ModRM.rm ---- *)
Definition pick {A} (x y : A) (s : src) : A := match s with SReg => x | SRm => y end.
Definition two (srcs : list src) : bool := match srcs with [SReg; SRm] | [SRm; SReg] => true | _ => false end.
Definition fn_is (f : insn) (srcs : list src) (act : Reg -> Operand -> Z -> E unit) : Prop :=
  forall r op imm a, f (map (arg_of r op) srcs) imm = Some a -> a = act r op imm.
Fixpoint reg_cls (c : mcls) : bool := match c with aM _ => false | aOr c1 c2 => reg_cls c1 && reg_cls c2 | aLow c => reg_cls c | _ => true end.
Lemma reg_cls_reg c o : reg_cls c = true -> marg_ok c o -> exists r, o = OReg r.
Proof.
  induction c; cbn [reg_cls marg_ok]; intros R H; try discriminate R; try (destruct o; [eauto|contradiction]).
  - apply andb_prop in R as [R1 R2]. destruct H; auto.
  - apply IHc; auto. apply H.
Qed.
Lemma two_args srcs c1 c2 ops : two srcs = true -> reg_cls c1 = true -> Forall2 marg_ok (map (pick c1 c2) srcs) ops ->
  exists r op, ops = map (arg_of r op) srcs /\ marg_ok c1 (OReg r) /\ marg_ok c2 op.
Proof.
  intros T R H. destruct srcs as [|[] [|[] [|]]]; try discriminate T; cbn [map pick] in H;
    inversion H as [|? o1 ? l1 H1 H2]; subst; inversion H2 as [|? o2 ? l2 H3 H4]; subst; inversion H4; subst.
  - destruct (reg_cls_reg _ _ R H1) as [r ->]. exists r, o2. auto.
  - destruct (reg_cls_reg _ _ R H3) as [r ->]. exists r, o1. auto.
Qed.
Definition ik_of (i : option bool) : immk := match i with None => I_none | Some _ => I_8 end.
(* None: no immediate; Some true: uint8_t; Some false: int *)
Definition imm_arg (i : option bool) (imm : Z) : Z := match i with None => NONE | Some true => w8 imm | Some false => s32 imm end.
Lemma ret_of i imm rows : forallb (fun row => match i, l_imm row with None, I_none | Some _, I_8 => true | _, _ => false end) rows = true -> rows <> [] ->
  Forall (fun row => imm_in (l_imm row) imm) rows -> imm_ret (ik_of i) imm (imm_arg i imm).
Proof.
  intros C N F. destruct rows as [|row rows]; [congruence|]. cbn [forallb] in C. apply andb_prop in C as [C _]. inversion F; subst.
  destruct i as [b|]; cbn [ik_of imm_arg]; [|apply ret_none]. destruct (l_imm row); try discriminate C. cbn [imm_in] in H1.
  destruct b; [apply ret_8; auto|]. intros w. apply imm_8_ok; auto. unfold s32, w32. rewrite !Z.mod_small by lia. destruct (imm <? 2147483648) eqn:Q; lia.
Qed.
Definition imms_ok (i : option bool) (rows : list lrow) : bool :=
  negb (match rows with [] => true | _ => false end)
  && forallb (fun row => match i, l_imm row with None, I_none | Some _, I_8 => true | _, _ => false end) rows.
Lemma imms_ret i imm rows : imms_ok i rows = true -> Forall (fun row => imm_in (l_imm row) imm) rows -> imm_ret (ik_of i) imm (imm_arg i imm).
Proof. unfold imms_ok. intros H. apply andb_prop in H as [N C]. apply ret_of; auto. destruct rows; [discriminate N|congruence]. Qed.

Definition sse_chk (rows : list lrow) (i : option bool) (srcs : list src) (c1 c2 : mcls) (type code : Z) : bool :=
  two srcs && reg_cls c1 && no_any c1 && no_any c2 && imms_ok i rows
  && forallb (fun kb => gchk rows (ik_of i) srcs None (fst kb) (snd kb) None type code (cregs c2) (cmems c2)) (cregs c1).
Lemma e_sse name fn srcs c1 c2 rows i type code v :
  fn_is fn srcs (fun r op imm => opSSE r op type code v (imm_arg i imm)) -> sse_chk rows i srcs c1 c2 type code = true ->
  mimplements (mkME name (map (pick c1 c2) srcs) fn rows).
Proof.
  intros Fn C s ops imm act env pos its rest u Hf Ha Hb Hi H. cbn [me_sig me_fun me_rows] in *.
  unfold sse_chk in C. do 5 (apply andb_prop in C as [C ?]).
  apply two_args in Ha as (r & op & -> & A1 & A2); auto. apply Fn in Hf. subst act.
  assert (V : isValidSSE (OReg r) = true) by (apply (opSSE_split s) in H; tauto).
  destruct (among_reg _ _ H3 A1 V) as (k1 & bs & Hin & F1 & B1). rewrite forallb_forall in H0. specialize (H0 _ Hin). cbn [fst snd] in H0.
  eapply sse_gen; eauto. 
  - intros _. now apply stands_same.
  - intros V2. now apply among.
  - eapply imms_ret; eauto.
Qed.
(* any operands, restricted by a validator *)
Definition vfiles (v : Operand -> Operand -> bool) (k1 : okind) (bits1 : list Z) (k2 : okind) (bits2 : list Z) : Prop :=
  forall r op, any_reg r -> (match op with OReg q => any_reg q | OMem _ => True end) -> v (OReg r) op = true -> isValidSSE (OReg r) = true -> isValidSSE op = true ->
    (in_file k1 r /\ In (bit_ r) bits1) /\ match op with OReg q => in_file k2 q /\ In (bit_ q) bits2 | OMem _ => True end.
Lemma gpr_i32e r : in_file KG r -> isREGb r i32e = true -> In (bit_ r) [32; 64].
Proof.
  intros F H. pose proof (gpr_bits _ F) as B. unfold isREGb, is_ in H. apply andb_prop in H as [_ H].
  cbn in B. destruct B as [B|[B|[B|[B|[]]]]]; rewrite <- B in H |- *; try discriminate H; cbn; auto.
Qed.
Ltac vf := intros r op A Ao V V1 V2; unfold isXMM_MMXorMEM, isMMX_XMMorMEM, isXMM_REG32orMEM, isREG32_XMMorMEM, isXMM_XMMorMEM in V; apply andb_prop in V as [X1 X2]; unfold oXMM, oMMX, oREGb in X1, X2; cbn [ob] in X1;
  split; [|destruct op as [q|]; [cbn [isMEM ob] in X2; rewrite orb_false_r in X2|exact Logic.I]].
Ltac vfx := match goal with X : isXMM ?r = true |- in_file _ ?r /\ _ => pose proof (xmm_file r ltac:(assumption) X ltac:(assumption)) as F; split; [exact F|]; destruct F as (_ & -> & _); cbn; auto end.
Ltac vfm := match goal with X : isMMX ?r = true |- in_file _ ?r /\ _ => pose proof (mmx_file r ltac:(assumption) X) as F; split; [exact F|]; destruct F as (_ & -> & _); cbn; auto end.
Ltac vfg := match goal with X : isREGb ?r _ = true |- in_file _ ?r /\ _ => pose proof (gpr_file r _ ltac:(assumption) X) as F; split; [exact F|]; apply gpr_i32e; auto end.
Lemma vf_xm : vfiles isXMM_MMXorMEM KX [128] KM [64]. Proof. vf; [vfx|vfm]. Qed.
Lemma vf_mx : vfiles isMMX_XMMorMEM KM [64] KX [128]. Proof. vf; [vfm|vfx]. Qed.
Lemma vf_xg : vfiles isXMM_REG32orMEM KX [128] KG [32; 64]. Proof. vf; [vfx|vfg]. Qed.
Lemma vf_gx : vfiles isREG32_XMMorMEM KG [32; 64] KX [128]. Proof. vf; [vfg|vfx]. Qed.
Lemma vf_xx : vfiles isXMM_XMMorMEM KX [128] KX [128]. Proof. vf; [vfx|vfx]. Qed.
Lemma e_any name fn srcs l rows i type code v k1 b1 k2 b2 :
  vfiles v k1 b1 k2 b2 -> fn_is fn srcs (fun r op imm => opSSE r op type code (Some v) (imm_arg i imm)) ->
  two srcs && imms_ok i rows && gchk rows (ik_of i) srcs None k1 b1 None type code [(k2, b2)] l = true ->
  mimplements (mkME name (map (pick aAny (anyM l)) srcs) fn rows).
Proof.
  intros VF Fn C s ops imm act env pos its rest u Hf Ha Hb Hi H. cbn [me_sig me_fun me_rows] in *.
  do 2 (apply andb_prop in C as [C ?]).
  apply two_args in Ha as (r & op & -> & A1 & A2); auto. apply Fn in Hf. subst act. cbn [marg_ok anyM] in A1, A2.
  pose proof (opSSE_split s _ _ _ _ _ _ _ _ _ _ H) as (V & V1 & V2 & _).
  destruct (VF r op) as [[F1 B1] F2]; auto. { destruct op; auto. destruct A2 as [A2|A2]; [exact A2|contradiction]. }
  eapply sse_gen; eauto.
  - intros _. now apply stands_same.
  - intros _. destruct op as [q|a]; cbn [op_among]; [exists k2, b2; cbn; tauto|]. destruct A2 as [A2|A2]; [contradiction|exact A2].
  - eapply imms_ret; eauto.
Qed.
(* a register passed in the place of the first operand *)
Definition st_chk (rows : list lrow) (i : option bool) (srcs : list src) (c1 c2 : mcls) (st : option Z) (type code : Z) : bool :=
  two srcs && reg_cls c1 && no_any c1 && no_any c2 && imms_ok i rows
  && forallb (fun kb => gchk rows (ik_of i) srcs None (fst kb) (snd kb) st type code (cregs c2) (cmems c2)) (cregs c1).
Definition stx_chk (rows : list lrow) (i : option bool) (srcs : list src) (c2 : mcls) (st : option Z) (type code : Z) : bool :=
  two srcs && no_any c2 && imms_ok i rows && gchk rows (ik_of i) srcs None KX [128] st type code (cregs c2) (cmems c2).
Lemma e_stand name fn srcs c2 rows i st type code r'f act :
  fn_is fn srcs act ->
  (forall r op imm env pos its u, vec_reg r /\ kind_ r = XMM -> marg_ok c2 op -> emits (act r op imm) env pos its u ->
     regno r < 16 /\ stands st KX r (r'f r) /\ emits (opSSE (r'f r) op type code None (imm_arg i imm)) env pos its u) ->
  stx_chk rows i srcs c2 st type code = true ->
  mimplements (mkME name (map (pick aX c2) srcs) fn rows).
Proof.
  intros Fn A C s ops imm act' env pos its rest u Hf Ha Hb Hi H. cbn [me_sig me_fun me_rows] in *.
  unfold stx_chk in C. do 3 (apply andb_prop in C as [C ?]).
  apply two_args in Ha as (r & op & -> & A1 & A2); auto. apply Fn in Hf. subst act'.
  destruct (A _ _ _ _ _ _ _ A1 A2 H) as (R & St & H').
  assert (F : in_file KX r). { cbn [marg_ok] in A1. apply aX_file; auto. unfold isValidSSE, oXMM, isXMM, is_, ogetIdx. cbn [ob]. rewrite regno_getIdx.
    destruct (16 <=? regno r) eqn:Q; [lia|]. now rewrite andb_false_r. }
  eapply sse_gen; eauto.
  - destruct F as (_ & -> & _). cbn. auto.
  - intros V2. now apply among.
  - eapply imms_ret; eauto.
Qed.
Lemma stands_gpr b r : regno r < 32 -> 0 <= regno r -> b = 16 \/ b = 64 -> stands (Some b) KX r (regOf (getIdx r) REG b false).
Proof.
  intros R0 R1 B. cbn [stands]. rewrite regno_getIdx. unfold isREG, isREGb, is_. destruct B as [->| ->]; (split; [reflexivity|]; split; [reflexivity|]; split; [reflexivity|]);
  unfold regno at 1; unfold regOf; cbn [idx_]; rewrite Z.lor_0_r, (Z.mod_small (regno r) 64) by lia; apply Z.mod_small; lia.
Qed.
Lemma regno_range r : 0 <= regno r < 32. Proof. unfold regno. apply Z.mod_pos_bound. lia. Qed.
Lemma stands_xmm r : regno r < 16 -> stands None KX r (Xmm (getIdx r)) \/ bit_ r <> 128.
Proof.
  intros R. destruct (Z.eq_dec (bit_ r) 128) as [B|B]; [left|right; auto]. pose proof (regno_range r).
  cbn [stands]. rewrite regno_getIdx. split; [rewrite B; reflexivity|]. split; [reflexivity|]. split; [reflexivity|].
  assert (Q : idx_ (Xmm (regno r)) = regno r). { unfold Xmm, regOf. cbn [idx_]. rewrite Z.lor_0_r. apply Z.mod_small. lia. }
  split; [unfold regno at 1; rewrite Q; apply Z.mod_small; lia|]. intros _. unfold bit4. rewrite Q.
  destruct (Z.testbit (regno r) 4) eqn:T; auto. exfalso. apply Z.testbit_true in T; [|lia]. rewrite Z.div_small in T by lia. discriminate.
Qed.
(* a general register 16 .. 31 and a map other than 0F *)
Lemma call_rex2 r op type code env pos its u : has type (T_0F38 ||| T_0F3A) = true -> regHasRex2 r = true ->
  emits (call r op type code) env pos its u -> False.
Proof.
  intros M X H. unfold call in H. destruct op as [q|a].
  - unfold opRR in H. apply emits_fn in H. repeat match type of H with emits (if ?c then _ else _) _ _ _ _ => destruct c; [einv H|] end.
    ebind H i1 i2 x H1 H2. apply (rex_reg (fun _ _ _ => 0)) in H1 as (_ & _ & _ & _ & -> & Q & _). rewrite X, orb_true_r in Q. specialize (Q eq_refl). congruence.
  - unfold opMR in H. apply emits_fn in H. cbn [negb Z.eqb] in H. ebind H i0 i00 dn Hd H0. apply emits_ret in Hd as [-> ->]. cbn [app items_size] in H0.
    repeat match type of H0 with emits (if ?c then _ else _) _ _ _ _ => destruct c; [einv H0|] end.
    ebind H0 i1 i2 x H1 H2. apply (rex_mem (fun _ _ _ => 0)) in H1 as (_ & _ & -> & Q & _). rewrite X in Q. cbn [orb] in Q. specialize (Q eq_refl). congruence.
Qed.
Lemma regno16 r : regno r < 16 \/ regHasRex2 (regOf (getIdx r) REG 64 false) = true.
Proof.
  destruct (Z_lt_ge_dec (regno r) 16) as [L|G]; [left; auto|right]. unfold regHasRex2. rewrite isExtIdx2_bit4, regno_getIdx. cbn [isREG is_ regOf kind_].
  change (isREG (regOf (regno r) REG 64 false)) with true. cbn [andb]. unfold bit4, regOf. cbn [idx_]. rewrite Z.lor_0_r. pose proof (regno_range r).
  rewrite Z.mod_small by lia. apply Z.testbit_true; [lia|]. change (2 ^ 4) with 16.
  replace (regno r / 16) with 1; [reflexivity|]. apply Z.div_unique with (regno r - 16); lia.
Qed.
(* methods that reach opSSE after a check *)
Lemma e_sse2 name fn srcs c1 c2 rows i type code v act :
  fn_is fn srcs act ->
  (forall r op imm env pos its u, marg_ok c1 (OReg r) -> marg_ok c2 op -> emits (act r op imm) env pos its u ->
     emits (opSSE r op type code v (imm_arg i imm)) env pos its u) ->
  sse_chk rows i srcs c1 c2 type code = true ->
  mimplements (mkME name (map (pick c1 c2) srcs) fn rows).
Proof.
  intros Fn A C s ops imm act' env pos its rest u Hf Ha Hb Hi H. cbn [me_sig me_fun me_rows] in *.
  unfold sse_chk in C. do 5 (apply andb_prop in C as [C ?]).
  apply two_args in Ha as (r & op & -> & A1 & A2); auto. apply Fn in Hf. subst act'. apply A in H; auto.
  assert (V : isValidSSE (OReg r) = true) by (apply (opSSE_split s) in H; tauto).
  destruct (among_reg _ _ H3 A1 V) as (k1 & bs & Hin & F1 & B1). rewrite forallb_forall in H0. specialize (H0 _ Hin). cbn [fst snd] in H0.
  eapply sse_gen; eauto. 
  - intros _. now apply stands_same.
  - intros V2. now apply among.
  - eapply imms_ret; eauto.
Qed.
(* one prefix byte, then opSSE *)
Lemma e_pre p row0 name fn srcs c1 c2 rows i type code v act :
  fn_is fn srcs act ->
  (forall r op imm env pos its u, marg_ok c1 (OReg r) -> marg_ok c2 op -> emits (act r op imm) env pos its u ->
     exists b, w8 b = pp_byte p /\ emits (db b ;;; opSSE r op type code v (imm_arg i imm)) env pos its u) ->
  sse_chk [row0] i srcs c1 c2 type code = true -> pp_is p NP = false -> l_pp row0 = NP -> In (set_pp p row0) rows ->
  mimplements (mkME name (map (pick c1 c2) srcs) fn rows).
Proof.
  intros Fn A C Np Pp Hin s ops imm act' env pos its rest u Hf Ha Hb Hi H. cbn [me_sig me_fun me_rows] in *.
  unfold sse_chk in C. do 5 (apply andb_prop in C as [C ?]).
  apply two_args in Ha as (r & op & -> & A1 & A2); auto. apply Fn in Hf. subst act'. apply A in H as (b & Wb & H); auto.
  ebind H i1 i2 x Hd Hs. apply emits_db in Hd as ->.
  assert (V : isValidSSE (OReg r) = true) by (apply (opSSE_split s) in Hs; tauto).
  destruct (among_reg _ _ H3 A1 V) as (k1 & bs & Hk & F1 & B1). rewrite forallb_forall in H0. specialize (H0 _ Hk). cbn [fst snd] in H0.
  apply Exists_exists. exists (set_pp p row0). split; auto. rewrite render_app.
  match goal with |- lsays _ _ _ (?l ++ _) _ => replace l with [pp_byte p] by (rewrite <- Wb; reflexivity) end. cbn [app].
  apply pre_says; auto. apply (one_row (fun row => lsays row (map (arg_of r op) srcs) imm (render s i2) rest)).
  eapply sse_gen; eauto.
  - intros _. now apply stands_same.
  - intros V2. now apply among.
  - eapply imms_ret; eauto. constructor; [|constructor]. rewrite Forall_forall in Hi. apply (Hi _ Hin).
Qed.
Lemma mi_or1 name a b c fn rows : mimplements (mkME name [a; c] fn rows) -> mimplements (mkME name [b; c] fn rows) -> mimplements (mkME name [aOr a b; c] fn rows).
Proof.
  intros Ha Hb s ops imm act env pos its rest u Hf Hg Hl Hi H. cbn [me_sig me_fun me_rows] in *.
  inversion Hg as [|? o1 ? l1 H1 H2]; subst. destruct H1 as [H1|H1]; [eapply Ha|eapply Hb]; eauto; cbn; constructor; auto.
Qed.
Lemma mi_or2 name a b c fn rows : mimplements (mkME name [c; a] fn rows) -> mimplements (mkME name [c; b] fn rows) -> mimplements (mkME name [c; aOr a b] fn rows).
Proof.
  intros Ha Hb s ops imm act env pos its rest u Hf Hg Hl Hi H. cbn [me_sig me_fun me_rows] in *.
  inversion Hg as [|? o1 ? l1 H1 H2]; subst. inversion H2 as [|? o2 ? l2 H3 H4]; subst. destruct H3 as [H3|H3]; [eapply Ha|eapply Hb]; eauto; cbn; constructor; auto.
Qed.
(* a method of one address with a digit in ModRM.reg *)
Definition dg_chk (rows : list lrow) (d b type code : Z) (mems : list Z) : bool :=
  (0 <=? d) && (d <? 32) && ((b =? 32) || (b =? 64)) && imms_ok None rows && gchk rows I_none [SRm] (Some d) KG [b] (Some b) type code [] mems.
Lemma e_dg name f l rows d b type code :
  (forall a, f a = opMR a (regOf d REG b false) type code 0 NONE) -> dg_chk rows d b type code l = true ->
  mimplements (mkME name [aM l] (f_a f) rows).
Proof.
  intros Fn C s ops imm act' env pos its rest u Hf Ha Hb Hi H. cbn [me_sig me_fun me_rows] in *.
  unfold dg_chk in C. do 4 (apply andb_prop in C as [C ?]).
  inversion Ha as [|? o1 ? l1 H5 H6]; subst. inversion H6; subst. destruct o1 as [r|a]; [contradiction|]. destruct H5 as [M Sz].
  cbn [f_a] in Hf. injection Hf as <-. rewrite Fn in H.
  rewrite <- (app_nil_r (render s its)). eapply dg_gen; eauto; try lia; try (cbn; auto; fail). intros w. apply imm_none_ok.
Qed.
(* rejected *)
Lemma e_vac name fn srcs c1 c2 rows act :
  fn_is fn srcs act -> two srcs = true -> reg_cls c1 = true ->
  (forall r op imm env pos its u, marg_ok c1 (OReg r) -> marg_ok c2 op -> emits (act r op imm) env pos its u -> False) ->
  mimplements (mkME name (map (pick c1 c2) srcs) fn rows).
Proof.
  intros Fn T R A s ops imm act' env pos its rest u Hf Ha Hb Hi H. cbn [me_sig me_fun me_rows] in *.
  apply two_args in Ha as (r & op & -> & A1 & A2); auto. apply Fn in Hf. subst act'. exfalso. eapply A; eauto.
Qed.
