(* Shapes of the legacy methods: from a helper call to a row. *)
From Coq Require Import ZArith List Bool String Lia.
From Verif Require Import Base Types Emit Encode SpecX86 SpecAddr SpecIsa SpecInsn SpecLeg Wf EmitFacts BitFacts MemFacts LegacyFacts VexFacts EncThms LegFacts.
Import ListNotations.
Open Scope Z_scope.

(* ---- notation of rows ---- *)
Definition r_ (k : okind) (s : osize) := mkOper InReg (Some k) false s.
Definition rm_ (k : okind) (m : bool) (s : osize) := mkOper InRm (Some k) m s.
Definition m_ (s : osize) := mkOper InRm None true s.

Lemma in_file_bit4 k r : in_file k r -> isREG r = false -> bit4 r = false.
Proof.
  destruct k; cbn [in_file].
  - intros (K & _) Q. unfold isREG, is_ in Q. rewrite K in Q. discriminate.
  - intros (_ & _ & I) _. unfold bit4. apply Z.testbit_false; [lia|]. change (2 ^ 4) with 16. rewrite Z.div_small by lia. reflexivity.
  - intros (_ & _ & I) _. unfold bit4. apply Z.testbit_false; [lia|]. change (2 ^ 4) with 16. rewrite Z.div_small by lia. reflexivity.
  - intros (_ & _ & I) _. unfold bit4. apply Z.testbit_false; [lia|]. change (2 ^ 4) with 16. rewrite Z.div_small by lia. reflexivity.
Qed.
Lemma in_file_REGb k r : in_file k r -> isREGb r 64 = match k with KG => bit_ r =? 64 | _ => false end.
Proof.
  unfold isREGb, is_. destruct k; cbn [in_file].
  - intros (-> & [[[->|[->|[->| ->]]] _]|[-> _]]); reflexivity.
  - intros (-> & _); reflexivity.
  - intros (-> & _); reflexivity.
  - intros (-> & _); reflexivity.
Qed.
Definition is64 (k : okind) (b : Z) : bool := match k with KG => b =? 64 | _ => false end.
(* W as emitted: the operand in ModRM.reg (k1, width b1), the one in ModRM.rm *)
Definition Wof (k1 : okind) (b1 : Z) (k2 : okind) (mem : bool) (b2 : Z) : bool := is64 k1 b1 || (negb mem && is64 k2 b2).
Definition bytes_ok (type : Z) (k1 k2 : okind) (r : Reg) (op : Operand) (ops : list Operand) : Prop :=
  (bit_ r <> 8 /\ (isMEM op = false -> bit_ (ob op) <> 8))
  \/ (k1 = KG /\ (isMEM op = false -> k2 = KG) /\ has type T_ALLOW_ABCDH = false /\ high_ok ops).

Lemma ro_says s row w k1 k2 m s1 s2 (rev : bool) type code r op n env pos i1 u imm tail rest :
  let ops := if rev then [op; OReg r] else [OReg r; op] in
  in_file k1 r -> match op with OReg q => in_file k2 q | OMem a => m = true /\ mem_ok a end ->
  l_ops row = (if rev then [rm_ k2 m s2; r_ k1 s1] else [r_ k1 s1; rm_ k2 m s2]) -> l_digit row = None ->
  emits (opRO r op type code true n) env pos i1 u ->
  hdb row w type code (bit_ r) (bit_ (ob op)) (Wof k1 (bit_ r) k2 (isMEM op) (bit_ (ob op))) = true ->
  size_is s1 w (bit_ r) ->
  match op with OReg q => size_is s2 w (bit_ q) | OMem a => bit_ (a_op a) = 0 \/ size_is s2 w (bit_ (a_op a)) end ->
  bytes_ok type k1 k2 r op ops ->
  sized row w ops -> imm_ok (l_imm row) w imm tail ->
  lsays row ops imm (render s i1 ++ tail) rest.
Proof.
  intros ops F1 F2 L D H C Z1 Z2 B S I. unfold opRO in H. apply emits_fn in H. destruct op as [q|a].
  - assert (In (OReg r) ops /\ In (OReg q) ops) as [In1 In2] by (unfold ops; destruct rev; cbn; auto).
    eapply leaf_rr; eauto.
    + eapply in_file_bit4; eauto.
    + eapply in_file_bit4; eauto.
    + unfold Wof in C. cbn [isMEM negb andb ob] in C. rewrite orb_comm, (in_file_REGb _ _ F1), (in_file_REGb _ _ F2). exact C.
    + rewrite D. discriminate.
    + intros h Hf.
      assert (P1 : oper_ok w h (regno r) (Some (RReg (regno q) (regno q))) (r_ k1 s1) (OReg r)).
      { unfold oper_ok. cbn [r_ o_at o_reg o_mem o_size]. split; [eauto|]. split; [auto|]. split; [reflexivity|]. intros B8.
        destruct B as [[B _]|(-> & K2 & Ht & Hk)]; [contradiction|]. rewrite (K2 eq_refl) in F2.
        apply (proj1 (rr_byte_ok _ _ _ _ _ Hf Ht F1 F2 Hk In1 In2)). exact B8. }
      assert (P2 : oper_ok w h (regno r) (Some (RReg (regno q) (regno q))) (rm_ k2 m s2) (OReg q)).
      { unfold oper_ok. cbn [rm_ o_at o_reg o_mem o_size]. split; [eauto|]. split; [auto|]. split; [reflexivity|]. intros B8.
        destruct B as [[_ B]|(-> & K2 & Ht & Hk)]; [exfalso; exact (B eq_refl B8)|]. rewrite (K2 eq_refl) in F2.
        apply (proj2 (rr_byte_ok _ _ _ _ _ Hf Ht F1 F2 Hk In1 In2)). exact B8. }
      rewrite L. unfold ops. destruct rev; (apply Forall2_cons; [assumption|]; apply Forall2_cons; [assumption|]; apply Forall2_nil).
  - destruct F2 as [-> A]. eapply leaf_mr with (a := set_immSize a n); eauto using set_imm_ok.
    + eapply in_file_bit4; eauto.
    + unfold Wof in C. cbn [isMEM negb andb ob] in C. rewrite orb_false_r in C. rewrite (in_file_REGb _ _ F1). exact C.
    + rewrite D. discriminate.
    + intros h mm Hf Hd. change (a_e (set_immSize a n)) with (a_e a) in Hd.
      assert (P1 : oper_ok w h (regno r) (Some (RMem mm)) (r_ k1 s1) (OReg r)).
      { unfold oper_ok. cbn [r_ o_at o_reg o_mem o_size]. split; [eauto|]. split; [auto|]. split; [reflexivity|]. intros B8.
        destruct B as [[B _]|(-> & _ & Ht & Hk)]; [contradiction|].
        eapply (mr_byte a r type h ops); auto; unfold ops; destruct rev; cbn; auto. }
      assert (P2 : oper_ok w h (regno r) (Some (RMem mm)) (rm_ k2 true s2) (OMem a)).
      { unfold oper_ok. cbn [rm_ o_at o_reg o_mem o_size]. eauto 8. }
      rewrite L. unfold ops. destruct rev; (apply Forall2_cons; [assumption|]; apply Forall2_cons; [assumption|]; apply Forall2_nil).
Qed.

(* ---- all operand widths at once ---- *)
Definition file_bits (k : okind) : list Z := match k with KG => [8; 16; 32; 64] | KX => [128] | KM => [64] | KB => [128] end.
Definition all_sizes : list Z := [0; 8; 16; 32; 64; 128; 256; 512].
Definition size_isb (s : osize) (w b : Z) : bool := match s with Sv => b =? w | Sn n => b =? n | Sany => true end.
Definition is_sv (s : osize) : bool := match s with Sv => true | _ => false end.
Definition is_KG (k : okind) : bool := match k with KG => true | _ => false end.
(* combinations of widths that opRR / opMR do not reject *)
Definition size_rel (type : Z) (k1 : okind) (b1 : Z) (k2 : okind) (mem : bool) (b2 : Z) : bool :=
  has type T_ALLOW_DIFF_SIZE
  || (if mem then negb (b1 <=? 64) || (b2 =? 0) || (b2 =? b1) else negb (is_KG k1 && is_KG k2) || (b1 =? b2)).
Definition rochk (row : lrow) (type code : Z) (k1 k2 : okind) (m : bool) (s1 s2 : osize)
    (cond : Z -> bool -> Z -> bool) (wsel : Z -> bool -> Z -> Z) : bool :=
  let ck b1 (mem : bool) b2 :=
    let w := wsel b1 mem b2 in
    negb (cond b1 mem b2 && size_rel type k1 b1 k2 mem b2)
    || (hdb row w type code b1 b2 (Wof k1 b1 k2 mem b2)
        && size_isb s1 w b1 && ((mem && (b2 =? 0)) || size_isb s2 w b2)
        && ((w =? 0) || (is_sv s1 && (b1 =? w)) || (is_sv s2 && (b2 =? w)))
        && (negb mem || m)
        && ((negb (b1 =? 8) && (mem || negb (b2 =? 8))) || (is_KG k1 && (mem || is_KG k2) && negb (has type T_ALLOW_ABCDH)))) in
  forallb (fun b1 => forallb (ck b1 false) (file_bits k2) && forallb (ck b1 true) all_sizes) (file_bits k1).
Lemma file_in k r : in_file k r -> In (bit_ r) (file_bits k).
Proof. destruct k; cbn; [intros (_ & [[[->|[->|[->| ->]]] _]|[-> _]])|intros (_ & -> & _)..]; auto. Qed.
Lemma size_isb_ok s w b : size_isb s w b = true -> size_is s w b.
Proof. destruct s; cbn; auto; lia. Qed.

Lemma ro_gen s row k1 k2 m s1 s2 (rev : bool) type code cond wsel r op n env pos i1 u imm tail rest :
  let ops := if rev then [op; OReg r] else [OReg r; op] in
  in_file k1 r -> match op with OReg q => in_file k2 q | OMem a => mem_ok a end ->
  l_ops row = (if rev then [rm_ k2 m s2; r_ k1 s1] else [r_ k1 s1; rm_ k2 m s2]) -> l_digit row = None ->
  high_ok ops ->
  rochk row type code k1 k2 m s1 s2 cond wsel = true ->
  cond (bit_ r) (isMEM op) (bit_ (ob op)) = true ->
  emits (opRO r op type code true n) env pos i1 u ->
  imm_ok (l_imm row) (wsel (bit_ r) (isMEM op) (bit_ (ob op))) imm tail ->
  lsays row ops imm (render s i1 ++ tail) rest.
Proof.
  intros ops F1 F2 L D Hk C Hc H I.
  assert (SR : size_rel type k1 (bit_ r) k2 (isMEM op) (bit_ (ob op)) = true).
  { unfold size_rel. destruct (has type T_ALLOW_DIFF_SIZE) eqn:Df; [reflexivity|]. cbn [orb].
    unfold opRO in H. apply emits_fn in H. destruct op as [q|a]; cbn [isMEM ob].
    - destruct k1; cbn [is_KG andb negb orb]; auto. destruct k2; cbn [is_KG andb negb orb]; auto. apply Z.eqb_eq.
      eapply opRR_size; eauto; unfold isREG, is_; [destruct F1 as [-> _]|destruct F2 as [-> _]]; reflexivity.
    - destruct (bit_ r <=? 64) eqn:Q; cbn [negb orb]; auto. destruct (bit_ (a_op a) =? 0) eqn:Z0; cbn [orb]; auto. apply Z.eqb_eq.
      apply (opMR_size _ _ _ _ _ _ _ _ H Df); [lia|]. change (0 < bit_ (a_op a)).
      pose proof (mo_size _ F2) as Sz. cbn in Sz. lia. }
  unfold rochk in C. cbv zeta in C. rewrite forallb_forall in C. specialize (C _ (file_in _ _ F1)). apply andb_prop in C as [Cr Cm].
  assert (CK : let w := wsel (bit_ r) (isMEM op) (bit_ (ob op)) in
     (hdb row w type code (bit_ r) (bit_ (ob op)) (Wof k1 (bit_ r) k2 (isMEM op) (bit_ (ob op)))
        && size_isb s1 w (bit_ r) && ((isMEM op && (bit_ (ob op) =? 0)) || size_isb s2 w (bit_ (ob op)))
        && ((w =? 0) || (is_sv s1 && (bit_ r =? w)) || (is_sv s2 && (bit_ (ob op) =? w)))
        && (negb (isMEM op) || m)
        && ((negb (bit_ r =? 8) && (isMEM op || negb (bit_ (ob op) =? 8))) || (is_KG k1 && (isMEM op || is_KG k2) && negb (has type T_ALLOW_ABCDH)))) = true).
  { cbv zeta. destruct op as [q|a]; cbn [isMEM ob] in *.
    - rewrite forallb_forall in Cr. specialize (Cr _ (file_in _ _ F2)). rewrite Hc, SR in Cr. cbn [andb negb orb] in Cr. exact Cr.
    - rewrite forallb_forall in Cm. specialize (Cm _ (mo_size _ F2)). rewrite Hc, SR in Cm. cbn [andb negb orb] in Cm. exact Cm. }
  cbv zeta in CK. do 5 (apply andb_prop in CK as [CK ?]).
  eapply (ro_says s row _ k1 k2 m s1 s2 rev type code r op n); eauto.
  - destruct op; auto.
  - apply size_isb_ok; eauto.
  - destruct op as [q|a]; cbn [isMEM ob andb orb] in *; [apply size_isb_ok; auto|].
    match goal with Q : (_ =? 0) || size_isb _ _ _ = true |- _ => apply orb_prop in Q as [Q|Q] end; [left; lia|right; now apply size_isb_ok].
  - match goal with Q : _ || (is_KG k1 && _ && _) = true |- _ => apply orb_prop in Q as [Q|Q] end.
    + left. apply andb_prop in H0 as [Q1 Q2]. split; [lia|]. intros N. rewrite N in Q2. cbn [orb] in Q2. lia.
    + right. apply andb_prop in H0 as [Q1 Q3]. apply andb_prop in Q1 as [Q1 Q2]. split; [destruct k1; auto; discriminate|]. split.
      * intros N. rewrite N in Q2. destruct k2; auto; discriminate.
      * split; auto. now apply negb_true_iff.
  - unfold sized. match goal with Q : (_ =? 0) || _ || _ = true |- _ => rename Q into Qs end.
    apply orb_prop in Qs as [Qs|Qs]; [apply orb_prop in Qs as [Qs|Qs]|]; [left; lia|right; rewrite L..]; apply andb_prop in Qs as [Qa Qb]; unfold ops.
    + destruct s1; try discriminate. destruct rev; cbn [combine]; [apply Exists_cons_tl|]; apply Exists_cons_hd; cbn; split; auto; lia.
    + destruct s2; try discriminate. destruct rev; cbn [combine]; [|apply Exists_cons_tl]; apply Exists_cons_hd; cbn; split; auto; lia.
Qed.

(* ---- SSE: xmm, xmm/mem ---- *)
Definition msizes : list Z := [0; 8; 32; 64; 128; 256; 512].
Definition xrow (p : ppfx) (map opc : Z) (w : wsize) (i : immk) : lrow := mkL p map opc true None [r_ KX Sany; rm_ KX true Sany] w i.
Definition imm_tail (imm8 : Z) : list Z := if imm8 =? NONE then [] else [w8 imm8].

Lemma opSSE_split s r op type code v imm8 env pos its u :
  emits (opSSE r op type code v imm8) env pos its u ->
  (match v with Some f => f (OReg r) op = true | None => True end)
  /\ isValidSSE (OReg r) = true /\ isValidSSE op = true
  /\ exists n i1, emits (opRO r op type code true n) env pos i1 tt /\ render s its = render s i1 ++ imm_tail imm8.
Proof.
  intros H. unfold opSSE in H. apply emits_fn in H.
  match type of H with emits (if ?c then _ else _) _ _ _ _ => destruct c eqn:V end; [einv H|].
  destruct (negb (isValidSSE (OReg r)) || negb (isValidSSE op)) eqn:X; [einv H|].
  apply orb_false_iff in X as [X1 X2]. apply negb_false_iff in X1, X2.
  split. { destruct v; auto. now apply negb_false_iff in V. }
  split; auto. split; auto.
  ebind H i1 i2 x H1 H2. destruct x. eexists _, i1. split; [exact H1|]. rewrite render_app. f_equal.
  unfold imm_tail. destruct (imm8 =? NONE); cbn [negb] in H2.
  - apply emits_ret in H2 as [-> _]. reflexivity.
  - apply emits_db in H2 as ->. reflexivity.
Qed.
Lemma xmm_file r : any_reg r -> isXMM r = true -> isValidSSE (OReg r) = true -> in_file KX r.
Proof.
  intros A X V. unfold isXMM, is_ in X. unfold isValidSSE, oXMM, isXMM, is_, ogetIdx in V. cbn [ob] in V. rewrite regno_getIdx in V.
  unfold any_reg, gpr, mmx_reg, opmask_reg, tmm_reg, bnd_reg, fpu_reg in A. cbn [in_file].
  repeat match goal with Q : _ \/ _ |- _ => destruct Q as [Q|Q] end;
    try (repeat match goal with Q : _ /\ _ |- _ => destruct Q end; match goal with Q : kind_ r = _ |- _ => rewrite Q in X; discriminate X end).
  destruct A as [[[K B]|[[K B]|[K B]]] I]; rewrite K in X, V; try discriminate X.
  cbn in V. unfold regno in V. rewrite Z.mod_small in V by lia. split; auto. split; auto. lia.
Qed.
Lemma mmx_file r : any_reg r -> isMMX r = true -> in_file KM r.
Proof.
  intros A X. unfold isMMX, is_ in X. unfold any_reg, gpr, vec_reg, opmask_reg, tmm_reg, bnd_reg, fpu_reg in A. cbn [in_file].
  repeat match goal with Q : _ \/ _ |- _ => destruct Q as [Q|Q] end; auto;
    try (repeat match goal with Q : _ /\ _ |- _ => destruct Q | Q : _ \/ _ |- _ => destruct Q end; match goal with Q : kind_ r = _ |- _ => rewrite Q in X; discriminate X end).
Qed.
Lemma gpr_file r b : any_reg r -> isREGb r b = true -> in_file KG r.
Proof.
  intros A X. unfold isREGb, is_ in X. apply andb_prop in X as [X _]. unfold any_reg, mmx_reg, vec_reg, opmask_reg, tmm_reg, bnd_reg, fpu_reg in A. cbn [in_file].
  repeat match goal with Q : _ \/ _ |- _ => destruct Q as [Q|Q] end; auto;
    try (repeat match goal with Q : _ /\ _ |- _ => destruct Q | Q : _ \/ _ |- _ => destruct Q end; match goal with Q : kind_ r = _ |- _ => rewrite Q in X; discriminate X end).
Qed.
Definition any_op (op : Operand) : Prop := match op with OReg r => any_reg r | OMem a => mem_ok a /\ bit_ (a_op a) <> 16 end.

Lemma mem_sizes a : mem_ok a -> bit_ (a_op a) <> 16 -> In (bit_ (a_op a)) msizes.
Proof. intros A N. pose proof (mo_size _ A) as S. cbn in S |- *. intuition. Qed.

Lemma xm_says s row type code r op imm8 env pos its u rest imm w :
  any_reg r -> any_op op -> l_ops row = [r_ KX Sany; rm_ KX true Sany] -> l_digit row = None ->
  emits (opSSE r op type code (Some isXMM_XMMorMEM) imm8) env pos its u ->
  forallb (fun b => hdb row w type code 128 b false) msizes = true -> w = 0 ->
  imm_ok (l_imm row) w imm (imm_tail imm8) ->
  lsays row [OReg r; op] imm (render s its) rest.
Proof.
  intros A O L D H C W0 I. apply (opSSE_split s) in H as (V & V1 & V2 & n & i1 & H & ->).
  unfold isXMM_XMMorMEM in V. apply andb_prop in V as [X1 X2]. unfold oXMM in X1, X2. cbn [ob] in X1.
  pose proof (xmm_file _ A X1 V1) as F1. destruct op as [q|a].
  - cbn [isMEM ob orb] in X2. rewrite orb_false_r in X2. pose proof (xmm_file _ O X2 V2) as F2.
    refine (ro_says s row w KX KX true Sany Sany false type code r (OReg q) n env pos i1 tt imm _ rest F1 F2 L D H _ Logic.I Logic.I _ _ I).
    + destruct F1 as (_ & -> & _). destruct F2 as (_ & B & _). cbn [ob]. rewrite B. unfold Wof. cbn [is64 negb andb orb].
      rewrite forallb_forall in C. apply C. cbn; auto 8.
    + left. destruct F1 as (_ & -> & _). destruct F2 as (_ & B & _). cbn [ob]. rewrite B. split; intros; discriminate.
    + left; auto.
  - destruct O as [Om Os].
    refine (ro_says s row w KX KX true Sany Sany false type code r (OMem a) n env pos i1 tt imm _ rest F1 (conj eq_refl Om) L D H _ Logic.I (or_intror Logic.I) _ _ I).
    + destruct F1 as (_ & -> & _). cbn [ob]. unfold Wof. cbn [is64 negb andb orb].
      rewrite forallb_forall in C. apply C. apply mem_sizes; auto.
    + left. destruct F1 as (_ & -> & _). split; intros; discriminate.
    + left; auto.
Qed.

Lemma imm_none_ok w imm : imm_ok I_none w imm [].
Proof. split; [reflexivity|]. split; [constructor|exact I]. Qed.
Lemma imm_8_ok w imm imm8 : 0 <= imm < 256 -> imm8 = imm -> imm_ok I_8 w imm (imm_tail imm8).
Proof.
  intros R ->. unfold imm_tail. replace (imm =? NONE) with false by (unfold NONE; lia).
  split; [reflexivity|]. split; [repeat constructor; unfold w8; apply Z.mod_pos_bound; lia|].
  unfold le_val, w8. rewrite Z.mul_0_r, Z.add_0_r. reflexivity.
Qed.

Lemma args2 c1 c2 ops : Forall2 larg_ok [c1; c2] ops -> exists o1 o2, ops = [o1; o2] /\ larg_ok c1 o1 /\ larg_ok c2 o2.
Proof. intros H. inversion H as [|? ? ? ? A1 H1]; subst. inversion H1 as [|? ? ? ? A2 H2]; subst. inversion H2; subst. eauto 6. Qed.
Lemma args1 c1 ops : Forall2 larg_ok [c1] ops -> exists o1, ops = [o1] /\ larg_ok c1 o1.
Proof. intros H. inversion H as [|? ? ? ? A1 H1]; subst. inversion H1; subst. eauto 6. Qed.
Lemma args3 c1 c2 c3 ops : Forall2 larg_ok [c1; c2; c3] ops -> exists o1 o2 o3, ops = [o1; o2; o3] /\ larg_ok c1 o1 /\ larg_ok c2 o2 /\ larg_ok c3 o3.
Proof. intros H. inversion H as [|? ? ? ? A1 H1]; subst. inversion H1 as [|? ? ? ? A2 H2]; subst. inversion H2 as [|? ? ? ? A3 H3]; subst. inversion H3; subst. eauto 9. Qed.
Lemma tOx_any op : larg_ok tOx op -> any_op op.
Proof. destruct op; auto. Qed.

Definition xchk (row : lrow) (type code : Z) : bool := forallb (fun b => hdb row 0 type code 128 b false) msizes.
(* xmm, xmm/mem *)
Lemma xm_entry nm f p map opc w type code :
  (forall x op, f x op = opSSE x op type code (Some isXMM_XMMorMEM) NONE) ->
  xchk (xrow p map opc w I_none) type code = true ->
  limplements (mkLE nm [tX; tOx] (ro f) [xrow p map opc w I_none]).
Proof.
  intros E C s ops imm act env pos its rest u Hf Ha Hb Hh Hi H. cbn [le_fun le_sig le_rows] in *.
  apply args2 in Ha as (o1 & o2 & -> & A1 & A2). destruct o1 as [r|]; [|destruct A1]. cbn [ro] in Hf. injection Hf as <-.
  rewrite E in H. apply Exists_cons_hd.
  refine (xm_says s (xrow p map opc w I_none) type code r o2 NONE env pos its u rest imm 0 _ (tOx_any _ A2) eq_refl eq_refl H C eq_refl (imm_none_ok 0 imm)).
  right; left; exact A1.
Qed.
(* xmm, xmm/mem, imm8 *)
Lemma xmi_entry nm f g p map opc w type code :
  (forall x op i, f x op i = opSSE x op type code (Some isXMM_XMMorMEM) (g i)) ->
  (forall i, 0 <= i < 256 -> g i = i) ->
  xchk (xrow p map opc w I_8) type code = true ->
  limplements (mkLE nm [tX; tOx] (roi f) [xrow p map opc w I_8]).
Proof.
  intros E G C s ops imm act env pos its rest u Hf Ha Hb Hh Hi H. cbn [le_fun le_sig le_rows] in *.
  apply args2 in Ha as (o1 & o2 & -> & A1 & A2). destruct o1 as [r|]; [|destruct A1]. cbn [roi] in Hf. injection Hf as <-.
  inversion Hi as [|? ? Hi1 _]; subst. cbn [xrow l_imm imm_in] in Hi1.
  rewrite E in H. apply Exists_cons_hd.
  refine (xm_says s (xrow p map opc w I_8) type code r o2 (g imm) env pos its u rest imm 0 _ (tOx_any _ A2) eq_refl eq_refl H C eq_refl (imm_8_ok 0 imm _ Hi1 (G _ Hi1))).
  right; left; exact A1.
Qed.

(* ---- MMX / XMM: mm, mm/mem and xmm, xmm/mem ---- *)
Definition mrow (p : ppfx) (map opc : Z) (i : immk) : lrow := mkL p map opc true None [r_ KM Sany; rm_ KM true Sany] OsN i.
Definition mchk (row : lrow) (type code : Z) : bool := forallb (fun b => hdb row 0 type code 64 b false) msizes.
Lemma mm_says s row type code r op imm8 env pos its u rest imm :
  any_reg r -> any_op op -> l_ops row = [r_ KM Sany; rm_ KM true Sany] -> l_digit row = None ->
  isMMX r = true -> (isMEM op = false -> isMMX (ob op) = true) ->
  emits (opSSE r op type code None imm8) env pos its u ->
  mchk row type code = true ->
  imm_ok (l_imm row) 0 imm (imm_tail imm8) ->
  lsays row [OReg r; op] imm (render s its) rest.
Proof.
  intros A O L D X1 X2 H C I. apply (opSSE_split s) in H as (V & V1 & V2 & n & i1 & H & ->). unfold mchk in C.
  pose proof (mmx_file _ A X1) as F1. destruct op as [q|a].
  - pose proof (mmx_file _ O (X2 eq_refl)) as F2.
    refine (ro_says s row 0 KM KM true Sany Sany false type code r (OReg q) n env pos i1 tt imm _ rest F1 F2 L D H _ Logic.I Logic.I _ _ I).
    + destruct F1 as (_ & -> & _). destruct F2 as (_ & B & _). cbn [ob]. rewrite B. unfold Wof. cbn [is64 negb andb orb].
      rewrite forallb_forall in C. apply C. cbn; auto 8.
    + left. destruct F1 as (_ & -> & _). destruct F2 as (_ & B & _). cbn [ob]. rewrite B. split; intros; discriminate.
    + left; auto.
  - destruct O as [Om Os].
    refine (ro_says s row 0 KM KM true Sany Sany false type code r (OMem a) n env pos i1 tt imm _ rest F1 (conj eq_refl Om) L D H _ Logic.I (or_intror Logic.I) _ _ I).
    + destruct F1 as (_ & -> & _). cbn [ob]. unfold Wof. cbn [is64 negb andb orb].
      rewrite forallb_forall in C. apply C. apply mem_sizes; auto.
    + left. destruct F1 as (_ & -> & _). split; intros; discriminate.
    + left; auto.
Qed.
(* a validator that accepts can be dropped or replaced *)
Lemma opSSE_valid r op type code f v imm8 env pos its u :
  emits (opSSE r op type code (Some f) imm8) env pos its u ->
  (match v with Some g => g (OReg r) op = true | None => True end) ->
  f (OReg r) op = true /\ emits (opSSE r op type code v imm8) env pos its u.
Proof.
  intros H V. unfold opSSE in H |- *. pose proof (emits_fn _ _ _ _ _ _ H) as Q. destruct (f (OReg r) op) eqn:F.
  - split; auto. cbn [negb] in H. destruct v as [g|]; [rewrite V|]; exact H.
  - cbn [negb] in Q. einv Q.
Qed.
Lemma mmx_not_xmm r : isMMX r = true -> any_reg r -> isXMM r = false.
Proof. intros M A. pose proof (mmx_file _ A M) as (K & _). unfold isXMM, is_. rewrite K. reflexivity. Qed.
Lemma mmx_says s rows rM rX type pref code r op imm8 env pos its u rest imm :
  any_reg r -> any_op op ->
  emits (opMMX r op code type pref imm8) env pos its u ->
  (isMMX r = true -> In rM rows /\ l_ops rM = [r_ KM Sany; rm_ KM true Sany] /\ l_digit rM = None /\ mchk rM type code = true /\ imm_ok (l_imm rM) 0 imm (imm_tail imm8)) ->
  (isXMM r = true -> In rX rows /\ l_ops rX = [r_ KX Sany; rm_ KX true Sany] /\ l_digit rX = None /\ xchk rX (type ||| pref) code = true /\ imm_ok (l_imm rX) 0 imm (imm_tail imm8)) ->
  Exists (fun row => lsays row [OReg r; op] imm (render s its) rest) rows.
Proof.
  intros A O H HM HX. unfold opMMX in H.
  destruct (opSSE_valid _ _ _ _ _ None _ _ _ _ _ H Logic.I) as [V _]. unfold isXMMorMMX_MEM in V. cbv beta in V.
  apply orb_prop in V as [V|V].
  - apply andb_prop in V as [V1 V2]. unfold oMMX in V1, V2. cbn [ob] in V1. rewrite (mmx_not_xmm _ V1 A) in H.
    destruct (HM V1) as (Hin & L & D & C & I). apply Exists_exists. exists rM. split; auto.
    apply (opSSE_valid _ _ _ _ _ None) in H as [_ H]; auto.
    eapply mm_says; eauto. intros N. rewrite N, orb_false_r in V2. exact V2.
  - pose proof V as V0. unfold isXMM_XMMorMEM in V. apply andb_prop in V as [V1 V2]. unfold oXMM in V1. cbn [ob] in V1. rewrite V1 in H.
    destruct (HX V1) as (Hin & L & D & C & I). apply Exists_exists. exists rX. split; auto.
    apply (opSSE_valid _ _ _ _ _ (Some isXMM_XMMorMEM)) in H as [_ H]; auto. eapply xm_says; eauto.
Qed.
Lemma vec_not_mmx r : vec_reg r -> isMMX r = false.
Proof. intros [[[K _]|[[K _]|[K _]]] _]; unfold isMMX, is_; rewrite K; reflexivity. Qed.
Lemma mmx_not_xmm' r : mmx_reg r -> isXMM r = false.
Proof. intros (K & _); unfold isXMM, is_; rewrite K; reflexivity. Qed.

(* mm, mm/mem or xmm, xmm/mem *)
Lemma mx_entry nm f mm opm px xm opx type pref code :
  (forall x op, f x op = opMMX x op code type pref NONE) ->
  mchk (mrow NP mm opm I_none) type code = true ->
  xchk (xrow px xm opx OsN I_none) (type ||| pref) code = true ->
  limplements (mkLE nm [tM; tOx] (ro f) [mrow NP mm opm I_none; xrow px xm opx OsN I_none]).
Proof.
  intros E C1 C2 s ops imm act env pos its rest u Hf Ha Hb Hh Hi H. cbn [le_fun le_sig le_rows] in *.
  apply args2 in Ha as (o1 & o2 & -> & A1 & A2). destruct o1 as [r|]; [|destruct A1]. cbn [ro] in Hf. injection Hf as <-.
  rewrite E in H. eapply mmx_says with (rM := mrow NP mm opm I_none) (rX := xrow px xm opx OsN I_none); eauto using tOx_any.
  - unfold any_reg. destruct A1; auto.
  - intros _. split; [left; reflexivity|]. repeat split; auto; constructor.
  - intros _. split; [right; left; reflexivity|]. repeat split; auto; constructor.
Qed.
(* xmm only, through opMMX *)
Lemma mxx_entry nm f px xm opx type pref code :
  (forall x op, f x op = opMMX x op code type pref NONE) ->
  xchk (xrow px xm opx OsN I_none) (type ||| pref) code = true ->
  limplements (mkLE nm [tX; tOx] (ro f) [xrow px xm opx OsN I_none]).
Proof.
  intros E C2 s ops imm act env pos its rest u Hf Ha Hb Hh Hi H. cbn [le_fun le_sig le_rows] in *.
  apply args2 in Ha as (o1 & o2 & -> & A1 & A2). destruct o1 as [r|]; [|destruct A1]. cbn [ro] in Hf. injection Hf as <-.
  rewrite E in H. eapply mmx_says with (rM := mrow NP xm opx I_none) (rX := xrow px xm opx OsN I_none); eauto using tOx_any.
  - unfold any_reg. auto.
  - intros M. rewrite (vec_not_mmx _ A1) in M. discriminate.
  - intros _. split; [left; reflexivity|]. repeat split; auto; constructor.
Qed.
Lemma mxi_entry nm f g mm opm px xm opx type pref code :
  (forall x op i, f x op i = opMMX x op code type pref (g i)) -> (forall i, 0 <= i < 256 -> g i = i) ->
  mchk (mrow NP mm opm I_8) type code = true ->
  xchk (xrow px xm opx OsN I_8) (type ||| pref) code = true ->
  limplements (mkLE nm [tM; tOx] (roi f) [mrow NP mm opm I_8; xrow px xm opx OsN I_8]).
Proof.
  intros E G C1 C2 s ops imm act env pos its rest u Hf Ha Hb Hh Hi H. cbn [le_fun le_sig le_rows] in *.
  apply args2 in Ha as (o1 & o2 & -> & A1 & A2). destruct o1 as [r|]; [|destruct A1]. cbn [roi] in Hf. injection Hf as <-.
  inversion Hi as [|? ? Hi1 _]; subst. cbn [mrow l_imm imm_in] in Hi1.
  rewrite E in H. eapply mmx_says with (rM := mrow NP mm opm I_8) (rX := xrow px xm opx OsN I_8); eauto using tOx_any.
  - unfold any_reg. destruct A1; auto.
  - intros _. split; [left; reflexivity|]. do 3 (split; auto). exact (imm_8_ok 0 imm _ Hi1 (G _ Hi1)).
  - intros _. split; [right; left; reflexivity|]. do 3 (split; auto). exact (imm_8_ok 0 imm _ Hi1 (G _ Hi1)).
Qed.
Lemma mxxi_entry nm f g px xm opx type pref code :
  (forall x op i, f x op i = opMMX x op code type pref (g i)) -> (forall i, 0 <= i < 256 -> g i = i) ->
  xchk (xrow px xm opx OsN I_8) (type ||| pref) code = true ->
  limplements (mkLE nm [tX; tOx] (roi f) [xrow px xm opx OsN I_8]).
Proof.
  intros E G C2 s ops imm act env pos its rest u Hf Ha Hb Hh Hi H. cbn [le_fun le_sig le_rows] in *.
  apply args2 in Ha as (o1 & o2 & -> & A1 & A2). destruct o1 as [r|]; [|destruct A1]. cbn [roi] in Hf. injection Hf as <-.
  inversion Hi as [|? ? Hi1 _]; subst. cbn [xrow l_imm imm_in] in Hi1.
  rewrite E in H. eapply mmx_says with (rM := mrow NP xm opx I_none) (rX := xrow px xm opx OsN I_8); eauto using tOx_any.
  - unfold any_reg. auto.
  - intros M. rewrite (vec_not_mmx _ A1) in M. discriminate.
  - intros _. split; [left; reflexivity|]. do 3 (split; auto). exact (imm_8_ok 0 imm _ Hi1 (G _ Hi1)).
Qed.
Lemma mmi_entry nm f g mm opm type pref code :
  (forall x op i, f x op i = opMMX x op code type pref (g i)) -> (forall i, 0 <= i < 256 -> g i = i) ->
  mchk (mrow NP mm opm I_8) type code = true ->
  limplements (mkLE nm [tMm; tOx] (roi f) [mrow NP mm opm I_8]).
Proof.
  intros E G C1 s ops imm act env pos its rest u Hf Ha Hb Hh Hi H. cbn [le_fun le_sig le_rows] in *.
  apply args2 in Ha as (o1 & o2 & -> & A1 & A2). destruct o1 as [r|]; [|destruct A1]. cbn [roi] in Hf. injection Hf as <-.
  inversion Hi as [|? ? Hi1 _]; subst. cbn [mrow l_imm imm_in] in Hi1.
  rewrite E in H. eapply mmx_says with (rM := mrow NP mm opm I_8) (rX := xrow NP mm opm OsN I_8); eauto using tOx_any.
  - unfold any_reg. auto.
  - intros _. split; [left; reflexivity|]. do 3 (split; auto). exact (imm_8_ok 0 imm _ Hi1 (G _ Hi1)).
  - intros M. rewrite (mmx_not_xmm' _ A1) in M. discriminate.
Qed.
Ltac imm8 := intros i Hi; cbv beta zeta; first [reflexivity | unfold w8; rewrite Z.mod_small; [reflexivity|exact Hi]
  | unfold w8, s32, w32; rewrite ?(Z.mod_small i) by lia; repeat match goal with |- context [if ?c then _ else _] => destruct c eqn:?; try lia end; rewrite ?Z.mod_small by lia; reflexivity].
