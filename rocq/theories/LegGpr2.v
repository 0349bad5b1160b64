(* Entries of the legacy table: from shapes to [limplements], general registers. *)
From Coq Require Import ZArith List Bool String Lia.
From Verif Require Import Base Types Emit Encode SpecX86 SpecAddr SpecIsa SpecInsn SpecLeg Wf EmitFacts BitFacts MemFacts LegacyFacts VexFacts EncThms LegFacts LegShapes LegGpr.
Import ListNotations.
Open Scope Z_scope.

(* ---- reg, reg/mem ---- *)
Definition rorow (p : ppfx) (map opc : Z) (s1 s2 : osize) (w : wsize) (i : immk) : lrow :=
  mkL p map opc true None [r_ KG s1; rm_ KG true s2] w i.
Definition orrow (p : ppfx) (map opc : Z) (s2 s1 : osize) (w : wsize) (i : immk) : lrow :=
  mkL p map opc true None [rm_ KG true s2; r_ KG s1] w i.
Definition is_op (k : okind) (op : Operand) : Prop := match op with OReg q => in_file k q | OMem a => mem_ok a end.
(* the call emits, through opRO, an instruction of one of the rows *)
Definition ro_ok (rows : list lrow) (rev : bool) (r : Reg) (op : Operand) (imm : Z) (env : Env) (pos : Z) (its : list item) (s : sigma_t) : Prop :=
  exists row k1 k2 m s1 s2 type code cond wsel n i1 tail u, In row rows
    /\ l_ops row = (if rev then [rm_ k2 m s2; r_ k1 s1] else [r_ k1 s1; rm_ k2 m s2]) /\ l_digit row = None
    /\ rochk row type code k1 k2 m s1 s2 cond wsel = true
    /\ in_file k1 r /\ is_op k2 op
    /\ cond (bit_ r) (isMEM op) (bit_ (ob op)) = true
    /\ emits (opRO r op type code true n) env pos i1 u
    /\ render s its = render s i1 ++ tail
    /\ imm_ok (l_imm row) (wsel (bit_ r) (isMEM op) (bit_ (ob op))) imm tail.
Lemma ro_ok_says rows (rev : bool) r op imm env pos its s rest :
  let ops := if rev then [op; OReg r] else [OReg r; op] in
  high_ok ops -> ro_ok rows rev r op imm env pos its s -> Exists (fun row => lsays row ops imm (render s its) rest) rows.
Proof.
  intros ops Hk (row & k1 & k2 & m & s1 & s2 & type & code & cond & wsel & n & i1 & tail & u & Hin & L & D & C & F1 & F2 & Hc & H & R & I).
  apply Exists_exists. exists row. split; auto. rewrite R. eapply ro_gen; eauto.
Qed.
Lemma ro_entry nm f c1 c2 rows :
  (forall r op env pos its s u, larg_ok c1 (OReg r) -> larg_ok c2 op -> emits (f r op) env pos its u ->
     forall imm, ro_ok rows false r op imm env pos its s) ->
  limplements (mkLE nm [c1; c2] (ro f) rows).
Proof.
  intros E s ops imm act env pos its rest u Hf Ha Hb Hh Hi H. cbn [le_fun le_sig le_rows] in *.
  apply args2 in Ha as (o1 & o2 & -> & A1 & A2). destruct o1 as [r|]; [|destruct c1; discriminate Hf]. cbn [ro] in Hf. injection Hf as <-.
  exact (ro_ok_says rows false r o2 imm env pos its s rest Hh (E _ _ _ _ _ _ _ A1 A2 H imm)).
Qed.
Lemma or_entry nm f c1 c2 rows :
  (forall op r env pos its s u, larg_ok c1 op -> larg_ok c2 (OReg r) -> emits (f op r) env pos its u ->
     forall imm, ro_ok rows true r op imm env pos its s) ->
  limplements (mkLE nm [c1; c2] (or_ f) rows).
Proof.
  intros E s ops imm act env pos its rest u Hf Ha Hb Hh Hi H. cbn [le_fun le_sig le_rows] in *.
  apply args2 in Ha as (o1 & o2 & -> & A1 & A2). destruct o2 as [r|]; [|destruct o1; discriminate Hf]. cbn [or_] in Hf. injection Hf as <-.
  exact (ro_ok_says rows true r o1 imm env pos its s rest Hh (E _ _ _ _ _ _ _ A1 A2 H imm)).
Qed.
Lemma roi_entry nm f c1 c2 rows :
  (forall r op imm env pos its s u, larg_ok c1 (OReg r) -> larg_ok c2 op -> Forall (fun row => imm_in (l_imm row) imm) rows ->
     emits (f r op imm) env pos its u -> ro_ok rows false r op imm env pos its s) ->
  limplements (mkLE nm [c1; c2] (roi f) rows).
Proof.
  intros E s ops imm act env pos its rest u Hf Ha Hb Hh Hi H. cbn [le_fun le_sig le_rows] in *.
  apply args2 in Ha as (o1 & o2 & -> & A1 & A2). destruct o1 as [r|]; [|destruct c1; discriminate Hf]. cbn [roi] in Hf. injection Hf as <-.
  exact (ro_ok_says rows false r o2 imm env pos its s rest Hh (E _ _ _ _ _ _ _ _ A1 A2 Hi H)).
Qed.
Lemma ori_entry nm f c1 c2 rows :
  (forall op r imm env pos its s u, larg_ok c1 op -> larg_ok c2 (OReg r) -> Forall (fun row => imm_in (l_imm row) imm) rows ->
     emits (f op r imm) env pos its u -> ro_ok rows true r op imm env pos its s) ->
  limplements (mkLE nm [c1; c2] (ori f) rows).
Proof.
  intros E s ops imm act env pos its rest u Hf Ha Hb Hh Hi H. cbn [le_fun le_sig le_rows] in *.
  apply args2 in Ha as (o1 & o2 & -> & A1 & A2). destruct o2 as [r|]; [|destruct o1; discriminate Hf]. cbn [ori] in Hf. injection Hf as <-.
  exact (ro_ok_says rows true r o1 imm env pos its s rest Hh (E _ _ _ _ _ _ _ _ A1 A2 Hi H)).
Qed.

Lemma opRO_cond r op type code c n env pos its u : emits (opRO r op type code c n) env pos its u ->
  emits (opRO r op type code true n) env pos its u /\ (isMEM op = false -> c = true).
Proof.
  intros H. pose proof (emits_fn _ _ _ _ _ _ H) as H'. destruct op as [q|a]; [|split; [exact H|discriminate]].
  destruct c; [split; auto|]. einv H'.
Qed.
(* what the argument classes give *)
Definition cls_op (c : lcls) (op : Operand) : Prop :=
  match op with OReg q => any_reg q | OMem a => mem_ok a end.
Lemma tO_op op : larg_ok tO op -> cls_op tO op. Proof. destruct op; auto. Qed.
Lemma tOp_op l op : larg_ok (tOp l) op -> cls_op tO op. Proof. destruct op; cbn; [|intros [? _]]; auto. Qed.
Lemma tOl_op l op : larg_ok (tOl l) op -> cls_op tO op. Proof. destruct op; cbn; intros H; apply H. Qed.
Lemma tOp_mem l op : larg_ok (tOp l) op -> isMEM op = true -> existsb (Z.eqb (bit_ (ob op))) l = true.
Proof. destruct op; cbn; [discriminate|]. intros [_ H] _. apply existsb_exists. eexists; split; [exact H|apply Z.eqb_refl]. Qed.
Lemma tOl_mem l op : larg_ok (tOl l) op -> isMEM op = true -> existsb (Z.eqb (bit_ (ob op))) l = true.
Proof. destruct op; cbn; [discriminate|]. intros (_ & H & _) _. apply existsb_exists. eexists; split; [exact H|apply Z.eqb_refl]. Qed.
Lemma low_no_rex2 o : low_regs o -> hasRex2NFZU o = false.
Proof.
  intros (N & Z0 & L). unfold hasRex2NFZU. rewrite N, Z0, !orb_false_r.
  assert (K : forall r, regno r < 16 -> regHasRex2 r = false).
  { intros r H. unfold regHasRex2. rewrite isExtIdx2_bit4. pose proof (regno_split r) as S. pose proof (low3_range r).
    destruct (bit4 r); [|apply andb_false_r]. destruct (bit3 r); cbn [z01] in S; lia. }
  destruct o as [r|a]; cbn [hasRex2]; [apply K; auto|]. unfold addrHasRex2. rewrite !K by apply L. reflexivity.
Qed.
Lemma tOl_low l op : larg_ok (tOl l) op -> hasRex2NFZU op = false.
Proof. intros H. apply low_no_rex2. destruct op; cbn in H; apply H. Qed.
Lemma tGl_low r : larg_ok tGl (OReg r) -> hasRex2NFZU (OReg r) = false /\ gpr r /\ bit_ r <> 8.
Proof. intros (G & B & L). split; auto. now apply low_no_rex2. Qed.
(* opROO declines *)
Lemma opROO_no op1 op2 type code n sc env pos its d :
  hasRex2NFZU op1 = false -> hasRex2NFZU op2 = false -> has type T_MUST_EVEX = false ->
  emits (opROO noReg op1 op2 type code n sc) env pos its d -> its = [] /\ d = false.
Proof.
  intros L1 L2 M H. unfold opROO in H. apply emits_fn in H. rewrite M, L1, L2 in H. cbn in H. now apply emits_ret in H.
Qed.
Lemma roo_ro {r op1 op2 type code n sc env pos its u} {k : E unit} :
  hasRex2NFZU op1 = false -> hasRex2NFZU op2 = false -> has type T_MUST_EVEX = false -> r = noReg ->
  emits (done <- opROO r op1 op2 type code n sc ;; if (done : bool) then ret tt else k) env pos its u ->
  emits k env pos its u.
Proof.
  intros L1 L2 M -> H. ebind H i1 i2 d H1 H2. apply opROO_no in H1 as [-> ->]; auto. cbn in H2. rewrite Z.add_0_r in H2. exact H2.
Qed.

(* ---- checks ---- *)
Definition c_v (b1 : Z) (mem : bool) (b2 : Z) : bool := negb (b1 =? 8).
Definition c_vv (b1 : Z) (mem : bool) (b2 : Z) : bool := negb (b1 =? 8) && (mem || negb (b2 =? 8)).
Definition c_all (b1 : Z) (mem : bool) (b2 : Z) : bool := true.
Definition w_r (b1 : Z) (mem : bool) (b2 : Z) : Z := b1.
Definition w_0 (b1 : Z) (mem : bool) (b2 : Z) : Z := 0.
Ltac chk := vm_compute; reflexivity.
Lemma imm_none_tail w imm : imm_ok I_none w imm []. Proof. apply imm_none_ok. Qed.

Lemma ro_ok_intro rows row (rev : bool) r op imm env pos its s k1 k2 m s1 s2 type code cond wsel n u :
  In row rows -> l_ops row = (if rev then [rm_ k2 m s2; r_ k1 s1] else [r_ k1 s1; rm_ k2 m s2]) -> l_digit row = None -> l_imm row = I_none ->
  rochk row type code k1 k2 m s1 s2 cond wsel = true ->
  in_file k1 r -> is_op k2 op -> cond (bit_ r) (isMEM op) (bit_ (ob op)) = true ->
  emits (opRO r op type code true n) env pos its u ->
  ro_ok rows rev r op imm env pos its s.
Proof.
  intros Hin L D I C F1 F2 Hc H. exists row, k1, k2, m, s1, s2, type, code, cond, wsel, n, its, [], u.
  rewrite app_nil_r, I. repeat match goal with |- _ /\ _ => split end; auto. apply imm_none_ok.
Qed.

(* cmovcc, bsf, bsr: opRO(reg, op, type, code, op.isREG(16|i32e)) *)
Lemma cmov_entry nm f p map opc type code :
  (forall r op, f r op = opRO r op type code (oREGb op (16 ||| i32e)) 0) ->
  rochk (rorow p map opc Sv Sv OsV I_none) type code KG KG true Sv Sv c_v w_r = true ->
  limplements (mkLE nm [tGv; tO] (ro f) [rorow p map opc Sv Sv OsV I_none]).
Proof.
  intros E C. apply ro_entry. intros r op env pos its s u [G B8] A2 H imm. rewrite E in H. apply opRO_cond in H as [H Hc].
  eapply ro_ok_intro; [left; reflexivity|reflexivity|reflexivity|reflexivity|exact C|exact G| | |exact H].
  - destruct op as [q|a]; [|exact A2]. apply any_gpr; auto. apply isREGb_REG with (16 ||| i32e). apply Hc. reflexivity.
  - unfold c_v. apply negb_true_iff, Z.eqb_neq. exact B8.
Qed.
(* bt op, reg *)
Lemma bt_entry nm f p map opc type code :
  (forall op r, f op r = opRO r op type code (oREGb op (16 ||| i32e) && (ogetBit op =? getBit r)) 0) ->
  rochk (orrow p map opc Sv Sv OsV I_none) type code KG KG true Sv Sv c_v w_r = true ->
  limplements (mkLE nm [tO; tGv] (or_ f) [orrow p map opc Sv Sv OsV I_none]).
Proof.
  intros E C. apply or_entry. intros op r env pos its s u A2 [G B8] H imm. rewrite E in H. apply opRO_cond in H as [H Hc].
  eapply ro_ok_intro; [left; reflexivity|reflexivity|reflexivity|reflexivity|exact C|exact G| | |exact H].
  - destruct op as [q|a]; [|exact A2]. apply any_gpr; auto. specialize (Hc eq_refl). apply andb_prop in Hc as [Hc _].
    apply isREGb_REG with (16 ||| i32e). exact Hc.
  - unfold c_v. apply negb_true_iff, Z.eqb_neq. exact B8.
Qed.

Lemma tE_op op : larg_ok tE op -> is_op KG op. Proof. destruct op; auto. Qed.
Lemma tEl_op op : larg_ok tEl op -> is_op KG op /\ hasRex2NFZU op = false.
Proof. destruct op; cbn; intros [? L]; split; auto; now apply low_no_rex2. Qed.
Lemma kind_gpr r q : gpr r -> any_reg q -> (kind_ q =? kind_ r) = true -> gpr q.
Proof. intros [K _] A E. apply any_gpr; auto. unfold isREG, is_. rewrite K in E. apply Z.eqb_eq in E. rewrite E. reflexivity. Qed.
Lemma kind_gpr' r q : gpr r -> any_reg q -> (kind_ r =? kind_ q) = true -> gpr q.
Proof. rewrite Z.eqb_sym. apply kind_gpr. Qed.
Lemma nb8 b : b <> 8 -> negb (b =? 8) = true. Proof. intros H. apply negb_true_iff, Z.eqb_neq. exact H. Qed.
Ltac kg G := match goal with |- is_op KG ?op => destruct op as [q|a]; [apply (kind_gpr' _ _ G) || apply (kind_gpr _ _ G)|]; auto end.

(* imul reg, op *)
Lemma imul_entry nm f p map opc t2 c2 type code :
  (forall r op, f r op = done <- opROO noReg op (OReg r) t2 c2 0 NONE ;; if (done : bool) then ret tt else opRO r op type code (kind_ r =? kind_ (ob op)) 0) ->
  has t2 T_MUST_EVEX = false ->
  rochk (rorow p map opc Sv Sv OsV I_none) type code KG KG true Sv Sv c_v w_r = true ->
  limplements (mkLE nm [tGl; tOl all_sizes] (ro f) [rorow p map opc Sv Sv OsV I_none]).
Proof.
  intros E M C. apply ro_entry. intros r op env pos its s u A1 A2 H imm. rewrite E in H. apply tGl_low in A1 as (L1 & G & B8).
  apply roo_ro in H; eauto using tOl_low. apply opRO_cond in H as [H Hc].
  eapply ro_ok_intro; [left; reflexivity|reflexivity|reflexivity|reflexivity|exact C|exact G| | |exact H].
  - apply tOl_op in A2. destruct op as [q|a]; [|exact A2]. apply (kind_gpr' _ _ G A2). apply Hc. reflexivity.
  - apply nb8; auto.
Qed.
(* popcnt *)
Lemma cnt_ok row rows type code r op env pos its s u imm :
  In row rows -> row = rorow PF3 1 code Sv Sv OsV I_none -> type = T_F3 ||| T_0F ->
  rochk row type code KG KG true Sv Sv c_v w_r = true ->
  gpr r -> cls_op tO op -> emits (opCnt r op code) env pos its u -> ro_ok rows false r op imm env pos its s.
Proof.
  intros Hin Er Et C G A H. unfold opCnt in H. apply emits_fn in H.
  destruct (isBit r 8) eqn:B8; [einv H|].
  match type of H with emits (if ?c then _ else _) _ _ _ _ => destruct c eqn:V end; [einv H|].
  subst type row. eapply ro_ok_intro; [exact Hin|reflexivity|reflexivity|reflexivity|exact C|exact G| | |exact H].
  - destruct op as [q|a]; [|exact A]. cbn [isMEM orb] in V. rewrite !orb_false_r in V. apply any_gpr; auto.
    apply andb_false_iff in V as [V|V]; apply negb_false_iff in V; apply andb_prop in V as [_ V]; eapply isREGb_REG; exact V.
  - apply nb8. intros E8. unfold isBit in B8. change (getBit r) with (bit_ r) in B8. rewrite E8 in B8. discriminate.
Qed.
Lemma cnt_entry nm f opc :
  (forall r op, f r op = opCnt r op opc) ->
  rochk (rorow PF3 1 opc Sv Sv OsV I_none) (T_F3 ||| T_0F) opc KG KG true Sv Sv c_v w_r = true ->
  limplements (mkLE nm [tG; tO] (ro f) [rorow PF3 1 opc Sv Sv OsV I_none]).
Proof.
  intros E C. apply ro_entry. intros r op env pos its s u A1 A2 H imm. rewrite E in H.
  refine (cnt_ok _ [_] _ opc r op env pos its s u imm (or_introl eq_refl) eq_refl eq_refl C A1 _ H). destruct op; exact A2.
Qed.
Lemma cntl_entry nm f opc t2 c2 :
  (forall r op, f r op = done <- opROO noReg op (OReg r) t2 c2 0 NONE ;; if (done : bool) then ret tt else opCnt r op opc) ->
  has t2 T_MUST_EVEX = false ->
  rochk (rorow PF3 1 opc Sv Sv OsV I_none) (T_F3 ||| T_0F) opc KG KG true Sv Sv c_v w_r = true ->
  limplements (mkLE nm [tGl; tOl all_sizes] (ro f) [rorow PF3 1 opc Sv Sv OsV I_none]).
Proof.
  intros E M C. apply ro_entry. intros r op env pos its s u A1 A2 H imm. rewrite E in H. apply tGl_low in A1 as (L1 & G & B8).
  apply roo_ro in H; eauto using tOl_low. refine (cnt_ok _ [_] _ opc r op env pos its s u imm (or_introl eq_refl) eq_refl eq_refl C G _ H). apply tOl_op in A2. destruct op; exact A2.
Qed.
(* movzx, movsx *)
Definition c_8 (b1 : Z) (mem : bool) (b2 : Z) : bool := (b2 =? 8) && (b2 <? b1).
Definition c_16 (b1 : Z) (mem : bool) (b2 : Z) : bool := (b2 =? 16) && (b2 <? b1).
Lemma any_small q : any_reg q -> bit_ q < 64 -> has (bit_ q) 32 = false -> gpr q.
Proof.
  intros A L N. unfold any_reg, mmx_reg, vec_reg, opmask_reg, tmm_reg, bnd_reg, fpu_reg in A.
  destruct A as [A|[A|[A|[A|[A|[A|A]]]]]]; auto; exfalso.
  - destruct A as [[[_ B]|[[_ B]|[_ B]]] _]; lia.
  - lia.
  - lia.
  - lia.
  - lia.
  - destruct A as (_ & B & _). rewrite B in N. discriminate.
Qed.
Lemma movxx_entry nm f opc :
  (forall r op, f r op = opMovxx r op opc) ->
  rochk (rorow NP 1 opc Sv (Sn 8) OsV I_none) (T_0F ||| T_ALLOW_DIFF_SIZE) (opc ||| 0) KG KG true Sv (Sn 8) c_8 w_r = true ->
  rochk (rorow NP 1 (opc + 1) Sv (Sn 16) OsV I_none) (T_0F ||| T_ALLOW_DIFF_SIZE) (opc ||| 1) KG KG true Sv (Sn 16) c_16 w_r = true ->
  limplements (mkLE nm [tG; tOp [8; 16]] (ro f) [rorow NP 1 opc Sv (Sn 8) OsV I_none; rorow NP 1 (opc + 1) Sv (Sn 16) OsV I_none]).
Proof.
  intros E C8 C16. apply ro_entry. intros r op env pos its s u G A2 H imm. rewrite E in H. unfold opMovxx in H. apply emits_fn in H.
  destruct (oBit op 32) eqn:N32; [einv H|]. cbv zeta in H.
  destruct (isREG r && (ogetBit op <? getBit r)) eqn:Lt; cbn [negb] in H; [|einv H]. apply andb_prop in Lt as [_ Lt].
  change (ogetBit op) with (bit_ (ob op)) in Lt. change (getBit r) with (bit_ r) in Lt.
  unfold oBit, isBit in H, N32. change (getBit (ob op)) with (bit_ (ob op)) in H, N32.
  pose proof (gpr_bits _ G) as Gb.
  assert (O : is_op KG op).
  { destruct op as [q|a]; [|exact (proj1 A2)]. cbn in Gb. apply any_small; auto. cbn [ob] in Lt. lia. }
  assert (B : bit_ (ob op) = 8 \/ bit_ (ob op) = 16).
  { destruct op as [q|a]; cbn [ob is_op in_file] in *.
    - pose proof (gpr_bits _ O) as Q. cbn in Q, Gb. destruct Q as [Q|[Q|[Q|[Q|[]]]]]; try lia. rewrite <- Q in N32. discriminate.
    - destruct A2 as [_ A2]. cbn in A2. intuition. }
  destruct B as [B|B]; rewrite B in H.
  - eapply ro_ok_intro with (row := rorow NP 1 opc Sv (Sn 8) OsV I_none); [left; reflexivity|reflexivity|reflexivity|reflexivity|exact C8|exact G|exact O| |exact H].
    unfold c_8. rewrite B in *. rewrite Lt. reflexivity.
  - eapply ro_ok_intro with (row := rorow NP 1 (opc + 1) Sv (Sn 16) OsV I_none); [right; left; reflexivity|reflexivity|reflexivity|reflexivity|exact C16|exact G|exact O| |exact H].
    unfold c_16. rewrite B in *. rewrite Lt. reflexivity.
Qed.
(* xadd, cmpxchg, test *)
Lemma brow_entry nm f cls p map opc type code1 code2 :
  (forall op r, f op r = opRO r op type (if isBit r 8 then code1 else code2) (getBit (ob op) =? getBit r) 0) -> cls = tE ->
  rochk (orrow p map opc Sv Sv OsB I_none) type code1 KG KG true Sv Sv (fun b _ _ => b =? 8) w_r = true ->
  rochk (orrow p map opc Sv Sv OsB I_none) type code2 KG KG true Sv Sv (fun b _ _ => negb (b =? 8)) w_r = true ->
  limplements (mkLE nm [cls; tG] (or_ f) [orrow p map opc Sv Sv OsB I_none]).
Proof.
  intros E -> C1 C2. apply or_entry. intros op r env pos its s u A2 G H imm. rewrite E in H. apply opRO_cond in H as [H _].
  assert (Q : isBit r 8 = (bit_ r =? 8)).
  { unfold isBit. change (getBit r) with (bit_ r). pose proof (gpr_bits _ G) as Gb. cbn in Gb. destruct Gb as [Q|[Q|[Q|[Q|[]]]]]; rewrite <- Q; reflexivity. }
  rewrite Q in H. destruct (bit_ r =? 8) eqn:B8.
  - eapply ro_ok_intro; [left; reflexivity|reflexivity|reflexivity|reflexivity|exact C1|exact G|exact (tE_op _ A2)| |exact H]. exact B8.
  - eapply ro_ok_intro; [left; reflexivity|reflexivity|reflexivity|reflexivity|exact C2|exact G|exact (tE_op _ A2)| |exact H]. cbv beta. now rewrite B8.
Qed.
Lemma test_entry nm f p map opc type code :
  (forall op r, f op r = opRO r op type code (oKind op =? kind_ r) 0) ->
  rochk (orrow p map opc Sv Sv OsB I_none) type code KG KG true Sv Sv c_all w_r = true ->
  limplements (mkLE nm [tO; tG] (or_ f) [orrow p map opc Sv Sv OsB I_none]).
Proof.
  intros E C. apply or_entry. intros op r env pos its s u A2 G H imm. rewrite E in H. apply opRO_cond in H as [H Hc].
  eapply ro_ok_intro; [left; reflexivity|reflexivity|reflexivity|reflexivity|exact C|exact G| |reflexivity|exact H].
  destruct op as [q|a]; [|exact A2]. apply (kind_gpr _ _ G A2). apply Hc. reflexivity.
Qed.
(* movsxd *)
Lemma movsxd_entry nm f :
  (forall r op, f r op = fn tt (if negb (isBit (ob op) 32) then throw ERR_BAD_COMBINATION else opRO r op T_ALLOW_DIFF_SIZE 0x63 true 0)) ->
  limplements (mkLE nm [tR 64; tE] (ro f) [mkL NP 0 0x63 true None [r_ KG (Sn 64); rm_ KG true (Sn 32)] Os1 I_none]).
Proof.
  intros E. apply ro_entry. intros r op env pos its s u [G B64] A2 H imm. rewrite E in H. apply emits_fn in H.
  destruct (isBit (ob op) 32) eqn:B; cbn [negb] in H; [|einv H].
  eapply ro_ok_intro with (k2 := KG) (m := true) (s2 := Sn 32) (s1 := Sn 64) (cond := fun b _ b2 => (b =? 64) && has b2 32) (wsel := w_0);
    [left; reflexivity|reflexivity|reflexivity|reflexivity| |exact G|exact (tE_op _ A2)| |exact H].
  - chk.
  - rewrite B64. exact B.
Qed.
(* address, register *)
Lemma fn_emits {A} (d : A) m env pos its a : emits m env pos its a -> emits (fn d m) env pos its a.
Proof. intros [Hn H]. split; auto. unfold fn. rewrite H. reflexivity. Qed.
Lemma opMR_opRO a r type code env pos its u : emits (opMR a r type code 0 NONE) env pos its u ->
  emits (opRO r (OMem a) type code true (immSize a)) env pos its u.
Proof. intros H. unfold opRO. replace (set_immSize a (immSize a)) with a by (destruct a; reflexivity). apply fn_emits. exact H. Qed.
Lemma opMR_leg a r type code t2 c2 env pos its u : hasRex2NFZU (OReg r) = false -> hasRex2NFZU (OMem a) = false -> has t2 T_MUST_EVEX = false ->
  emits (opMR a r type code t2 c2) env pos its u -> emits (opMR a r type code 0 NONE) env pos its u.
Proof.
  intros L1 L2 M H. unfold opMR in H |- *. apply emits_fn in H. cbv zeta in H. 
  assert (K : forall (k : E unit), emits (done <- (if negb (t2 =? 0) then opROO noReg (OMem a) (OReg r) t2 (if c2 =? NONE then code else c2) 0 NONE else ret false) ;;
     if (done : bool) then ret tt else k) env pos its u -> emits k env pos its u).
  { intros k Q. destruct (t2 =? 0); cbn [negb] in Q.
    - ebind Q i1 i2 d Q1 Q2. apply emits_ret in Q1 as [-> ->]. cbn [app items_size] in *. rewrite Z.add_0_r in Q2. exact Q2.
    - apply roo_ro in Q; auto. }
  apply K in H. apply fn_emits. cbv zeta. change (0 =? 0) with true. cbn [negb].
  destruct H as [Hn H]. split; auto. unfold bind at 1. unfold ret at 1. cbn [app items_size]. rewrite Z.add_0_r.
  match goal with |- (let '(_, _) := ?x in _) = _ => transitivity x; [destruct x; reflexivity|exact H] end.
Qed.
(* lea reg, mem *)
Lemma lea_entry nm f :
  (forall r a, f r a = fn tt (if negb (isBit r (16 ||| i32e)) then throw ERR_BAD_SIZE_OF_REGISTER else opMR a r 0 0x8D 0 NONE)) ->
  limplements (mkLE nm [tG; tA] (ra f) [mkL NP 0 0x8D true None [r_ KG Sv; rm_ KG true Sany] OsV I_none]).
Proof.
  intros E s ops imm act env pos its rest u Hf Ha Hb Hh Hi H. cbn [le_fun le_sig le_rows] in *.
  apply args2 in Ha as (o1 & o2 & -> & A1 & A2). destruct o1 as [r|]; [|destruct A1]. destruct o2 as [|a]; [destruct A2|].
  cbn [ra] in Hf. injection Hf as <-. rewrite E in H. apply emits_fn in H.
  destruct (isBit r (16 ||| i32e)) eqn:B; cbn [negb] in H; [|einv H]. apply opMR_opRO in H.
  apply (ro_ok_says _ false r (OMem a) imm env pos its s rest Hh).
  eapply ro_ok_intro with (k2 := KG) (m := true) (s2 := Sany) (s1 := Sv) (cond := fun b _ _ => negb (b =? 8)) (wsel := w_r);
    [left; reflexivity|reflexivity|reflexivity|reflexivity| |exact A1|exact A2| |exact H]; [chk|].
  apply nb8. intros E8. unfold isBit in B. change (getBit r) with (bit_ r) in B. rewrite E8 in B. discriminate.
Qed.
(* mem, reg : movnti, movbe, aadd .. *)
Lemma ar_entry nm f p map opc w type code t2 c2 :
  (forall a r, f a r = opMR a r type code t2 c2) -> has t2 T_MUST_EVEX = false ->
  rochk (mkL p map opc true None [rm_ KG true Sv; r_ KG Sv] w I_none) type code KG KG true Sv Sv (fun b m _ => m && w_in w b) w_r = true ->
  (forall r, larg_ok tGl (OReg r) -> w_in w (bit_ r) = true) ->
  limplements (mkLE nm [tAl; tGl] (ar f) [mkL p map opc true None [rm_ KG true Sv; r_ KG Sv] w I_none]).
Proof.
  intros E M C W s ops imm act env pos its rest u Hf Ha Hb Hh Hi H. cbn [le_fun le_sig le_rows] in *.
  apply args2 in Ha as (o1 & o2 & -> & A1 & A2). destruct o2 as [r|]; [|destruct A2]. destruct o1 as [|a]; [destruct A1|].
  cbn [ar] in Hf. injection Hf as <-. rewrite E in H. pose proof (W _ A2) as Wr. apply tGl_low in A2 as (L1 & G & B8). destruct A1 as [A1 L2]. apply low_no_rex2 in L2.
  apply opMR_leg in H; auto. apply opMR_opRO in H.
  apply (ro_ok_says _ true r (OMem a) imm env pos its s rest Hh).
  eapply ro_ok_intro with (k2 := KG) (m := true);
    [left; reflexivity|reflexivity|reflexivity|reflexivity|exact C|exact G|exact A1| |exact H]. exact Wr.
Qed.
Lemma are_entry nm f p map opc type code t2 c2 :
  (forall a r, f a r = opMR a r type code t2 c2) -> has t2 T_MUST_EVEX = false ->
  rochk (mkL p map opc true None [rm_ KG true Sv; r_ KG Sv] OsY I_none) type code KG KG true Sv Sv (fun b m _ => m && w_in OsY b) w_r = true ->
  limplements (mkLE nm [tAl; tEe] (ar f) [mkL p map opc true None [rm_ KG true Sv; r_ KG Sv] OsY I_none]).
Proof.
  intros E M C s ops imm act env pos its rest u Hf Ha Hb Hh Hi H. cbn [le_fun le_sig le_rows] in *.
  apply args2 in Ha as (o1 & o2 & -> & A1 & A2). destruct o2 as [r|]; [|destruct A2]. destruct o1 as [|a]; [destruct A1|].
  cbn [ar] in Hf. injection Hf as <-. rewrite E in H. destruct A2 as (G & B & L1). destruct A1 as [A1 L2]. apply low_no_rex2 in L1, L2.
  apply opMR_leg in H; auto. apply opMR_opRO in H.
  apply (ro_ok_says _ true r (OMem a) imm env pos its s rest Hh).
  eapply ro_ok_intro with (k2 := KG) (m := true);
    [left; reflexivity|reflexivity|reflexivity|reflexivity|exact C|exact G|exact A1| |exact H]. cbv beta. cbn [isMEM andb]. destruct B as [-> | ->]; reflexivity.
Qed.
Lemma movbe_entry nm f opc t2 c2 :
  (forall r a, f r a = opMR a r T_0F38 opc t2 c2) -> has t2 T_MUST_EVEX = false ->
  rochk (rorow NP 2 opc Sv Sv OsV I_none) T_0F38 opc KG KG true Sv Sv (fun b m _ => m && negb (b =? 8)) w_r = true ->
  limplements (mkLE nm [tGl; tAl] (ra f) [rorow NP 2 opc Sv Sv OsV I_none]).
Proof.
  intros E M C s ops imm act env pos its rest u Hf Ha Hb Hh Hi H. cbn [le_fun le_sig le_rows] in *.
  apply args2 in Ha as (o2 & o1 & -> & A2 & A1). destruct o2 as [r|]; [|destruct A2]. destruct o1 as [|a]; [destruct A1|].
  cbn [ra] in Hf. injection Hf as <-. rewrite E in H. apply tGl_low in A2 as (L1 & G & B8). destruct A1 as [A1 L2]. apply low_no_rex2 in L2.
  apply opMR_leg in H; auto. apply opMR_opRO in H.
  apply (ro_ok_says _ false r (OMem a) imm env pos its s rest Hh).
  eapply ro_ok_intro with (k2 := KG) (m := true);
    [left; reflexivity|reflexivity|reflexivity|reflexivity|exact C|exact G|exact A1| |exact H]. cbv beta. cbn [isMEM andb]. apply nb8; auto.
Qed.
(* adcx, adox *)
Lemma adx_entry nm f p t2 c2 type :
  (forall r op, f r op = fn tt (if negb (isREGb r (16 ||| i32e)) && (getBit r =? getBit (ob op)) then throw ERR_BAD_SIZE_OF_REGISTER else
     done <- opROO noReg op (OReg r) t2 c2 0 NONE ;; if (done : bool) then ret tt else opRO r op type 0xF6 true 0)) ->
  has t2 T_MUST_EVEX = false ->
  rochk (rorow p 2 0xF6 Sv Sv OsY I_none) type 0xF6 KG KG true Sv Sv (fun b _ _ => w_in OsY b) w_r = true ->
  limplements (mkLE nm [tEe; tEl] (ro f) [rorow p 2 0xF6 Sv Sv OsY I_none]).
Proof.
  intros E M C. apply ro_entry. intros r op env pos its s u A1 A2 H imm. rewrite E in H. apply emits_fn in H.
  destruct (negb (isREGb r (16 ||| i32e)) && (getBit r =? getBit (ob op))); [einv H|].
  destruct A1 as (G & B & L1). apply low_no_rex2 in L1. apply tEl_op in A2 as [O L2]. apply roo_ro in H; auto.
  eapply ro_ok_intro with (k2 := KG) (m := true); [left; reflexivity|reflexivity|reflexivity|reflexivity|exact C|exact G|exact O| |exact H].
  cbv beta. destruct B as [-> | ->]; reflexivity.
Qed.
(* crc32 *)
Definition crc_rows : list lrow :=
  [rorow PF2 2 0xF0 Sv (Sn 8) OsY I_none; rorow PF2 2 0xF1 (Sn 32) Sv OsV I_none; rorow PF2 2 0xF1 Sv Sv OsY I_none].
Lemma crc_entry nm f t2 :
  (forall r op, f r op = fn tt (if negb ((isBit r 32 && isBit (ob op) ((8 ||| 16) ||| 32)) || (isBit r 64 && isBit (ob op) (8 ||| 64)))
     then throw ERR_BAD_SIZE_OF_REGISTER else
     let code := 0xF0 ||| (if isBit (ob op) 8 then 0 else 1) in
     let type := if isBit (ob op) 16 then T_66 else 0 in let type := type ||| T_ALLOW_DIFF_SIZE in
     done <- opROO noReg op (OReg r) (t2 ||| type) code 0 NONE ;; if (done : bool) then ret tt else opRO r op ((T_F2 ||| T_0F38) ||| type) code true 0)) ->
  (forall b, has (t2 ||| ((if (b : bool) then T_66 else 0) ||| T_ALLOW_DIFF_SIZE)) T_MUST_EVEX = false) ->
  limplements (mkLE nm [tEe; tEl] (ro f) crc_rows).
Proof.
  intros E M. apply ro_entry. intros r op env pos its s u A1 A2 H imm. rewrite E in H. apply emits_fn in H.
  match type of H with emits (if ?c then _ else _) _ _ _ _ => destruct c eqn:V end; [einv H|]. apply negb_false_iff in V. cbv zeta in H.
  destruct A1 as (G & B & L1). apply low_no_rex2 in L1. apply tEl_op in A2 as [O L2]. apply roo_ro in H; auto.
  unfold isBit in V, H. change (getBit r) with (bit_ r) in V. change (getBit (ob op)) with (bit_ (ob op)) in V, H.
  assert (Bs : In (bit_ (ob op)) all_sizes).
  { destruct op as [q|a]; [pose proof (gpr_bits _ O) as Q; cbn in Q |- *; intuition|exact (mo_size _ O)]. }
  remember (bit_ (ob op)) as b2 eqn:E2. cbn in Bs.
  destruct Bs as [Q|[Q|[Q|[Q|[Q|[Q|[Q|[Q|[]]]]]]]]]; rewrite <- Q in V, H, E2;
    (destruct B as [B|B]; rewrite B in V; try discriminate V; clear V);
    match type of H with emits (opRO _ _ ?t ?c _ _) _ _ _ _ => let t' := eval vm_compute in t in let c' := eval vm_compute in c in change t with t' in H; change c with c' in H end.
  all: first
   [ eapply ro_ok_intro with (row := rorow PF2 2 0xF0 Sv (Sn 8) OsY I_none) (m := true) (wsel := w_r) (cond := fun b m b2 => w_in OsY b && (b2 =? 8));
     [left; reflexivity|reflexivity|reflexivity|reflexivity| |exact G|exact O|rewrite B, <- E2; reflexivity|exact H]; chk
   | eapply ro_ok_intro with (row := rorow PF2 2 0xF1 (Sn 32) Sv OsV I_none) (m := true) (wsel := fun _ _ b => b) (cond := fun b m b2 => (b =? 32) && (b2 =? 16));
     [right; left; reflexivity|reflexivity|reflexivity|reflexivity| |exact G|exact O|rewrite B, <- E2; reflexivity|exact H]; chk
   | eapply ro_ok_intro with (row := rorow PF2 2 0xF1 Sv Sv OsY I_none) (m := true) (wsel := w_r) (cond := fun b m b2 => w_in OsY b && (b2 =? b));
     [right; right; left; reflexivity|reflexivity|reflexivity|reflexivity| |exact G|exact O|rewrite B, <- E2; reflexivity|exact H]; chk ].
Qed.
Lemma tGl_v r : larg_ok tGl (OReg r) -> w_in OsV (bit_ r) = true.
Proof. intros H. apply tGl_low in H as (_ & G & B). pose proof (gpr_bits _ G) as Q. cbn in Q. destruct Q as [Q|[Q|[Q|[Q|[]]]]]; rewrite <- Q in *; try reflexivity. exfalso; apply B; reflexivity. Qed.
