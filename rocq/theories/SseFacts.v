(* From opRR / opMR calls, with operands of any register file, to rows: a boolean check per row. *)
From Coq Require Import ZArith List Bool String Lia.
From Verif Require Import Base Types Emit Encode SpecX86 SpecAddr SpecIsa SpecInsn SpecLeg SpecMix Wf EmitFacts BitFacts MemFacts LegacyFacts VexFacts EncThms LegFacts LegShapes LegGpr LegGpr2 LegGpr3.
Import ListNotations.
Open Scope Z_scope.

(* the call behind opRO, opMR, opRR: register r' (or digit) in ModRM.reg, op in ModRM.rm *)
Definition call (r' : Reg) (op' : Operand) (type code : Z) : E unit :=
  match op' with OReg q => opRR r' q type code | OMem a => opMR a r' type code 0 NONE end.
(* op' encodes as op *)
Definition same_op (op op' : Operand) : Prop :=
  match op, op' with
  | OReg q, OReg q' => regno q' = regno q
  | OMem a, OMem a' => a_e a' = a_e a /\ a_op a' = a_op a /\ mem_ok a'
  | _, _ => False end.
(* an operand of a file, or memory *)
Definition op_in (k2 : option okind) (op : Operand) : Prop :=
  match k2, op with Some k, OReg q => in_file k q | None, OMem a => mem_ok a | _, _ => False end.

Inductive src := SReg | SRm.
Definition okind_eqb (a b : okind) : bool :=
  match a, b with KG, KG | KX, KX | KM, KM | KB, KB => true | _, _ => false end.
Definition at_reg (p : place) : bool := match p with InReg => true | _ => false end.
Definition at_rm (p : place) : bool := match p with InRm => true | _ => false end.
Definition reg_is (o : oper) (k : okind) : bool := match o_reg o with Some k' => okind_eqb k' k | None => false end.
Fixpoint all2 {A B} (f : A -> B -> bool) (l : list A) (m : list B) : bool :=
  match l, m with [], [] => true | x :: l, y :: m => f x y && all2 f l m | _, _ => false end.
(* k1, b1: file and width of the operand in ModRM.reg; b1', W1: width of r' and whether it is a 64-bit general
   register; k2 (None: memory), b2: of the operand in ModRM.rm; b2', W2: as passed *)
Definition src_ok (w : Z) (k1 : okind) (b1 : Z) (k2 : option okind) (b2 : Z) (o : oper) (x : src) : bool :=
  match x with
  | SReg => at_reg (o_at o) && reg_is o k1 && size_isb (o_size o) w b1 && negb (b1 =? 8)
  | SRm => at_rm (o_at o) && match k2 with
             | Some k => reg_is o k && size_isb (o_size o) w b2 && negb (b2 =? 8)
             | None => o_mem o && ((b2 =? 0) || size_isb (o_size o) w b2) end
  end.
Definition sizedb (row : lrow) (w b1 b2 : Z) (srcs : list src) : bool :=
  (w =? 0) || existsb (fun p => is_sv (o_size (fst p)) && (match snd p with SReg => b1 | SRm => b2 end =? w)) (combine (l_ops row) srcs).
Definition digit_ok (row : lrow) (dg : option Z) : bool :=
  match l_digit row, dg with None, None => true | Some d, Some d' => d =? d' | _, _ => false end.
Definition rok (srcs : list src) (dg : option Z) (k1 : okind) (b1 b1' : Z) (W1 : bool) (k2 : option okind) (b2 b2' : Z) (W2 : bool)
    (type code w : Z) (row : lrow) : bool :=
  all2 (src_ok w k1 b1 k2 b2) (l_ops row) srcs && digit_ok row dg
  && sizedb row w b1 b2 srcs && hdb row w type code b1' b2' (W2 || W1).

Definition arg_of (r : Reg) (op : Operand) (x : src) : Operand := match x with SReg => OReg r | SRm => op end.

Lemma okind_eqb_ok a b : okind_eqb a b = true -> a = b. Proof. destruct a, b; discriminate || reflexivity. Qed.
Lemma reg_is_ok o k : reg_is o k = true -> o_reg o = Some k.
Proof. unfold reg_is. destruct (o_reg o); [|discriminate]. intros H. apply okind_eqb_ok in H. now subst. Qed.

Lemma combine_sized w k1 r op k2 : forall l srcs,
  all2 (src_ok w k1 (bit_ r) k2 (bit_ (ob op))) l srcs = true ->
  existsb (fun p => is_sv (o_size (fst p)) && (match snd p with SReg => bit_ r | SRm => bit_ (ob op) end =? w)) (combine l srcs) = true ->
  Exists (fun p => o_size (fst p) = Sv /\ bit_ (ob (snd p)) = w) (combine l (map (arg_of r op) srcs)).
Proof.
  induction l as [|o l IH]; intros [|x srcs] A H; cbn [all2 combine map existsb] in *; try discriminate.
  apply andb_prop in A as [_ A]. apply orb_prop in H as [H|H].
  - apply Exists_cons_hd. cbn [fst snd] in *. apply andb_prop in H as [H1 H2]. split; [destruct (o_size o); auto; discriminate|].
    destruct x; cbn [arg_of ob]; lia.
  - apply Exists_cons_tl. auto.
Qed.

Lemma call_says s row srcs dg k1 k2 r r' op op' type code w env pos i1 u imm tail rest :
  (In SReg srcs -> in_file k1 r /\ regno r' = regno r) -> (isREG r' = false -> bit4 r' = false) ->
  (forall d, dg = Some d -> regno r' = d) ->
  op_in k2 op -> same_op op op' -> match op' with OReg q => isREG q = false -> bit4 q = false | _ => True end ->
  emits (call r' op' type code) env pos i1 u ->
  rok srcs dg k1 (bit_ r) (bit_ r') (isREGb r' 64) k2 (bit_ (ob op)) (bit_ (ob op')) (match op' with OReg q => isREGb q 64 | _ => false end) type code w row = true ->
  imm_ok (l_imm row) w imm tail ->
  lsays row (map (arg_of r op) srcs) imm (render s i1 ++ tail) rest.
Proof.
  intros F1 B4 D F2 So B4' H C I. unfold rok in C. do 3 (apply andb_prop in C as [C ?]).
  rename H0 into Hh. rename H1 into Hs. rename H2 into Hd.
  assert (DG : forall d, l_digit row = Some d -> regno r' = d).
  { intros d E. unfold digit_ok in Hd. rewrite E in Hd. destruct dg as [d'|]; [|discriminate]. apply D. f_equal. lia. }
  assert (SZ : sized row w (map (arg_of r op) srcs)).
  { unfold sized. unfold sizedb in Hs. apply orb_prop in Hs as [Hs|Hs]; [left; lia|right]. eapply combine_sized; eauto. }
  assert (FA : forall h rm, (match op with OReg q => rm = RReg (regno q) (regno q) | OMem a => exists m, rm = RMem m /\ denotes (a_e a) h m end) ->
     Forall2 (oper_ok w h (regno r') (Some rm)) (l_ops row) (map (arg_of r op) srcs)).
  { intros h rm Hrm. clear - C F1 F2 Hrm.
    assert (forall l, all2 (src_ok w k1 (bit_ r) k2 (bit_ (ob op))) l srcs = true ->
       Forall2 (oper_ok w h (regno r') (Some rm)) l (map (arg_of r op) srcs)); [|auto]. clear C.
    revert F1. induction srcs as [|x srcs IH]; intros F1 [|o l] A; cbn [all2 map] in *; try discriminate; [apply Forall2_nil|].
    apply andb_prop in A as [A A']. apply Forall2_cons; [|apply IH; auto; intros; apply F1; now right].
    destruct x; cbn [arg_of src_ok] in *.
    - destruct (F1 (or_introl eq_refl)) as [F R]. do 3 (apply andb_prop in A as [A ?]). unfold oper_ok.
      apply reg_is_ok in H1. destruct (o_at o); try discriminate A. split; [eauto|]. split; [apply size_isb_ok; auto|]. split; [auto|]. intros; lia.
    - apply andb_prop in A as [A A2]. destruct (o_at o) eqn:At; try discriminate A. unfold op_in in F2. destruct k2 as [k|], op as [q|a]; try contradiction; cbn [ob] in *.
      + do 2 (apply andb_prop in A2 as [A2 ?]). apply reg_is_ok in A2. unfold oper_ok. rewrite At. split; [eauto|]. split; [apply size_isb_ok; auto|].
        split; [subst; auto|]. intros; lia.
      + apply andb_prop in A2 as [A2 A3]. unfold oper_ok. rewrite At. split; auto. split; auto. split.
        * apply orb_prop in A3 as [A3|A3]; [left; lia|right; apply size_isb_ok; auto].
        * destruct Hrm as (m & -> & Dn). eauto. }
  unfold call in H. unfold same_op in So. destruct op as [q|a], op' as [q'|a']; try contradiction.
  - apply (leaf_rr s row w type code r' q' env pos i1 u); auto. intros h _. rewrite So. apply FA. reflexivity.
  - destruct So as (Ee & Eo & Om). apply (leaf_mr s row w type code a' r' env pos i1 u); auto.
    intros h m _ Dn. apply FA. exists m. split; auto. rewrite <- Ee. exact Dn.
Qed.

(* the call with any row of a list *)
Definition ws : list Z := [0; 16; 32; 64].
Definition noimm (k : immk) : bool := match k with I_none | I_8 => true | _ => false end.
Definition rows_ok (ik : immk) (srcs : list src) (dg : option Z) (k1 : okind) (b1 b1' : Z) (W1 : bool) (k2 : option okind) (b2 b2' : Z) (W2 : bool)
    (type code : Z) (rows : list lrow) : bool :=
  existsb (fun row => (match ik, l_imm row with I_none, I_none | I_8, I_8 => true | _, _ => false end)
                      && existsb (fun w => rok srcs dg k1 b1 b1' W1 k2 b2 b2' W2 type code w row) ws) rows.
Lemma rows_says s rows ik srcs dg k1 k2 r r' op op' type code env pos i1 u imm tail rest :
  (In SReg srcs -> in_file k1 r /\ regno r' = regno r) -> (isREG r' = false -> bit4 r' = false) ->
  (forall d, dg = Some d -> regno r' = d) ->
  op_in k2 op -> same_op op op' -> match op' with OReg q => isREG q = false -> bit4 q = false | _ => True end ->
  emits (call r' op' type code) env pos i1 u ->
  rows_ok ik srcs dg k1 (bit_ r) (bit_ r') (isREGb r' 64) k2 (bit_ (ob op)) (bit_ (ob op')) (match op' with OReg q => isREGb q 64 | _ => false end) type code rows = true ->
  (forall w, imm_ok ik w imm tail) ->
  Exists (fun row => lsays row (map (arg_of r op) srcs) imm (render s i1 ++ tail) rest) rows.
Proof.
  intros F1 B4 D F2 So B4' H C I. unfold rows_ok in C. apply existsb_exists in C as (row & Hin & C). apply andb_prop in C as [Ci C].
  apply existsb_exists in C as (w & _ & C). apply Exists_exists. exists row. split; auto.
  eapply call_says; eauto. destruct ik, (l_imm row); try discriminate Ci; apply I.
Qed.

(* opRO *)
Lemma opRO_call r op type code c n env pos its u : emits (opRO r op type code c n) env pos its u ->
  (match op with OMem a => mem_ok a | _ => True end) ->
  exists op', same_op op op' /\ emits (call r op' type code) env pos its u /\ bit_ (ob op') = bit_ (ob op)
    /\ match op' with OReg q => op = OReg q | _ => True end.
Proof.
  intros H M. apply opRO_cond in H as [H _]. unfold opRO in H. apply emits_fn in H. destruct op as [q|a].
  - exists (OReg q). repeat split; auto. destruct H; auto. destruct H; auto.
  - exists (OMem (set_immSize a n)). split; [split; [reflexivity|split; [reflexivity|apply set_imm_ok; auto]]|]. split; [exact H|auto].
Qed.
(* widths that opRR / opMR accept *)
Definition size_okb (type : Z) (reg1 : bool) (b1' : Z) (k2 : option okind) (b2 : Z) : bool :=
  has type T_ALLOW_DIFF_SIZE
  || match k2 with None => negb (b1' <=? 64) || (b2 =? 0) || (b2 =? b1') | Some k => negb (reg1 && is_KG k) || (b1' =? b2) end.
Lemma call_size r op type code env pos its u k2 :
  emits (call r op type code) env pos its u -> op_in k2 op -> size_okb type (isREG r) (bit_ r) k2 (bit_ (ob op)) = true.
Proof.
  intros H F. unfold size_okb. destruct (has type T_ALLOW_DIFF_SIZE) eqn:Df; [reflexivity|]. cbn [orb].
  unfold call in H. unfold op_in in F. destruct k2 as [k|], op as [q|a]; try contradiction; cbn [ob].
  - destruct (isREG r) eqn:R; [|reflexivity]. destruct k; try reflexivity. cbn [is_KG andb negb orb]. apply Z.eqb_eq.
    eapply opRR_size; eauto. unfold isREG, is_. destruct F as [-> _]. reflexivity.
  - destruct (bit_ r <=? 64) eqn:Q; cbn [negb orb]; auto. destruct (bit_ (a_op a) =? 0) eqn:Z0; cbn [orb]; auto. apply Z.eqb_eq.
    apply (opMR_size _ _ _ _ _ _ _ _ H Df); [lia|]. pose proof (mo_size _ F) as Sz. cbn in Sz. lia.
Qed.

(* the same, over all widths.  st: None if the operand itself is passed, or the width of the general register passed
   in its place; regs, mems: the admissible operands in ModRM.rm *)
Definition gchk (rows : list lrow) (ik : immk) (srcs : list src) (dg : option Z) (k1 : okind) (bits1 : list Z) (st : option Z)
    (type code : Z) (regs : list (okind * list Z)) (mems : list Z) : bool :=
  forallb (fun b1 =>
    let b1' := match st with Some b => b | None => b1 end in
    let g := match st with Some _ => true | None => is_KG k1 end in
    let one k2 b2 := negb (size_okb type g b1' k2 b2)
         || rows_ok ik srcs dg k1 b1 b1' (g && (b1' =? 64)) k2 b2 b2 (match k2 with Some KG => b2 =? 64 | _ => false end) type code rows in
    forallb (fun kb => forallb (one (Some (fst kb))) (snd kb)) regs && forallb (one None) mems) bits1.
Definition op_among (regs : list (okind * list Z)) (mems : list Z) (op : Operand) : Prop :=
  match op with
  | OReg q => exists k bs, In (k, bs) regs /\ in_file k q /\ In (bit_ q) bs
  | OMem a => mem_ok a /\ In (bit_ (a_op a)) mems
  end.
Definition stands (st : option Z) (k1 : okind) (r r' : Reg) : Prop :=
  match st with
  | None => bit_ r' = bit_ r /\ isREG r' = is_KG k1 /\ isREGb r' 64 = is_KG k1 && (bit_ r =? 64) /\ regno r' = regno r /\ (isREG r' = false -> bit4 r' = false)
  | Some b => bit_ r' = b /\ isREG r' = true /\ isREGb r' 64 = (b =? 64) /\ regno r' = regno r
  end.
Lemma in_file_REG k r : in_file k r -> isREG r = is_KG k.
Proof. unfold isREG, is_. destruct k; cbn [in_file]; [intros (-> & _)|intros (-> & _)..]; reflexivity. Qed.
Lemma stands_same k1 r : in_file k1 r -> stands None k1 r r.
Proof.
  intros F1. unfold stands. split; [auto|]. split; [apply in_file_REG; auto|]. split; [rewrite (in_file_REGb _ _ F1); destruct k1; reflexivity|].
  split; [auto|]. eapply in_file_bit4; eauto.
Qed.
Lemma gen_says s rows ik srcs dg k1 bits1 st type code regs mems r r' op op' env pos i1 u imm tail rest :
  gchk rows ik srcs dg k1 bits1 st type code regs mems = true ->
  (dg = None -> in_file k1 r) -> (dg <> None -> st <> None /\ ~ In SReg srcs) -> In (bit_ r) bits1 -> stands st k1 r r' -> (forall d, dg = Some d -> regno r' = d) ->
  op_among regs mems op -> same_op op op' -> bit_ (ob op') = bit_ (ob op) -> match op' with OReg q => op = OReg q | _ => True end ->
  emits (call r' op' type code) env pos i1 u ->
  (forall w, imm_ok ik w imm tail) ->
  Exists (fun row => lsays row (map (arg_of r op) srcs) imm (render s i1 ++ tail) rest) rows.
Proof.
  intros C F1 FD B1 St D Op So Bo Eo H I.
  assert (K2 : exists k2, op_in k2 op /\ op_in k2 op' /\ match op' with OReg q => isREG q = false -> bit4 q = false | _ => True end
     /\ (match op' with OReg q => isREGb q 64 | _ => false end) = (match k2 with Some KG => bit_ (ob op) =? 64 | _ => false end)
     /\ (match k2 with Some k => exists bs, In (k, bs) regs /\ In (bit_ (ob op)) bs | None => In (bit_ (ob op)) mems end)).
  { destruct op as [q|a], op' as [q'|a']; try contradiction.
    - injection Eo as <-. destruct Op as (k & bs & Hin & Fk & Hb). exists (Some k). cbn. repeat split; auto.
      + eapply in_file_bit4; eauto.
      + rewrite (in_file_REGb _ _ Fk). destruct k; reflexivity.
      + eauto.
    - destruct Op as [M Hb]. exists None. destruct So as (? & ? & ?). cbn. auto. }
  destruct K2 as (k2 & O2 & O2' & B4' & W2 & Among).
  assert (ST : bit_ r' = (match st with Some b => b | None => bit_ r end)
     /\ isREG r' = (match st with Some _ => true | None => is_KG k1 end)
     /\ isREGb r' 64 = ((match st with Some _ => true | None => is_KG k1 end) && ((match st with Some b => b | None => bit_ r end) =? 64))
     /\ regno r' = regno r /\ (isREG r' = false -> bit4 r' = false)).
  { unfold stands in St. destruct st as [b|].
    - destruct St as (? & R & ? & ?). rewrite R. repeat split; auto. discriminate.
    - tauto. }
  destruct ST as (Sb & Sr & Sw & Sn & S4).
  unfold gchk in C. rewrite forallb_forall in C. specialize (C _ B1). cbv beta zeta in C. apply andb_prop in C as [Cr Cm].
  pose proof (call_size _ _ _ _ _ _ _ _ _ H O2') as SZ. rewrite Bo, Sr, Sb in SZ.
  assert (RK : rows_ok ik srcs dg k1 (bit_ r) (bit_ r') (isREGb r' 64) k2 (bit_ (ob op)) (bit_ (ob op')) (match op' with OReg q => isREGb q 64 | _ => false end) type code rows = true).
  { rewrite W2, Sb, Sw, Bo. destruct k2 as [k|].
    - destruct Among as (bs & Hin & Hb). rewrite forallb_forall in Cr. specialize (Cr _ Hin). cbn [fst snd] in Cr.
      rewrite forallb_forall in Cr. specialize (Cr _ Hb). cbv beta in Cr. rewrite SZ in Cr. exact Cr.
    - rewrite forallb_forall in Cm. specialize (Cm _ Among). cbv beta in Cm. rewrite SZ in Cm. exact Cm. }
  eapply rows_says; eauto.
  - intros HS. destruct dg as [d|]; [destruct (FD ltac:(discriminate)) as [_ X]; contradiction|]. auto.
Qed.

(* a prefix 66 / F2 / F3 emitted first *)
Definition set_pp (p : ppfx) (row : lrow) : lrow := mkL p (l_map row) (l_opc row) (l_modrm row) (l_digit row) (l_ops row) (l_osz row) (l_imm row).
Definition add_pfx (p : ppfx) (q : prefixes) : prefixes :=
  match p with
  | NP => q
  | P66 => mkPfx true (p_67 q) (p_F2 q) (p_F3 q) (p_lock q) (p_seg q)
  | PF2 => mkPfx (p_66 q) (p_67 q) true (p_F3 q) (p_lock q) (p_seg q)
  | PF3 => mkPfx (p_66 q) (p_67 q) (p_F2 q) true (p_lock q) (p_seg q)
  end.
Definition pp_byte (p : ppfx) : Z := match p with NP => 0 | P66 => 0x66 | PF2 => 0xF2 | PF3 => 0xF3 end.
Lemma step_add p q b : prefix_step (add_pfx p q) b = option_map (add_pfx p) (prefix_step q b).
Proof.
  unfold prefix_step. destruct p; cbn [add_pfx p_66 p_67 p_F2 p_F3 p_lock p_seg];
  repeat match goal with |- context [if ?c then _ else _] => destruct c; [reflexivity|] end; reflexivity.
Qed.
Lemma scan_add p bs : forall q, scan_prefixes (add_pfx p q) bs = (add_pfx p (fst (scan_prefixes q bs)), snd (scan_prefixes q bs)).
Proof.
  induction bs as [|b bs IH]; intros q; cbn [scan_prefixes]; [reflexivity|]. rewrite step_add.
  destruct (prefix_step q b); cbn [option_map]; [apply IH|reflexivity].
Qed.
Definition add_hdr (p : ppfx) (h : header) : header :=
  mkHeader (h_66 h || pp_is p P66) (h_67 h) (h_F2 h || pp_is p PF2) (h_F3 h || pp_is p PF3) (h_lock h) (h_seg h) (h_space h) (h_rex h) (h_map h) (h_pp h) (h_W h)
    (h_R h) (h_X h) (h_B h) (h_V h) (h_vbit4 h) (h_L h) (h_b h) (h_z h) (h_aaa h) (h_u h) (h_nd h) (h_nf h) (h_sc h) (h_opc h).
Lemma leg_add p q rex map W R X B o : leg_header (add_pfx p q) rex map W R X B o = add_hdr p (leg_header q rex map W R X B o).
Proof. destruct p, q; unfold leg_header, add_hdr; cbn; rewrite ?orb_true_r, ?orb_false_r; reflexivity. Qed.
Lemma dec_add p bs h r : pp_is p NP = false -> dec_header bs = Some (h, r) -> h_space h = Legacy -> dec_header (pp_byte p :: bs) = Some (add_hdr p h, r).
Proof.
  intros N H L. unfold dec_header in *.
  assert (S1 : scan_prefixes pfx0 (pp_byte p :: bs) = (add_pfx p (fst (scan_prefixes pfx0 bs)), snd (scan_prefixes pfx0 bs))).
  { rewrite <- scan_add. destruct p; try discriminate N; reflexivity. }
  rewrite S1. destruct (scan_prefixes pfx0 bs) as [q l]. cbn [fst snd]. destruct l as [|b l]; [discriminate|].
  repeat match type of H with
  | (if ?c then _ else _) = _ => destruct c eqn:?
  | match ?l with _ => _ end = _ => destruct l eqn:?; try discriminate H
  | Some _ = Some _ => injection H as <- <-; cbn in L; try discriminate L
  end; try discriminate H; try reflexivity;
  unfold dec_legacy in *;
  repeat match goal with
  | H : match ?l with _ => _ end = Some _ |- _ => destruct l as [[[? ?] ?]|] eqn:?; try discriminate H; injection H as <- <-
  end; rewrite ?leg_add; try reflexivity. cbn [orb]. rewrite andb_false_r. reflexivity.
Qed.
Lemma denotes_add p e h m : denotes e h m -> denotes e (add_hdr p h) m.
Proof. intros H. exact H. Qed.
Lemma oper_add p w h reg rm o op : oper_ok w h reg rm o op -> oper_ok w (add_hdr p h) reg rm o op.
Proof. unfold oper_ok. destruct op; auto. Qed.
Lemma pre_says p row ops imm bs rest : pp_is p NP = false -> l_pp row = NP -> lsays row ops imm bs rest ->
  lsays (set_pp p row) ops imm (pp_byte p :: bs) rest.
Proof.
  intros N P (w & h & reg & rm & opc & tail & D & Hd & Dg & F & Sz & I). destruct Hd as (L & W1 & H66 & HF2 & HF3 & Lk & Sg & Mp & WW & Oc).
  exists w, (add_hdr p h), reg, rm, opc, tail. split; [|split].
  - unfold set_pp. cbn [l_modrm l_ops]. destruct (l_modrm row).
    + destruct D as [(q & Hq & D) Ho]. split; [|exact Ho]. exists q. split; auto. cbn [app]. unfold decode in *.
      destruct (dec_header (bs ++ rest)) as [[h0 r0]|] eqn:DH; [|discriminate].
      assert (h0 = h) as -> by (destruct (dec_rm h0 false _ r0) as [[[? ?] ?]|]; [injection D as <- _ _ _; reflexivity|discriminate]).
      rewrite (dec_add p _ h r0 N DH L). change (h_space (add_hdr p h)) with (h_space h).
      change (dec_rm (add_hdr p h)) with (dec_rm h). destruct (dec_rm h false _ r0) as [[[? ?] ?]|]; [|discriminate]. now injection D as -> -> ->.
    + destruct D as (D & Hr & Ho). split; [|split; [exact Hr|exact Ho]]. cbn [app]. apply dec_add; auto.
  - unfold lhead, set_pp. cbn [l_pp l_osz l_map l_opc add_hdr h_space h_66 h_F2 h_F3 h_lock h_seg h_map h_W].
    repeat split; auto; rewrite ?H66, ?HF2, ?HF3, P; destruct p; try discriminate N; cbn; rewrite ?orb_true_r, ?orb_false_r; reflexivity.
  - cbn [set_pp l_digit l_ops l_imm]. split; [exact Dg|]. split; [|split; [exact Sz|exact I]].
    clear - F. cbn [set_pp l_ops]. induction F; constructor; auto; now apply oper_add.
Qed.
