(* More shapes of MixTables.v: opRO without checks, digits with registers, stand-ins, addresses copied by the method. *)
From Coq Require Import ZArith List Bool String Lia.
From Verif Require Import Base Types Emit Encode Mnemonic SpecX86 SpecAddr SpecIsa SpecInsn SpecLeg SpecMix Wf EmitFacts BitFacts MemFacts LegacyFacts VexFacts EncThms LegFacts LegShapes LegGpr LegGpr2 LegGpr3 SseFacts SseShapes MixTac.
Import ListNotations.
Open Scope Z_scope.

Lemma among_mem c a : no_any c = true -> marg_ok c (OMem a) -> op_among (cregs c) (cmems c) (OMem a).
Proof.
  induction c; cbn [no_any marg_ok cregs cmems]; intros N H; try discriminate N; try contradiction.
  - exact H.
  - apply andb_prop in N as [N1 N2]. destruct H as [H|H]; [apply among_app_l|apply among_app_r]; auto.
  - apply IHc; auto. apply H.
Qed.

(* ---- opRO ---- *)
Lemma e_ro2 name fn srcs c1 c2 rows type code act :
  fn_is fn srcs act ->
  (forall r op imm env pos its u, marg_ok c1 (OReg r) -> marg_ok c2 op -> emits (act r op imm) env pos its u ->
     isValidSSE (OReg r) = true /\ (isMEM op = false -> isValidSSE op = true) /\ exists c n, emits (opRO r op type code c n) env pos its u) ->
  sse_chk rows None srcs c1 c2 type code = true ->
  mimplements (mkME name (map (pick c1 c2) srcs) fn rows).
Proof.
  intros Fn A C s ops imm act' env pos its rest u Hf Ha Hb Hi H. cbn [me_sig me_fun me_rows] in *.
  unfold sse_chk in C. do 5 (apply andb_prop in C as [C ?]).
  apply two_args in Ha as (r & op & -> & A1 & A2); auto. apply Fn in Hf. subst act'. apply A in H as (V & V2 & c & n & H); auto.
  destruct (among_reg _ _ H3 A1 V) as (k1 & bs & Hin & F1 & B1). rewrite forallb_forall in H0. specialize (H0 _ Hin). cbn [fst snd] in H0.
  rewrite <- (app_nil_r (render s its)). eapply ro_gen; eauto.
  - now apply stands_same.
  - destruct op; [apply among; auto|apply among_mem; auto].
  - intros w. apply imm_none_ok.
Qed.
Lemma valid_bnd r : marg_ok aB (OReg r) -> isValidSSE (OReg r) = true.
Proof. intros (K & _). unfold isValidSSE, oXMM, isXMM, is_. cbn [ob]. rewrite K. reflexivity. Qed.
Lemma valid_mmx r : marg_ok aMm (OReg r) -> isValidSSE (OReg r) = true.
Proof. intros (K & _). unfold isValidSSE, oXMM, isXMM, is_. cbn [ob]. rewrite K. reflexivity. Qed.
Lemma valid_gpr r : gpr r -> isValidSSE (OReg r) = true.
Proof. intros [K _]. unfold isValidSSE, oXMM, isXMM, is_. cbn [ob]. rewrite K. reflexivity. Qed.

(* ---- digits ---- *)
Lemma dgop_gen s rows ik d b type code regs mems op op' env pos i1 u imm tail rest :
  gchk rows ik [SRm] (Some d) KG [b] (Some b) type code regs mems = true -> 0 <= d < 32 -> b = 16 \/ b = 32 \/ b = 64 ->
  op_among regs mems op -> same_op op op' -> bit_ (ob op') = bit_ (ob op) -> match op' with OReg q => op = OReg q | _ => True end ->
  emits (call (regOf d REG b false) op' type code) env pos i1 u -> (forall w, imm_ok ik w imm tail) ->
  Exists (fun row => lsays row [op] imm (render s i1 ++ tail) rest) rows.
Proof.
  intros C D B Op So Bo Eo H I.
  assert (Bb : bit_ (regOf d REG b false) = b) by (destruct B as [->|[->| ->]]; reflexivity).
  assert (Rn : regno (regOf d REG b false) = d).
  { unfold regno, regOf. cbn [idx_]. rewrite Z.lor_0_r. rewrite (Z.mod_small d 64) by lia. apply Z.mod_small. lia. }
  change [op] with (map (arg_of (regOf d REG b false) op) [SRm]).
  eapply (gen_says s rows ik [SRm] (Some d) KG [b] (Some b) type code regs mems _ (regOf d REG b false) op op'); eauto.
  - discriminate.
  - intros _. split; [discriminate|]. intros [Q|[]]. discriminate Q.
  - rewrite Bb. cbn. auto.
  - cbn [stands]. rewrite Bb. destruct B as [->|[->| ->]]; repeat split; auto.
  - intros d' [= <-]. auto.
Qed.
Definition dr_chk (rows : list lrow) (i : option bool) (d b type code : Z) (c : mcls) : bool :=
  (0 <=? d) && (d <? 32) && ((b =? 16) || (b =? 32) || (b =? 64)) && no_any c && imms_ok i rows
  && gchk rows (ik_of i) [SRm] (Some d) KG [b] (Some b) type code (cregs c) (cmems c).
Lemma imms_in i imm rows : imms_ok i rows = true -> Forall (fun row => imm_in (l_imm row) imm) rows -> i <> None -> 0 <= imm < 256.
Proof.
  unfold imms_ok. intros H F N. apply andb_prop in H as [E0 C]. destruct rows as [|row rows]; [discriminate E0|]. cbn [forallb] in C. apply andb_prop in C as [C _].
  inversion F; subst. destruct i; [|congruence]. destruct (l_imm row); try discriminate C. exact H1.
Qed.
(* one register, digit; the bytes after opRR are the immediate *)
Lemma e_dgr name fn c rows i d b type code act :
  (forall r imm a, fn [OReg r] imm = Some a -> a = act r imm) ->
  reg_cls c = true ->
  (forall s r imm env pos its u, (i <> None -> 0 <= imm < 256) -> marg_ok c (OReg r) -> emits (act r imm) env pos its u ->
     isValidSSE (OReg r) = true /\ exists i1 u1, render s its = render s i1 ++ imm_tail (imm_arg i imm)
       /\ emits (opRR (regOf d REG b false) r type code) env pos i1 u1) ->
  dr_chk rows i d b type code c = true ->
  mimplements (mkME name [c] fn rows).
Proof.
  intros Fn Rc A C s ops imm act' env pos its rest u Hf Ha Hb Hi H. cbn [me_sig me_fun me_rows] in *.
  unfold dr_chk in C. do 5 (apply andb_prop in C as [C ?]).
  inversion Ha as [|? o1 ? l1 H5 H6]; subst. inversion H6; subst. destruct (reg_cls_reg _ _ Rc H5) as [r ->].
  apply Fn in Hf. subst act'. destruct (A s _ _ _ _ _ _ (imms_in _ _ _ H1 Hi) H5 H) as (V & i1 & u1 & -> & H'). destruct u1.
  eapply (dgop_gen s rows (ik_of i) d b type code (cregs c) (cmems c) (OReg r) (OReg r)); eauto; try lia.
  - now apply among.
  - reflexivity.
  - eapply imms_ret; eauto.
Qed.

(* ---- the operand in ModRM.rm is replaced by the method ---- *)
Lemma clone_ok a : mem_ok a -> mem_ok (cloneNoOptimize a).
Proof. intros [[] ]. constructor; auto. constructor; auto. Qed.
(* every case with its own call *)
Lemma e_call name fn srcs c1 c2 rows act :
  fn_is fn srcs act -> two srcs = true -> reg_cls c1 = true -> imms_ok None rows = true ->
  (forall r op imm env pos its u, marg_ok c1 (OReg r) -> marg_ok c2 op -> emits (act r op imm) env pos its u ->
     exists k1 k2 r' op' type code,
       (in_file k1 r /\ regno r' = regno r) /\ (isREG r' = false -> bit4 r' = false) /\ op_in k2 op /\ same_op op op'
       /\ (match op' with OReg q => isREG q = false -> bit4 q = false | _ => True end)
       /\ emits (call r' op' type code) env pos its u
       /\ rows_ok I_none srcs None k1 (bit_ r) (bit_ r') (isREGb r' 64) k2 (bit_ (ob op)) (bit_ (ob op')) (match op' with OReg q => isREGb q 64 | _ => false end) type code rows = true) ->
  mimplements (mkME name (map (pick c1 c2) srcs) fn rows).
Proof.
  intros Fn T R Im A s ops imm act' env pos its rest u Hf Ha Hb Hi H. cbn [me_sig me_fun me_rows] in *.
  apply two_args in Ha as (r & op & -> & A1 & A2); auto. apply Fn in Hf. subst act'.
  destruct (A _ _ _ _ _ _ _ A1 A2 H) as (k1 & k2 & r' & op' & type & code & F1 & B4 & O2 & So & B4' & H' & C).
  rewrite <- (app_nil_r (render s its)). eapply rows_says; eauto; [intros d Q; discriminate Q|]. intros w. apply imm_none_ok.
Qed.
(* cvt32 *)
Lemma cvt32_gpr r env pos its r' : gpr r -> In (bit_ r) [32; 64] -> emits (cvt32 r) env pos its r' ->
  its = [] /\ regno r' = regno r /\ bit_ r' = 32 /\ isREG r' = true /\ isREGb r' 64 = false /\ NF_ r' = false /\ ZU_ r' = false.
Proof.
  intros G B H. unfold cvt32 in H. ebind H i1 i2 q Hq Hr. apply emits_ret in Hr as [-> ->].
  apply changeBit_gpr in Hq as (-> & _ & R & _); [|exact G|cbn in B; destruct B as [<-|[<-|[]]]; auto].
  split; [reflexivity|]. split; [|auto 6]. rewrite regno_getIdx, R. pose proof (regno_range r).
  unfold regno at 1. unfold Reg32, regOf. cbn [idx_]. rewrite Z.lor_0_r, (Z.mod_small _ 64) by lia. apply Z.mod_small. lia.
Qed.

(* ---- bound registers: opRext with the number of the register as the digit ---- *)
Definition bnd_chk (rows : list lrow) (type code : Z) (mems : list Z) : bool :=
  negb (has type T_APX) && imms_ok None rows
  && forallb (fun b => rows_ok I_none [SReg; SRm] None KB 128 32 false (Some KG) b 32 false (type ||| T_ALLOW_ABCDH) code rows) [32; 64]
  && forallb (fun b => rows_ok I_none [SReg; SRm] None KB 128 b (has b 64) None b b false type code rows) mems.
Lemma e_bndc name f rows type code mems :
  (forall r op, f r op = opRext op i32e (getIdx r) type code (negb (isMEM op)) 0 None) -> bnd_chk rows type code mems = true ->
  mimplements (mkME name [aB; aOr (aR [8; 16; 32; 64]) (aM mems)] (f_ro f) rows).
Proof.
  intros Fn C. unfold bnd_chk in C. do 3 (apply andb_prop in C as [C ?]). apply negb_true_iff in C.
  refine (e_call _ _ [SReg; SRm] aB (aOr (aR [8; 16; 32; 64]) (aM mems)) _ (on_op f) _ _ _ _ _); [fnis2|reflexivity|reflexivity|auto|].
  intros r op imm env pos its u A1 A2 H2. unfold on_op in H2. rewrite Fn in H2. unfold opRext in H2. apply emits_fn in H2. cbv zeta in H2. rewrite C in H2.
  cbn [andb] in H2. ebind H2 j1 j2 d Hd Hn. apply emits_ret in Hd as [-> ->]. cbn [app items_size] in *. rewrite Z.add_0_r in Hn.
  assert (F1 : in_file KB r) by exact A1. destruct A1 as (K & B & I0).
  assert (Gi : getIdx r = regno r) by apply regno_getIdx. assert (Rr : 0 <= regno r < 8) by (unfold regno; rewrite Z.mod_small; lia). rewrite Gi in Hn.
  destruct op as [q|a].
  - destruct A2 as [[G Bq]|[]]. cbn [isMEM negb andb] in Hn. destruct (isREGb q i32e) eqn:Q; [|einv Hn].
    pose proof (gpr_i32e _ G Q) as B2. ebind Hn k1 k2 q' Hq Hr. change (ogetBit (OReg q)) with (bit_ q) in *.
    set (wb := if bit_ q =? 64 then 32 else bit_ q) in *. assert (W : wb = 32) by (unfold wb; cbn in B2; destruct B2 as [<-|[<-|[]]]; reflexivity).
    apply changeBit_gpr in Hq as (-> & _ & R & Bq' & Kq & Rq); auto; [|unfold wb; destruct (bit_ q =? 64) eqn:Q6; auto; right; split; [lia|reflexivity]].
    cbn [app items_size] in *. rewrite Z.add_0_r in Hr. rewrite W in Hr, Bq'.
    destruct (regOf_small (regno r) 32 Rr ltac:(lia)) as (E1 & E2 & E3 & E4 & E5).
    exists KB, (Some KG), (regOf (regno r) REG 32 false), (OReg q'), (type ||| T_ALLOW_ABCDH), code.
    split; [split; auto|]. split; [discriminate|]. split; [exact G|]. split; [exact R|]. split; [congruence|]. split; [exact Hr|].
    cbn [ob]. rewrite Bq', B. rewrite E5. replace (isREGb q' 64) with false by (unfold isREGb, is_; rewrite Kq, Bq'; reflexivity).
    change (isREGb (regOf (regno r) REG 32 false) 64) with false.
    rewrite forallb_forall in H0. exact (H0 _ B2).
  - destruct A2 as [[]|[M Sz]]. cbn [isMEM negb andb] in Hn. change (ogetBit (OMem a)) with (bit_ (a_op a)) in Hn.
    assert (Hw : 0 <= bit_ (a_op a) < 16384) by (apply mem_bits; auto).
    destruct (regOf_small (regno r) (bit_ (a_op a)) Rr Hw) as (E1 & E2 & E3 & E4 & E5).
    exists KB, None, (regOf (regno r) REG (bit_ (a_op a)) false), (OMem (set_immSize a 0)), type, code.
    split; [split; auto|]. split; [discriminate|]. split; [exact M|]. split; [split; [reflexivity|split; [reflexivity|apply set_imm_ok; auto]]|].
    split; [exact Logic.I|]. split; [exact Hn|]. cbn [ob]. change (a_op (set_immSize a 0)) with (a_op a). rewrite E5, (regOf_W _ _ Hw), B.
    rewrite forallb_forall in H. exact (H _ Sz).
Qed.
(* ---- opMIB ---- *)
Definition mib_chk (rows : list lrow) (srcs : list src) (type code : Z) (mems : list Z) : bool :=
  two srcs && imms_ok None rows && forallb (fun b => rows_ok I_none srcs None KB 128 128 false None b b false type code rows) mems.
Lemma e_mib name fn srcs rows type code mems act :
  fn_is fn srcs act -> (forall a r imm, act r (OMem a) imm = opMIB a r type code) -> mib_chk rows srcs type code mems = true ->
  mimplements (mkME name (map (pick aB (aM mems)) srcs) fn rows).
Proof.
  intros Fn Ac C. unfold mib_chk in C. do 2 (apply andb_prop in C as [C ?]).
  refine (e_call _ _ srcs aB (aM mems) _ act Fn C eq_refl _ _); [auto|].
  intros r [q|a] imm env pos its u A1 A2 H1; [contradiction|]. rewrite Ac in H1. unfold opMIB in H1. apply emits_fn in H1. ifs H1.
  destruct A2 as [M Sz]. exists KB, None, r, (OMem (cloneNoOptimize a)), type, code.
  assert (F1 : in_file KB r) by exact A1. destruct A1 as (K & B & I0).
  split; [auto|]. split; [eapply in_file_bit4; eauto|]. split; [exact M|]. split; [split; [reflexivity|split; [reflexivity|apply clone_ok; auto]]|].
  split; [exact Logic.I|]. split; [exact H1|]. cbn [ob]. change (a_op (cloneNoOptimize a)) with (a_op a). rewrite B.
  rewrite (in_file_REGb _ _ F1). rewrite forallb_forall in H. exact (H _ Sz).
Qed.
(* ---- far pointers: opLoadSeg emits what opMR would, if REX2 is not needed ---- *)
Lemma low_rex2 o : low_regs o -> hasRex2 o = false.
Proof. intros L. pose proof (low_no_rex2 _ L) as Q. unfold hasRex2NFZU in Q. apply orb_false_iff in Q as [Q _]. try (apply orb_false_iff in Q as [Q _]). exact Q. Qed.
Lemma bind_i {A B} (m : E A) (f : A -> E B) env pos i1 i2 a b :
  emits m env pos i1 a -> emits (f a) env (pos + items_size i1) i2 b -> emits (bind m f) env pos (i1 ++ i2) b.
Proof. intros [N H] [_ H2]. split; auto. unfold bind. rewrite H, H2. reflexivity. Qed.
Lemma ret_i {A B} (a : A) (f : A -> E B) env pos its b : emits (f a) env pos its b -> emits (bind (ret a) f) env pos its b.
Proof. intros H. change its with ([] ++ its). eapply bind_i; [split; [apply H|reflexivity]|]. cbn [items_size]. rewrite Z.add_0_r. exact H. Qed.
Lemma loadseg_mr a r code env pos its u : low_regs (OReg r) -> low_regs (OMem a) ->
  emits (opLoadSeg a r T_0F code) env pos its u -> emits (opMR a r (T_0F ||| T_ALLOW_DIFF_SIZE) code 0 NONE) env pos its u.
Proof.
  intros L1 L2 H. unfold opLoadSeg in H. apply emits_fn in H. ifs H. unfold opMR. apply fn_emits. cbn [Z.eqb negb]. cbv zeta.
  apply ret_i. rewrite Heqb0. ebind H i1 i2 x H1 H2.
  assert (X : x = false).
  { pose proof (rex_mem (fun _ _ _ => 0) _ _ _ _ _ _ _ H1) as (_ & _ & -> & _). apply low_rex2 in L1. apply low_rex2 in L2. cbn in L1, L2. rewrite L1, L2. reflexivity. }
  subst x. change (negb (has (T_0F ||| T_ALLOW_DIFF_SIZE) T_ALLOW_DIFF_SIZE)) with false. cbn [andb].
  eapply bind_i; [exact H1|]. ebind H2 i3 i4 y H3 H4. ebind H4 i5 i6 z H5 H6. rewrite app_assoc.
  eapply bind_i; [|rewrite items_size_app, Z.add_assoc; exact H6].
  unfold writeCode. eapply bind_i; [exact H3|]. change (((T_0F ||| T_ALLOW_DIFF_SIZE) &&& T_SENTRY =? 0) || has (T_0F ||| T_ALLOW_DIFF_SIZE) T_CODE1_IF1) with false.
  cbn [andb b2z]. rewrite Z.lor_0_r. exact H5.
Qed.
Definition T_dummy : Z := T_ER_R ||| T_ALLOW_DIFF_SIZE.
(* x87 operations with a memory operand: the same; T_dummy has no effect in opMR but to keep the opcode and the size *)
Lemma fpu_mr a m16 m32 m64 ext m64ext env pos its u : 0 <= ext < 8 -> 0 <= m64ext < 8 ->
  emits (opFpuMem a m16 m32 m64 ext m64ext) env pos its u ->
  let b := bit_ (a_op a) in
  let code := if has b 16 then m16 else if has b 32 then m32 else if has b 64 then m64 else 0 in
  let d := if negb (m64ext =? 0) && has b 64 then m64ext else ext in
  code <> 0 /\ emits (opMR a (Reg32 d) T_dummy code 0 NONE) env pos its u.
Proof.
  intros R1 R2 H b code d. unfold opFpuMem in H. apply emits_fn in H. ifs H. cbv zeta in H.
  change (isBit (a_op a) 16) with (has b 16) in H. change (isBit (a_op a) 32) with (has b 32) in H. change (isBit (a_op a) 64) with (has b 64) in H.
  fold code in H. change ((code =? 0) = false) in Heqb1. split; [lia|]. change (if negb (m64ext =? 0) && has b 64 then m64ext else ext) with d in H.
  assert (Rd : 0 <= d < 8) by (unfold d; destruct (negb (m64ext =? 0) && has b 64); lia).
  unfold opMR. apply fn_emits. cbn [Z.eqb negb]. cbv zeta. apply ret_i. rewrite Heqb0.
  change (negb (has T_dummy T_ALLOW_DIFF_SIZE)) with false. cbn [andb].
  ebind H i1 i2 x H1 H2. ebind H2 i3 i4 y H3 H4.
  assert (G : getIdx (Reg32 d) = d) by (assert (D : In d [0;1;2;3;4;5;6;7]) by (cbn; lia); cbn in D; destruct D as [<-|[<-|[<-|[<-|[<-|[<-|[<-|[<-|[]]]]]]]]]; reflexivity).
  eapply bind_i with (a := x).
  - assert (D : In d [0;1;2;3;4;5;6;7]) by (cbn; lia). clear G H3 H4. clearbody d.
    replace (rex (OMem a) (OReg (Reg32 d)) T_dummy) with (rex (OMem a) (OReg (Fpu 0)) 0); [exact H1|].
    cbn in D; destruct D as [<-|[<-|[<-|[<-|[<-|[<-|[<-|[<-|[]]]]]]]]]; reflexivity.
  - eapply bind_i; [|rewrite G; exact H4]. unfold writeCode. change (negb (has T_dummy T_APX || x)) with (negb x).
    change (((T_dummy &&& T_SENTRY) =? 0) || has T_dummy T_CODE1_IF1) with false. cbn [andb b2z]. rewrite Z.lor_0_r.
    assert (E0 : (if negb x then if has T_dummy T_0F then db 0x0F else if has T_dummy T_0F38 then db 0x0F ;;; db 0x38 else if has T_dummy T_0F3A then db 0x0F ;;; db 0x3A else ret tt else ret tt) = ret tt) by (destruct x; reflexivity).
    rewrite E0. apply ret_i. exact H3.
Qed.
(* ---- tactics ---- *)
Lemma mi_or0 name a b fn rows : mimplements (mkME name [a] fn rows) -> mimplements (mkME name [b] fn rows) -> mimplements (mkME name [aOr a b] fn rows).
Proof.
  intros Ha Hb s ops imm act env pos its rest u Hf Hg Hl Hi H. cbn [me_sig me_fun me_rows] in *.
  inversion Hg as [|? o1 ? l1 H1 H2]; subst. destruct H1 as [H1|H1]; [eapply Ha|eapply Hb]; eauto; cbn; constructor; auto.
Qed.
Lemma mi_w name l fn rows : (forall b, In b l -> mimplements (mkME name [aR [b]] fn rows)) -> mimplements (mkME name [aR l] fn rows).
Proof.
  intros Ha s ops imm act env pos its rest u Hf Hg Hl Hi H. cbn [me_sig me_fun me_rows] in *.
  inversion Hg as [|? o1 ? l1 H1 H2]; subst. destruct o1 as [r|]; [|contradiction]. destruct H1 as [G B].
  eapply (Ha (bit_ r)); eauto; cbn; constructor; auto. split; cbn; auto.
Qed.
Ltac inw := match goal with |- forall b, In b _ -> _ => let B := fresh in intros ? B; cbn in B; repeat (destruct B as [<-|B]; [|]); try contradiction end.
(* movhps and its kind *)
Ltac mvx f srcs act := start;
  match goal with |- mimplements (mkME _ [?a; ?b] _ _) =>
    match srcs with
    | [SReg; SRm] => refine (e_ro2 _ _ srcs a b _ _ _ act _ _ _)
    | [SRm; SReg] => refine (e_ro2 _ _ srcs b a _ _ _ act _ _ _)
    end end;
  [fnis2
  |intros r [q|ad] imm env pos its u A1 A2 H; [contradiction|]; unfold f, opMovXMM in H; apply emits_fn in H; cbn [isValidSSE] in H;
   destruct (isValidSSE (OReg r)) eqn:V; [|cbn [negb orb] in H; rewrite ?orb_true_r in H; einv H];
   cbn [negb orb] in H; rewrite ?orb_false_r in H; isx A1; rwx H; ifs H; split; [reflexivity|]; split; [discriminate|]; exists true, (immSize ad); apply opMR_opRO; exact H
  |vm_compute; reflexivity].
(* shifts of a vector register by an immediate *)
Lemma mmx_imm_split s r imm code ext env pos its u : 0 <= imm < 256 -> emits (opMMX_IMM r (s32 imm) code ext) env pos its u ->
  isValidSSE (OReg r) = true /\ exists i1 u1, render s its = render s i1 ++ imm_tail (imm_arg (Some false) imm)
    /\ emits (opRR (regOf ext REG 32 false) r (if isXMM r then T_0F ||| T_66 else T_0F) code) env pos i1 u1.
Proof.
  intros R H. unfold opMMX_IMM in H. apply emits_fn in H. destruct (isValidSSE (OReg r)); cbn [negb] in H; [|einv H]. cbv zeta in H.
  ebind H i1 i2 x H1 H2. split; [reflexivity|]. exists i1, x. split; [|exact H1]. apply emits_db in H2 as ->. rewrite render_app. f_equal. cbn [imm_arg].
  replace (s32 imm) with imm by (unfold s32, w32; rewrite !Z.mod_small by lia; destruct (imm <? 2147483648) eqn:Q; lia).
  unfold imm_tail. change NONE with 256. replace (imm =? 256) with false by lia. reflexivity.
Qed.
Ltac mmi f c := 
  match goal with |- mimplements (mkME _ _ _ _) =>
    refine (e_dgr _ _ c _ (Some false) _ 32 _ _ f _ _ _ _) end;
  [intros r imm a Q; cbn in Q; injection Q as <-; reflexivity|reflexivity
  |intros s r imm env pos its u R A H; isx A; unfold f in H; cbv zeta in H; apply (mmx_imm_split s) in H; [rwx H; exact H|apply R; discriminate]
  |vm_compute; reflexivity].
Ltac mmit f := start; apply mi_or0; [mmi f aX|mmi f aMm].
(* register in ModRM.rm, digit of the same width *)
Ltac rdt f := start; apply mi_w; inw;
  (match goal with |- mimplements (mkME _ [aR [?b]] _ _) =>
    refine (e_dgr _ _ (aR [b]) _ None _ b _ _ (fun r (_ : Z) => f r) _ _ _ _) end;
  [intros r imm a Q; cbn in Q; injection Q as <-; reflexivity|reflexivity
  |intros s r imm env pos its u _ A H; destruct A as [G [B|[]]]; unfold f in H; try apply emits_fn in H; try (ifs H); unfold getBit in H; rewrite <- ?B in H;
   split; [now apply valid_gpr|]; exists its, u; split; [symmetry; apply app_nil_r|exact H]
  |vm_compute; reflexivity]).
(* the digit stays 32 bits wide *)
Ltac fsb f := start;
  match goal with |- mimplements (mkME _ [?c] _ _) =>
    refine (e_dgr _ _ c _ None _ 32 _ _ (fun r (_ : Z) => f r) _ _ _ _) end;
  [intros r imm a Q; cbn in Q; injection Q as <-; reflexivity|reflexivity
  |intros s r imm env pos its u _ A H; destruct A as [G B]; unfold f in H;
   split; [now apply valid_gpr|]; exists its, u; split; [symmetry; apply app_nil_r|exact H]
  |vm_compute; reflexivity].
(* x87 memory operands *)
Definition fpu_chk (rows : list lrow) (m16 m32 m64 ext m64ext : Z) (mems : list Z) : bool :=
  (0 <=? ext) && (ext <? 8) && (0 <=? m64ext) && (m64ext <? 8) && imms_ok None rows
  && forallb (fun b =>
       let code := if has b 16 then m16 else if has b 32 then m32 else if has b 64 then m64 else 0 in
       let d := if negb (m64ext =? 0) && has b 64 then m64ext else ext in
       (code =? 0) || gchk rows I_none [SRm] (Some d) KG [32] (Some 32) T_dummy code [] [b]) mems.
Lemma e_fpu name f l rows m16 m32 m64 ext m64ext :
  (forall a, f a = opFpuMem a m16 m32 m64 ext m64ext) -> fpu_chk rows m16 m32 m64 ext m64ext l = true ->
  mimplements (mkME name [aM l] (f_a f) rows).
Proof.
  intros Fn C s ops imm act' env pos its rest u Hf Ha Hb Hi H. cbn [me_sig me_fun me_rows] in *.
  unfold fpu_chk in C. do 5 (apply andb_prop in C as [C ?]).
  inversion Ha as [|? o1 ? l1 H5 H6]; subst. inversion H6; subst. destruct o1 as [r|a]; [contradiction|]. destruct H5 as [M Sz].
  cbn [f_a] in Hf. injection Hf as <-. rewrite Fn in H. apply fpu_mr in H; try lia. cbv zeta in H. destruct H as [N H].
  rewrite forallb_forall in H0. specialize (H0 _ Sz). cbv zeta in H0.
  set (code := if has (bit_ (a_op a)) 16 then m16 else if has (bit_ (a_op a)) 32 then m32 else if has (bit_ (a_op a)) 64 then m64 else 0) in *.
  set (d := if negb (m64ext =? 0) && has (bit_ (a_op a)) 64 then m64ext else ext) in *.
  replace (code =? 0) with false in H0 by lia. cbn [orb] in H0.
  assert (Rd : 0 <= d < 8) by (unfold d; destruct (negb (m64ext =? 0) && has (bit_ (a_op a)) 64); lia).
  rewrite <- (app_nil_r (render s its)). eapply (dg_gen s rows I_none d [32] 32 T_dummy code [bit_ (a_op a)] a env pos its u); eauto; try lia; try (cbn; auto; fail). intros w. apply imm_none_ok.
Qed.
Ltac fput := start; eapply e_fpu; [reflexivity|vm_compute; reflexivity].
(* bound registers *)
Ltac bnt f srcs act := start;
  match goal with |- mimplements (mkME _ [?a; ?b] _ _) =>
    match srcs with
    | [SReg; SRm] => refine (e_ro2 _ _ srcs a b _ _ _ act _ _ _)
    | [SRm; SReg] => refine (e_ro2 _ _ srcs b a _ _ _ act _ _ _)
    end end;
  [fnis2
  |intros r [q|ad] imm env pos its u A1 A2 H; try contradiction; unfold on_mem, on_op, f in H; (split; [now apply valid_bnd|]);
   (split; [first [discriminate|intros _; (destruct A2; [|contradiction]); now apply valid_bnd]|]);
   first [exists true, (immSize ad); apply opMR_opRO; exact H|eexists; eexists; exact H]
  |vm_compute; reflexivity].
Ltac bndct := start; eapply e_bndc; [reflexivity|vm_compute; reflexivity].
(* far pointers *)
Ltac lfst f := start;
  match goal with |- mimplements (mkME _ [?a; ?b] _ _) => refine (e_ro2 _ _ [SReg; SRm] a b _ _ _ (on_mem (fun ad r => f r ad)) _ _ _) end;
  [fnis2
  |intros r [q|ad] imm env pos its u A1 A2 H; [destruct A2 as [[] _]|]; unfold on_mem, f in H; split; [apply valid_gpr; apply A1|]; split; [discriminate|];
   exists true, (immSize ad); apply opMR_opRO; apply loadseg_mr; [apply A1|apply A2|exact H]
  |vm_compute; reflexivity].
(* opSSE_APX without r16 .. r31 *)
Lemma sse_apx_low x op t1 c1 t2 c2 imm env pos its u : low_regs op -> emits (opSSE_APX x op t1 c1 t2 c2 imm) env pos its u ->
  emits (opSSE x op t1 c1 (Some isXMM_XMMorMEM) imm) env pos its u.
Proof.
  intros L H. unfold opSSE_APX in H. rewrite (low_rex2 _ L), andb_false_r in H.
  ebind H i1 i2 d H1 H2. apply emits_ret in H1 as [-> ->]. cbn [app items_size] in *. rewrite Z.add_0_r in H2. exact H2.
Qed.
Ltac apxt f i act := start;
  match goal with |- mimplements (mkME _ [?a; ?b] _ _) => refine (e_sse2 _ _ [SReg; SRm] a b _ i _ _ _ act _ _ _) end;
  [fnis2
  |intros r [q|ad] imm env pos its u A1 A2 H; try (destruct A2 as [[] _]; fail); unfold on_mem, on_op, on_opi, f in H; cbv zeta in H; (apply sse_apx_low in H; [exact H|apply A2])
  |vm_compute; reflexivity].
(* ... with a number in place of the register *)
Definition wide_chk (rows : list lrow) (d type code : Z) (mems : list Z) : bool :=
  (0 <=? d) && (d <? 8) && imms_ok None rows && forallb (fun b => rows_ok I_none [SRm] (Some d) KX 128 128 false None b b false type code rows) mems.
Lemma e_wide name f l rows d type code t2 c2 :
  (forall a, f a = opSSE_APX (Xmm d) (OMem a) type code t2 c2 NONE) -> wide_chk rows d type code l = true ->
  mimplements (mkME name [aLow (aM l)] (f_a f) rows).
Proof.
  intros Fn C s ops imm act' env pos its rest u Hf Ha Hb Hi H. cbn [me_sig me_fun me_rows] in *.
  unfold wide_chk in C. do 3 (apply andb_prop in C as [C ?]).
  inversion Ha as [|? o1 ? l1 H5 H6]; subst. inversion H6; subst. destruct H5 as [H5 L]. destruct o1 as [r|a]; [contradiction|]. destruct H5 as [M Sz].
  cbn [f_a] in Hf. injection Hf as <-. rewrite Fn in H. apply sse_apx_low in H; auto.
  apply (opSSE_split s) in H as (_ & _ & _ & n & i1 & H & ->). apply opRO_call in H as (op' & So & H & Bo & Eo); auto.
  change (imm_tail NONE) with (@nil Z). 
  assert (Rn : regno (Xmm d) = d) by (unfold regno, Xmm, regOf; cbn [idx_]; rewrite Z.lor_0_r, (Z.mod_small d 64), (Z.mod_small d 32) by lia; reflexivity).
  destruct op' as [|a']; [contradiction|].
  change [OMem a] with (map (arg_of (Xmm d) (OMem a)) [SRm]).
  eapply (rows_says s rows I_none [SRm] (Some d) KX None (Xmm d) (Xmm d) (OMem a) (OMem a')); eauto.
  - intros [Q|[]]; discriminate Q.
  - intros _. assert (D : In d [0;1;2;3;4;5;6;7]) by (cbn; lia). cbn in D; destruct D as [<-|[<-|[<-|[<-|[<-|[<-|[<-|[<-|[]]]]]]]]]; reflexivity.
  - intros d' [= <-]. exact Rn.
  - rewrite forallb_forall in H0. specialize (H0 _ Sz). change (bit_ (Xmm d)) with 128. cbn [ob] in Bo |- *. rewrite Bo. exact H0.
  - intros w. apply imm_none_ok.
Qed.
(* bt, btc, btr, bts with an immediate *)
Definition bti_row (d : Z) : lrow := mkL NP 1 0xBA true (Some d) [rm_ KG true Sv] OsV I_8.
Lemma e_bti name f d : 0 <= d < 8 ->
  (forall op imm, f op imm = (opRext op (16 ||| i32e) d T_0F 0xba false 1 None ;;; db (w8 imm))) ->
  rextchk (bti_row d) T_0F 0xBA false (16 ||| i32e) true Sv (fun m b => if m then existsb (Z.eqb b) [16; 32; 64] else has b (16 ||| i32e)) (fun _ b => b) = true ->
  mimplements (mkME name [anyM [16; 32; 64]] (f_oi f) [bti_row d]).
Proof.
  intros D Fn C s ops imm act env pos its rest u Hf Ha Hb Hi H. cbn [me_sig me_fun me_rows] in *.
  inversion Ha as [|? op ? l1 H5 H6]; subst. inversion H6; subst. cbn [f_oi] in Hf. injection Hf as <-. rewrite Fn in H.
  ebind H i1 i2 x H1 H2. apply emits_db in H2 as ->. rewrite render_app. apply Exists_cons_hd.
  inversion Hi as [|? ? Him]; subst. cbn [bti_row l_imm imm_in] in Him.
  eapply (rext_gen s (bti_row d) true Sv T_0F 0xBA false d (16 ||| i32e) op 1 [] []); eauto; try reflexivity.
  - destruct op; [destruct H5 as [H5|[]]; exact H5|destruct H5 as [[]|[H5 _]]; exact H5].
  - destruct op as [q|a]; cbn [isMEM ob].
    + intros [Q|Q]; [discriminate Q|]. unfold isREGb, is_ in Q. apply andb_prop in Q as [_ Q]. exact Q.
    + intros _. destruct H5 as [[]|[_ Sz]]. cbn in Sz. destruct Sz as [<-|[<-|[<-|[]]]]; reflexivity.
  - intros _. replace (render s [IDb (w8 (w8 imm))]) with (imm_tail imm); [now apply imm_8_ok|].
    unfold imm_tail. change NONE with 256. replace (imm =? 256) with false by lia. cbn [render render1 app]. unfold w8. now rewrite Z.mod_mod.
Qed.
(* ---- forms with WAIT ---- *)
Definition unwait (e : mentry) (g : insn) : mentry := mkME (me_name e) (me_sig e) g (me_rows e).
Lemma e_wait e g :
  (forall ops imm a, me_fun e ops imm = Some a -> exists b, g ops imm = Some b /\ a = (db 0x9B ;;; b)) -> mimplements (unwait e g) -> wimplements e.
Proof.
  intros Fn M s ops imm act env pos its rest u Hf Ha Hb Hi H. destruct (Fn _ _ _ Hf) as (b & Hg & ->).
  ebind H i1 i2 x H1 H2. apply emits_db in H1 as ->. exists (render s i2). split; [reflexivity|].
  exact (M s ops imm b env _ i2 rest u Hg Ha Hb Hi H2).
Qed.
Ltac waitt d := match goal with |- wimplements ?e => unfold e end;
  match goal with |- wimplements (mkME _ _ (f_a ?f) _) =>
    let g := eval cbv delta [f] in f in
    match g with fun a => bind (db 0x9B) (fun _ => @?h a) =>
      let h' := eval cbv beta in (fun a => h a) in apply (e_wait _ (f_a h'));
      [intros [|[r|a] [|]] imm x Q; cbn in Q; try discriminate Q; injection Q as <-; eexists; split; reflexivity
      |unfold unwait; cbn [me_name me_sig me_rows]; eapply (e_dg _ _ _ _ d 32); [reflexivity|vm_compute; reflexivity]]
    end end.
(* ---- the operand as a 32-bit register ---- *)
Lemma e_uipi name f d row :
  (forall r, f r = (t0 <- cvt32 r ;; opRR (Reg32 d) t0 (T_F3 ||| T_0F) 0xC7)) -> 0 <= d < 8 ->
  l_imm row = I_none -> rows_ok I_none [SRm] (Some d) KG 32 32 false (Some KG) 64 32 false (T_F3 ||| T_0F) 0xC7 [row] = true ->
  mimplements (mkME name [aR [64]] (f_r f) [row]).
Proof.
  intros Fn D Im C s ops imm act' env pos its rest u Hf Ha Hb Hi H. cbn [me_sig me_fun me_rows] in *.
  inversion Ha as [|? o1 ? l1 H5 H6]; subst. inversion H6; subst. destruct o1 as [r|]; [|contradiction]. destruct H5 as [G [B|[]]].
  cbn [f_r] in Hf. injection Hf as <-. rewrite Fn in H. ebind H i1 i2 q H1 H2.
  apply cvt32_gpr in H1 as (-> & R & Bq & Kq & W & _); auto; [|rewrite <- B; cbn; auto].
  destruct (regOf_small d 32 D ltac:(lia)) as (E1 & E2 & E3 & E4 & E5).
  cbn [app items_size] in *. rewrite Z.add_0_r in H2.
  rewrite <- (app_nil_r (render s i2)). change [OReg r] with (map (arg_of (Reg32 d) (OReg r)) [SRm]).
  eapply (rows_says s [row] I_none [SRm] (Some d) KG (Some KG) (Reg32 d) (Reg32 d) (OReg r) (OReg q)); eauto.
  - intros [Q|[]]; discriminate Q.
  - discriminate.
  - intros d' [= <-]. exact E1.
  - congruence.
  - cbn [ob]. change (bit_ (Reg32 d)) with 32. change (isREGb (Reg32 d) 64) with false. rewrite Bq, <- B, W. exact C.
  - intros w. apply imm_none_ok.
Qed.
Lemma movdir64b_ok l rows : imms_ok None rows = true ->
  forallb (fun b => negb ((b =? 0) || (b =? 32)) || rows_ok I_none [SReg; SRm] None KG 64 32 false None b b false (T_66 ||| T_0F38) 0xF8 rows) l = true ->
  mimplements (mkME "movdir64b"%string [aLow (aR [64]); aLow (aM l)] (f_ra i_movdir64b) rows).
Proof.
  intros Im C. refine (e_call _ _ [SReg; SRm] (aLow (aR [64])) (aLow (aM l)) _ (on_mem (fun ad r => i_movdir64b r ad)) _ _ _ _ _); [fnis2|reflexivity|reflexivity|exact Im|].
  intros r [q|a] imm env pos its u A1 A2 H; [destruct A2 as [[] _]|]. unfold on_mem, i_movdir64b in H.
  destruct A1 as [[G [B|[]]] L1], A2 as [[M Sz] L2]. ebind H i1 i2 q H1 H2.
  apply cvt32_gpr in H1 as (-> & R & Bq & Kq & W & N & Zu); auto; [|rewrite <- B; cbn; auto]. cbn [app items_size] in *. rewrite Z.add_0_r in H2.
  assert (L3 : low_regs (OReg q)) by (split; [exact N|split; [exact Zu|cbn [ob]; rewrite R; apply L1]]).
  apply opMR_leg in H2; auto using low_no_rex2.
  pose proof (call_size q (OMem a) (T_66 ||| T_0F38) 0xF8 env pos i2 u None H2 M) as Cs.
  unfold size_okb in Cs. change (has (T_66 ||| T_0F38) T_ALLOW_DIFF_SIZE) with false in Cs. rewrite Bq in Cs. cbn [orb ob] in Cs. change (negb (32 <=? 64)) with false in Cs. cbn [orb] in Cs.
  exists KG, None, q, (OMem a), (T_66 ||| T_0F38), 0xF8.
  split; [split; [exact G|exact R]|]. split; [rewrite Kq; discriminate|]. split; [exact M|]. split; [split; [reflexivity|split; [reflexivity|exact M]]|]. split; [exact Logic.I|].
  split; [exact H2|]. rewrite forallb_forall in C. specialize (C _ Sz). rewrite Cs in C. cbn [negb orb] in C. cbn [ob]. rewrite Bq, W, <- B. exact C.
Qed.
(* ---- pextrw: the general register in ModRM.reg ---- *)
Lemma pextrw_reg c p k2 b2 rows row0 : (c = aX /\ p = P66 /\ k2 = KX /\ b2 = 128 /\ rows = [set_pp P66 row0]) \/ (c = aMm /\ p = NP /\ k2 = KM /\ b2 = 64 /\ rows = [row0]) ->
  l_pp row0 = NP -> l_imm row0 = I_8 ->
  forallb (fun b1 => rows_ok I_8 [SReg; SRm] None KG b1 b1 (b1 =? 64) (Some k2) b2 b2 false T_0F 0xC5 [row0]) [32; 64] = true ->
  mimplements (mkME "pextrw"%string [aR [32; 64]; c] (f_ori i_pextrw) rows).
Proof.
  intros Cs P0 Im C s ops imm act env pos its rest u Hf Ha Hb Hi H. cbn [me_sig me_fun me_rows] in *.
  inversion Ha as [|? o1 ? l1 H5 H6]; subst. inversion H6 as [|? o2 ? l2 H7 H8]; subst. inversion H8; subst.
  destruct o1 as [r|]; [|contradiction]. assert (X : exists x, o2 = OReg x) by (destruct Cs as [(-> & _)|(-> & _)]; (destruct o2; [eauto|contradiction])). destruct X as [x ->].
  cbn [f_ori] in Hf. injection Hf as <-. unfold i_pextrw in H. cbv zeta in H. unfold opExt in H. apply emits_fn in H. destruct (negb (isValidSSE (OReg r)) || negb (isValidSSE (OReg x))) eqn:Heqb; [einv H|]. destruct H5 as [G B].
  assert (Q : oREGb (OReg r) i32e = true) by (unfold oREGb, isREGb, is_; cbn [ob]; rewrite (proj1 G); cbn in B; destruct B as [<-|[<-|[]]]; reflexivity).
  rewrite Q in H. cbn [andb] in H. apply orb_false_iff in Heqb as [_ V]. apply negb_false_iff in V.
  assert (Xf : in_file k2 x /\ bit_ x = b2).
  { destruct Cs as [(-> & _ & -> & -> & _)|(-> & _ & -> & -> & _)].
    - pose proof (aX_file _ H7 V) as F. split; [exact F|apply F].
    - split; [exact H7|apply H7]. }
  destruct Xf as [Fx Bx].
  assert (R : 0 <= imm < 256). { destruct Cs as [(_ & _ & _ & _ & ->)|(_ & _ & _ & _ & ->)]; inversion Hi; subst; cbn [set_pp l_imm] in *; rewrite Im in *; assumption. }
  assert (K : forall env pos its u, emits (opRR (ob (OReg r)) x T_0F 0xC5 ;;; db (w8 imm)) env pos its u -> lsays row0 [OReg r; OReg x] imm (render s its) rest).
  { clear H. intros env0 pos0 its0 u0 H. ebind H i1 i2 y H1 H2. apply emits_db in H2 as ->. rewrite render_app. apply one_row with (P := fun row => lsays row [OReg r; OReg x] imm (render s i1 ++ render s [IDb (w8 (w8 imm))]) rest).
    change [OReg r; OReg x] with (map (arg_of r (OReg x)) [SReg; SRm]).
    eapply (rows_says s [row0] I_8 [SReg; SRm] None KG (Some k2) r r (OReg x) (OReg x)); eauto.
    - eapply (in_file_bit4 KG); exact G.
    - discriminate.
    - reflexivity.
    - eapply in_file_bit4; eauto.
    - cbn [ob]. rewrite Bx. rewrite (in_file_REGb KG _ G), (in_file_REGb _ _ Fx). rewrite forallb_forall in C. specialize (C _ B).
      destruct Cs as [(_ & _ & -> & -> & _)|(_ & _ & -> & -> & _)]; exact C.
    - intros w. replace (render s [IDb (w8 (w8 imm))]) with (imm_tail imm); [now apply imm_8_ok|].
      unfold imm_tail. change NONE with 256. replace (imm =? 256) with false by lia. cbn [render render1 app]. unfold w8. now rewrite Z.mod_mod. }
  destruct Cs as [(-> & -> & -> & -> & ->)|(-> & -> & -> & -> & ->)]; apply Exists_cons_hd.
  - isx H7. rwx H. ebind H i1 i2 y H1 H2. apply emits_db in H1 as ->. rewrite render_app. apply (pre_says P66 row0); auto. eapply K; eauto.
  - isx H7. rwx H. apply emits_ret_bind in H. eapply K; eauto.
Qed.
(* ---- in, out ---- *)
Definition dx_ : oper := mkOper (Implied 2) (Some KG) false (Sn 16).
Definition io_row (opc : Z) (ops : list oper) (i : immk) : lrow := mkL NP 0 opc false None ops OsB i.
Definition io_bytes (b code : Z) (tail : list Z) : list Z := (if b =? 16 then [0x66] else []) ++ (if b =? 8 then code else code + 1) :: tail.
Lemma io_says code a ops l i imm tail rest : In code [0xEC; 0xEE; 0xE4; 0xE6] -> gpr a -> In (bit_ a) [8; 16; 32] ->
  existsb (fun o => match o_at o with InOpc => true | _ => false end) l = false ->
  (forall h, Forall2 (oper_ok (bit_ a) h 0 None) l ops) -> Exists (fun p => o_size (fst p) = Sv /\ bit_ (ob (snd p)) = bit_ a) (combine l ops) ->
  imm_ok i (bit_ a) imm tail ->
  lsays (io_row code l i) ops imm (io_bytes (bit_ a) code tail) rest.
Proof.
  intros C G B N F S0 I0.
  assert (K : exists h, dec_header (io_bytes (bit_ a) code tail ++ rest) = Some (h, tail ++ rest) /\ lhead (io_row code l i) (bit_ a) h (h_opc h)).
  { clear F S0 I0. cbn in B, C. unfold io_bytes. rewrite <- app_assoc. cbn [app].
    destruct B as [<-|[<-|[<-|[]]]], C as [<-|[<-|[<-|[<-|[]]]]]; (eexists; split; [reflexivity|]); repeat split; reflexivity. }
  destruct K as (h & E & L). exists (bit_ a), h, 0, None, (h_opc h), tail. cbn [io_row l_modrm l_ops]. rewrite N.
  split; [auto|]. split; [exact L|]. split; [discriminate|]. split; [apply F|]. split; [right; exact S0|exact I0].
Qed.
Lemma inout_split s a d code env pos its u : emits (opInOut a d code) env pos its u -> In code [0xEC; 0xEE] ->
  getIdx a = 0 /\ getIdx d = 2 /\ bit_ d = 16 /\ In (bit_ a) [8; 16; 32] /\ render s its = io_bytes (bit_ a) code [].
Proof.
  intros H C. unfold opInOut in H. apply emits_fn in H. unfold getBit in H.
  destruct ((getIdx a =? 0) && (getIdx d =? 2) && (bit_ d =? 16)) eqn:Q; [|einv H]. apply andb_prop in Q as [Q Q3]. apply andb_prop in Q as [Q1 Q2].
  split; [lia|]. split; [lia|]. split; [lia|]. unfold io_bytes.
  assert (W : w8 code = code /\ w8 (code + 1) = code + 1) by (cbn in C; destruct C as [<-|[<-|[]]]; split; reflexivity). destruct W as [W1 W2].
  destruct (bit_ a =? 8) eqn:B8; [apply emits_db in H as ->; replace (bit_ a =? 16) with false by lia; cbn; rewrite W1; split; [lia|reflexivity]|].
  destruct (bit_ a =? 16) eqn:B16; [ebind H i1 i2 x H1 H2; apply emits_db in H1 as ->; apply emits_db in H2 as ->; cbn; rewrite W2; split; [lia|reflexivity]|].
  destruct (bit_ a =? 32) eqn:B32; [|einv H]. apply emits_db in H as ->. cbn; rewrite W2; split; [lia|reflexivity].
Qed.
Lemma inoutimm_split s a v code env pos its u : emits (opInOutImm a code v) env pos its u -> In code [0xE4; 0xE6] ->
  getIdx a = 0 /\ In (bit_ a) [8; 16; 32] /\ render s its = io_bytes (bit_ a) code [w8 v].
Proof.
  intros H C. unfold opInOutImm in H. apply emits_fn in H. unfold getBit in H.
  destruct (getIdx a =? 0) eqn:Q; [|einv H]. split; [lia|]. unfold io_bytes.
  assert (W : w8 code = code /\ w8 (code + 1) = code + 1) by (cbn in C; destruct C as [<-|[<-|[]]]; split; reflexivity). destruct W as [W1 W2].
  destruct (bit_ a =? 8) eqn:B8; [ebind H i1 i2 x H1 H2; apply emits_db in H1 as ->; apply emits_db in H2 as ->; replace (bit_ a =? 16) with false by lia; cbn; rewrite W1; split; [lia|reflexivity]|].
  destruct (bit_ a =? 16) eqn:B16; [ebind H i1 i2 x H1 H2; ebind H2 i3 i4 y H2 H3; apply emits_db in H1 as ->; apply emits_db in H2 as ->; apply emits_db in H3 as ->; cbn; rewrite W2; split; [lia|reflexivity]|].
  destruct (bit_ a =? 32) eqn:B32; [|einv H]. ebind H i1 i2 x H1 H2; apply emits_db in H1 as ->; apply emits_db in H2 as ->. cbn; rewrite W2; split; [lia|reflexivity].
Qed.
Lemma acc_oper w h a : gpr a -> getIdx a = 0 -> bit_ a = w -> oper_ok w h 0 None (acc_ Sv) (OReg a).
Proof.
  intros G I0 B. split; [exists KG; split; [reflexivity|exact G]|]. split; [exact B|]. split; [now rewrite <- regno_getIdx|]. intros Q. now apply idx0_low.
Qed.
Lemma dx_oper w h d : gpr d -> getIdx d = 2 -> bit_ d = 16 -> oper_ok w h 0 None dx_ (OReg d).
Proof. intros G I0 B. split; [exists KG; split; [reflexivity|exact G]|]. split; [exact B|]. split; [now rewrite <- regno_getIdx|]. rewrite B. discriminate. Qed.
Lemma in_dx : mimplements (mkME "in_"%string [aR [8; 16; 32; 64]; aR [8; 16; 32; 64]] (f_rr i_in__rr) [io_row 0xEC [acc_ Sv; dx_] I_none]).
Proof.
  intros s ops imm act env pos its rest u Hf Ha Hb Hi H. cbn [me_sig me_fun me_rows] in *.
  inversion Ha as [|? o1 ? l1 H5 H6]; subst. inversion H6 as [|? o2 ? l2 H7 H8]; subst. inversion H8; subst.
  destruct o1 as [a|]; [|contradiction]. destruct o2 as [d|]; [|contradiction]. cbn [f_rr] in Hf. injection Hf as <-. unfold i_in__rr in H.
  apply (inout_split s) in H as (A0 & D0 & Bd & Ba & ->); [|cbn; auto]. apply Exists_cons_hd. apply io_says; auto; try (cbn; auto; fail); try apply H5.
  - intros h. apply Forall2_cons; [apply acc_oper; auto; apply H5|]. apply Forall2_cons; [apply dx_oper; auto; apply H7|apply Forall2_nil].
  - apply (imm_none_ok (bit_ a)).
Qed.
Lemma out_dx : mimplements (mkME "out_"%string [aR [8; 16; 32; 64]; aR [8; 16; 32; 64]] (f_rr i_out__rr) [io_row 0xEE [dx_; acc_ Sv] I_none]).
Proof.
  intros s ops imm act env pos its rest u Hf Ha Hb Hi H. cbn [me_sig me_fun me_rows] in *.
  inversion Ha as [|? o1 ? l1 H5 H6]; subst. inversion H6 as [|? o2 ? l2 H7 H8]; subst. inversion H8; subst.
  destruct o1 as [d|]; [|contradiction]. destruct o2 as [a|]; [|contradiction]. cbn [f_rr] in Hf. injection Hf as <-. unfold i_out__rr in H.
  apply (inout_split s) in H as (A0 & D0 & Bd & Ba & ->); [|cbn; auto]. apply Exists_cons_hd. apply io_says; auto; try (cbn; auto; fail); try apply H7.
  - intros h. apply Forall2_cons; [apply dx_oper; auto; apply H5|]. apply Forall2_cons; [apply acc_oper; auto; apply H7|apply Forall2_nil].
  - apply (imm_none_ok (bit_ a)).
Qed.
Lemma io_imm_ok w v : 0 <= v < 256 -> imm_ok I_8 w v [w8 (w8 v)].
Proof.
  intros R. replace [w8 (w8 v)] with (imm_tail v); [now apply imm_8_ok|].
  unfold imm_tail. change NONE with 256. replace (v =? 256) with false by lia. unfold w8. now rewrite Z.mod_mod.
Qed.
Lemma in_imm : mimplements (mkME "in_"%string [aR [8; 16; 32; 64]] (f_ri i_in__ri) [io_row 0xE4 [acc_ Sv] I_8]).
Proof.
  intros s ops imm act env pos its rest u Hf Ha Hb Hi H. cbn [me_sig me_fun me_rows] in *.
  inversion Ha as [|? o1 ? l1 H5 H6]; subst. inversion H6; subst.
  destruct o1 as [a|]; [|contradiction]. cbn [f_ri] in Hf. injection Hf as <-. unfold i_in__ri in H. cbv zeta in H. inversion Hi; subst.
  apply (inoutimm_split s) in H as (A0 & Ba & ->); [|cbn; auto]. apply Exists_cons_hd. apply io_says; auto; try (cbn; auto; fail); try apply H5.
  - intros h. apply Forall2_cons; [apply acc_oper; auto; apply H5|]. apply Forall2_nil.
  - now apply io_imm_ok.
Qed.
Lemma out_imm : mimplements (mkME "out_"%string [aR [8; 16; 32; 64]] (f_ri (fun a v => i_out__ir v a)) [io_row 0xE6 [acc_ Sv] I_8]).
Proof.
  intros s ops imm act env pos its rest u Hf Ha Hb Hi H. cbn [me_sig me_fun me_rows] in *.
  inversion Ha as [|? o1 ? l1 H5 H6]; subst. inversion H6; subst.
  destruct o1 as [a|]; [|contradiction]. cbn [f_ri] in Hf. injection Hf as <-. unfold i_out__ir in H. cbv zeta in H. inversion Hi; subst.
  apply (inoutimm_split s) in H as (A0 & Ba & ->); [|cbn; auto]. apply Exists_cons_hd. apply io_says; auto; try (cbn; auto; fail); try apply H5.
  - intros h. apply Forall2_cons; [apply acc_oper; auto; apply H5|]. apply Forall2_nil.
  - now apply io_imm_ok.
Qed.
(* pextrw to memory; an Address has kind MEM (xbyak.h:1324) *)
Definition pextrw_mrow : lrow := mkL P66 3 0x15 true None [m_ Sany; r_ KX Sany] OsN I_8.
Lemma pextrw_mem' : mimplements (mkME "pextrw"%string [aM [0; 8; 16; 32; 64; 128; 256; 512]; aX] (f_ori (fun op x imm => opSSE x op (T_66 ||| T_0F3A) 0x15 (Some isXMM_REG32orMEM) (w8 imm))) [pextrw_mrow]).
Proof.
  refine (e_sse2 _ _ [SRm; SReg] aX (aM [0; 8; 16; 32; 64; 128; 256; 512]) _ (Some true) _ _ (Some isXMM_REG32orMEM) (fun r op imm => opSSE r op (T_66 ||| T_0F3A) 0x15 (Some isXMM_REG32orMEM) (w8 imm)) _ _ _);
  [fnis2|intros; eassumption|vm_compute; reflexivity].
Qed.
Lemma pextrw_mem s a x imm env pos its rest u :
  kind_ (a_op a) = MEM -> marg_ok (aM [0; 8; 16; 32; 64; 128; 256; 512]) (OMem a) -> marg_ok aX (OReg x) -> lbare (OMem a) -> lbare (OReg x) -> 0 <= imm < 256 ->
  emits (i_pextrw (OMem a) x imm) env pos its u -> lsays pextrw_mrow [OMem a; OReg x] imm (render s its) rest.
Proof.
  intros K A1 A2 L1 L2 R H. unfold i_pextrw in H. cbv zeta in H. unfold opExt in H. apply emits_fn in H.
  destruct (negb (isValidSSE (OMem a)) || negb (isValidSSE (OReg x))); [einv H|].
  replace (oREGb (OMem a) i32e) with false in H by (unfold oREGb, isREGb, is_; cbn [ob]; rewrite K; reflexivity). cbn [andb] in H.
  apply one_row with (P := fun row => lsays row [OMem a; OReg x] imm (render s its) rest).
  eapply (pextrw_mem' s [OMem a; OReg x] imm); [reflexivity| | | |exact H]; repeat (apply Forall_cons || apply Forall2_cons || apply Forall_nil || apply Forall2_nil || assumption).
Qed.
(* encodekey128, encodekey256: F3 0F 38 FA / FB /r with registers 0 .. 7 *)
Definition enckey_row (code : Z) : lrow := mkL PF3 2 code true None [r_ KG (Sn 32); rm_ KG false (Sn 32)] Os0 I_none.
Lemma enckey_ok s r1 r2 c1 c2 env pos its rest u imm : In c1 [0xFA; 0xFB] -> gpr r1 -> gpr r2 -> bit_ r1 = 32 -> bit_ r2 = 32 -> regno r1 < 8 -> regno r2 < 8 ->
  emits (opEncodeKey r1 r2 c1 c2) env pos its u -> lsays (enckey_row c1) [OReg r1; OReg r2] imm (render s its) rest.
Proof.
  intros C G1 G2 B1 B2 R1 R2 H. unfold opEncodeKey in H. rewrite !regno_getIdx in H.
  replace (regno r1 <? 8) with true in H by lia. replace (regno r2 <? 8) with true in H by lia. cbn [andb] in H.
  ebind H i1 j1 x1 H1 K1. ebind K1 i2 j2 x2 H2 K2. ebind K2 i3 j3 x3 H3 K3. ebind K3 i4 j4 x4 H4 K4.
  apply emits_db in H1 as ->. apply emits_db in H2 as ->. apply emits_db in H3 as ->. apply emits_db in H4 as ->. unfold setModRM in K4. apply emits_db in K4 as ->.
  cbn [app render render1].
  assert (F : forall k, Forall2 (oper_ok 0 k (regno r1) (Some (RReg (regno r2) (regno r2)))) (l_ops (enckey_row c1)) [OReg r1; OReg r2]).
  { intros k. apply Forall2_cons; [|apply Forall2_cons; [|apply Forall2_nil]].
    - split; [exists KG; split; [reflexivity|exact G1]|]. split; [exact B1|]. split; [reflexivity|]. rewrite B1. discriminate.
    - split; [exists KG; split; [reflexivity|exact G2]|]. split; [exact B2|]. split; [reflexivity|]. rewrite B2. discriminate. }
  pose proof (regno_range r1) as P1. pose proof (regno_range r2) as P2.
  assert (D : exists h, decode false 1 (w8 0xF3 :: w8 0x0F :: w8 0x38 :: w8 c1 :: w8 (w8 (((3 <<< 6) ||| ((regno r1 &&& 7) <<< 3)) ||| (regno r2 &&& 7))) :: rest) = Some (h, regno r1, RReg (regno r2) (regno r2), rest)
     /\ lhead (enckey_row c1) 0 h (h_opc h)).
  { clear F. set (n1 := regno r1) in *. set (n2 := regno r2) in *. clearbody n1 n2.
    assert (D1 : In n1 [0;1;2;3;4;5;6;7]) by (cbn; lia). assert (D2 : In n2 [0;1;2;3;4;5;6;7]) by (cbn; lia). cbn in C.
    destruct C as [<-|[<-|[]]]; cbn in D1; repeat (destruct D1 as [<-|D1]; [cbn in D2; repeat (destruct D2 as [<-|D2]; [eexists; split; [reflexivity|repeat split; reflexivity]|]); contradiction|]); contradiction. }
  destruct D as (h & Hd & L). exists 0, h, (regno r1), (Some (RReg (regno r2) (regno r2))), (h_opc h), [].
  cbn [enckey_row l_modrm l_digit l_imm]. split; [split; [|reflexivity]|].
  - eexists; split; [reflexivity|]. cbn [app]. exact Hd.
  - split; [exact L|]. split; [discriminate|]. split; [apply F|]. split; [left; reflexivity|apply imm_none_ok].
Qed.
Lemma enckey_both s r1 r2 env pos its rest u imm : gpr r1 -> gpr r2 -> bit_ r1 = 32 -> bit_ r2 = 32 -> regno r1 < 8 -> regno r2 < 8 ->
  (emits (i_encodekey128 r1 r2) env pos its u -> lsays (enckey_row 0xFA) [OReg r1; OReg r2] imm (render s its) rest)
  /\ (emits (i_encodekey256 r1 r2) env pos its u -> lsays (enckey_row 0xFB) [OReg r1; OReg r2] imm (render s its) rest).
Proof. intros. split; intros H5; (eapply enckey_ok; [|..|exact H5]; auto; cbn; auto). Qed.
