(* Shapes of the methods for general registers: opRext, opRO, opRO_MR and immediates. *)
From Coq Require Import ZArith List Bool String Lia.
From Verif Require Import Base Types Emit Encode SpecX86 SpecAddr SpecIsa SpecInsn SpecLeg Wf EmitFacts BitFacts MemFacts LegacyFacts VexFacts EncThms LegFacts LegShapes.
Import ListNotations.
Open Scope Z_scope.

(* ---- the register with the opcode extension ---- *)
Lemma regOf_small ext b : 0 <= ext < 8 -> 0 <= b < 16384 ->
  regno (regOf ext REG b false) = ext /\ regHasRex2 (regOf ext REG b false) = false
  /\ bit3 (regOf ext REG b false) = false /\ isExt8bit (regOf ext REG b false) = false /\ bit_ (regOf ext REG b false) = b.
Proof.
  intros H Hb. repeat match goal with |- _ /\ _ => split end; try (unfold regOf; cbn [bit_]; apply Z.mod_small; lia);
  (assert (C : ext = 0 \/ ext = 1 \/ ext = 2 \/ ext = 3 \/ ext = 4 \/ ext = 5 \/ ext = 6 \/ ext = 7) by lia;
  repeat match goal with Q : _ \/ _ |- _ => destruct Q as [Q|Q] end; subst; reflexivity).
Qed.
Lemma regOf_isREG ext b : isREG (regOf ext REG b false) = true.
Proof. reflexivity. Qed.
Lemma regOf_W ext b : 0 <= b < 16384 -> isREGb (regOf ext REG b false) 64 = has b 64.
Proof. intros H. unfold isREGb, is_, regOf. cbn [bit_ kind_]. rewrite Z.mod_small by lia. reflexivity. Qed.
Lemma any_bits q : any_reg q -> 0 <= bit_ q < 16384.
Proof.
  unfold any_reg, gpr, mmx_reg, vec_reg, opmask_reg, tmm_reg, bnd_reg, fpu_reg. lia.
Qed.
Lemma mem_bits a : mem_ok a -> 0 <= bit_ (a_op a) < 16384.
Proof. intros A. pose proof (mo_size _ A) as S. cbn in S. lia. Qed.
Lemma gpr_bits r : gpr r -> In (bit_ r) [8; 16; 32; 64].
Proof. intros (_ & [[[->|[->|[->| ->]]] _]|[-> _]]); cbn; auto. Qed.
Lemma any_gpr q : any_reg q -> isREG q = true -> gpr q.
Proof.
  intros A X. unfold isREG, is_ in X. apply andb_prop in X as [X _].
  unfold any_reg, mmx_reg, vec_reg, opmask_reg, tmm_reg, bnd_reg, fpu_reg in A.
  repeat match goal with Q : _ \/ _ |- _ => destruct Q as [Q|Q] end; auto;
    try (repeat match goal with Q : _ /\ _ |- _ => destruct Q | Q : _ \/ _ |- _ => destruct Q end; match goal with Q : kind_ q = _ |- _ => rewrite Q in X; discriminate X end).
Qed.
Lemma isREGb_REG q b : isREGb q b = true -> isREG q = true.
Proof. unfold isREGb, isREG, is_. intros H. apply andb_prop in H as [-> _]. reflexivity. Qed.
(* changeBit to the width of the register or from 64 to 32 *)
Lemma changeBit_gpr q b env pos its q' : gpr q -> (b = bit_ q \/ (bit_ q = 64 /\ b = 32)) ->
  emits (changeBit q b) env pos its q' -> its = [] /\ (q' = q \/ bit_ q = 64) /\ regno q' = regno q /\ bit_ q' = b /\ kind_ q' = REG
  /\ isREG q' = true.
Proof.
  intros G C H. unfold changeBit, setBit in H. apply emits_fn in H. pose proof (gpr_bits _ G) as B.
  destruct C as [->|[B64 ->]].
  - replace (negb _) with false in H by (cbn in B; destruct B as [<-|[<-|[<-|[<-|[]]]]]; reflexivity).
    replace (isBit q (bit_ q)) with true in H by (unfold isBit; cbn in B; destruct B as [<-|[<-|[<-|[<-|[]]]]]; reflexivity).
    apply emits_ret in H as [-> ->]. destruct G as [K _]. repeat split; auto. unfold isREG, is_. rewrite K. reflexivity.
  - cbn [Z.eqb Pos.eqb negb orb] in H. destruct G as [K [[_ I]|[Q _]]]; [|rewrite B64 in Q; discriminate].
    unfold isBit in H. rewrite B64 in H. change (has 64 32) with false in H. cbv iota in H.
    unfold is_ at 1 2 in H. rewrite K in H. change (has REG (MEM ||| OPMASK)) with false in H.
    change (has REG (REG ||| XMM ||| YMM ||| ZMM ||| TMM)) with true in H. cbn [andb orb Z.eqb] in H. cbv zeta in H.
    unfold isREGb, is_ in H. rewrite K, B64 in H. change (has REG REG && ((8 =? 0) || has 64 8)) with false in H. cbn [andb] in H.
    replace (32 <=? getIdx q) with false in H by (pose proof (getIdx_range q); lia).
    cbn [Z.leb Z.compare Pos.compare Pos.compare_cont] in H. apply emits_ret in H as [-> ->].
    assert (E : getIdx q mod 32 = idx_ q mod 32) by (rewrite regno_getIdx; unfold regno; apply Zmod_mod).
    repeat split; auto.
Qed.

Lemma rext_says s row w m s1 type code dis ext bit op n lo ex env pos i1 u imm tail rest :
  let b := bit_ (ob op) in
  let wb := if dis && (b =? 64) then 32 else b in
  match op with OReg q => any_reg q | OMem a => m = true /\ mem_ok a end ->
  l_ops row = rm_ KG m s1 :: lo -> l_digit row = Some ext -> 0 <= ext < 8 ->
  has type T_APX && hasRex2NFZU op = false ->
  emits (opRext op bit ext type code dis n None) env pos i1 u ->
  (isMEM op = true \/ isREGb (ob op) bit = true ->
   hdb row w (if isMEM op then type else type ||| T_ALLOW_ABCDH) code wb (if isMEM op then b else wb) (has wb 64) = true
   /\ ((isMEM op = true /\ b = 0) \/ size_is s1 w b)
   /\ sized row w (op :: ex) /\ imm_ok (l_imm row) w imm tail
   /\ (forall h reg rm, Forall2 (oper_ok w h reg rm) lo ex)) ->
  lsays row (op :: ex) imm (render s i1 ++ tail) rest.
Proof.
  intros b wb A L D Hx Hapx H K. unfold opRext in H. apply emits_fn in H. cbv zeta in H. cbn [orb] in H. rewrite Hapx in H.
  ebind H j1 j2 d H1 H2. apply emits_ret in H1 as [-> ->]. cbn [app render items_size] in *. rewrite Z.add_0_r in H2.
  fold b wb in H2. change (ogetBit op) with b in H2. fold wb in H2.
  assert (Hwb : 0 <= wb < 16384).
  { assert (0 <= b < 16384) by (destruct op; [apply any_bits; exact A|apply mem_bits; apply A]). unfold wb. destruct (dis && (b =? 64)); lia. }
  destruct (regOf_small ext wb Hx Hwb) as (E1 & E2 & E3 & E4 & E5).
  destruct op as [q|a].
  - destruct (isREGb q bit) eqn:Q; [|einv H2]. destruct (K (or_intror Q)) as (C & Sz & S & I & F). cbn [isMEM] in C.
    pose proof (any_gpr _ A (isREGb_REG _ _ Q)) as G.
    ebind H2 k1 k2 q' Hq Hr. 
    apply changeBit_gpr in Hq as (-> & Eq & R & B & Kq & Rq); auto.
    2:{ unfold wb. destruct dis; cbn [andb]; auto. destruct (b =? 64) eqn:Q64; auto. right. unfold b in Q64. cbn in Q64. split; [lia|reflexivity]. }
    cbn [app items_size] in Hr. rewrite Z.add_0_r in Hr. cbn [app].
    eapply (leaf_rr s row w _ _ (regOf ext REG wb false) q'); [| |exact Hr| | | |exact S|exact I].
    + intros Q2. discriminate Q2.
    + intros Q2. congruence.
    + rewrite E5, B. replace (isREGb q' 64 || _) with (has wb 64); [exact C|].
      rewrite (regOf_W _ _ Hwb). replace (isREGb q' 64) with (has wb 64); [rewrite orb_diag; reflexivity|]. unfold isREGb, is_. rewrite Kq, B. reflexivity.
    + intros d Hd. rewrite E1. congruence.
    + intros h Hf. rewrite L. apply Forall2_cons; [|apply F]. unfold oper_ok. cbn [rm_ o_at o_reg o_mem o_size].
      split; [eauto|]. split; [destruct Sz as [[Sz _]|Sz]; [discriminate|exact Sz]|]. split; [rewrite R; reflexivity|].
      intros B8. destruct Eq as [->|E64]; [|congruence].
      eapply rr_byte_ext with (r1 := regOf ext REG wb false); eauto. rewrite (regOf_W _ _ Hwb).
      unfold wb, b. cbn. rewrite B8. rewrite andb_false_r. reflexivity.
  - destruct (K (or_introl eq_refl)) as (C & Sz & S & I & F). destruct A as [Hm A]. cbn [isMEM] in C.
    eapply (leaf_mr s row w type code (set_immSize a n) (regOf ext REG wb false)); eauto using set_imm_ok.
    + intros Q2. discriminate Q2.
    + rewrite E5, (regOf_W _ _ Hwb). exact C.
    + intros d Hd. rewrite E1. congruence.
    + intros h mm Hf Hd. rewrite L. apply Forall2_cons; [|apply F]. unfold oper_ok. cbn [rm_ o_at o_reg o_mem o_size].
      change (a_e (set_immSize a n)) with (a_e a) in Hd.
      split; [exact Hm|]. split; [reflexivity|]. split; [|eauto].
      destruct Sz as [[_ Sz]|Sz]; [left|right]; exact Sz.
Qed.

(* all widths at once *)
Definition rextchk (row : lrow) (type code : Z) (dis : bool) (bit : Z) (m : bool) (s1 : osize)
    (cond : bool -> Z -> bool) (wsel : bool -> Z -> Z) : bool :=
  let ck (mem : bool) b :=
    let w := wsel mem b in
    let wb := if dis && (b =? 64) then 32 else b in
    negb (cond mem b && (mem || (bit =? 0) || has b bit)
          && (negb mem || has type T_ALLOW_DIFF_SIZE || (64 <? wb) || (b =? 0) || (b =? wb)))
    || (hdb row w (if mem then type else type ||| T_ALLOW_ABCDH) code wb (if mem then b else wb) (has wb 64)
        && ((mem && (b =? 0)) || size_isb s1 w b)
        && ((w =? 0) || (is_sv s1 && (b =? w))) && (negb mem || m)) in
  forallb (ck false) [8; 16; 32; 64] && forallb (ck true) all_sizes.

Lemma rext_gen s row m s1 type code dis ext bit op n lo ex env pos i1 u imm tail rest cond wsel :
  let b := bit_ (ob op) in
  match op with OReg q => any_reg q | OMem a => mem_ok a end ->
  l_ops row = rm_ KG m s1 :: lo -> l_digit row = Some ext -> 0 <= ext < 8 ->
  has type T_APX && hasRex2NFZU op = false ->
  rextchk row type code dis bit m s1 cond wsel = true ->
  emits (opRext op bit ext type code dis n None) env pos i1 u ->
  (isMEM op = true \/ isREGb (ob op) bit = true -> cond (isMEM op) b = true) ->
  (isMEM op = true \/ isREGb (ob op) bit = true -> imm_ok (l_imm row) (wsel (isMEM op) b) imm tail) ->
  (forall h reg rm, Forall2 (oper_ok (wsel (isMEM op) b) h reg rm) lo ex) ->
  lsays row (op :: ex) imm (render s i1 ++ tail) rest.
Proof.
  intros b A L D Hx Hapx C H Hc I F.
  set (wb := if dis && (b =? 64) then 32 else b).
  assert (CK : isMEM op = true \/ isREGb (ob op) bit = true -> let w := wsel (isMEM op) b in
    hdb row w (if isMEM op then type else type ||| T_ALLOW_ABCDH) code wb (if isMEM op then b else wb) (has wb 64)
        && ((isMEM op && (b =? 0)) || size_isb s1 w b)
        && ((w =? 0) || (is_sv s1 && (b =? w))) && (negb (isMEM op) || m) = true).
  { intros Q. specialize (Hc Q). unfold rextchk in C. cbv zeta in C. apply andb_prop in C as [Cr Cm]. cbv zeta.
    destruct op as [q|a]; cbn [isMEM ob] in *.
    - destruct Q as [Q|Q]; [discriminate|]. pose proof (any_gpr _ A (isREGb_REG _ _ Q)) as G.
      rewrite forallb_forall in Cr. specialize (Cr _ (gpr_bits _ G)). change (bit_ q) with b in Cr. fold wb in Cr. rewrite Hc in Cr.
      assert (E : (bit =? 0) || has b bit = true).
      { unfold isREGb, is_ in Q. apply andb_prop in Q as [_ Q]. exact Q. }
      rewrite <- orb_assoc in Cr. cbn [orb] in Cr. rewrite E in Cr. cbn [andb negb orb] in Cr. exact Cr.
    - rewrite forallb_forall in Cm. specialize (Cm _ (mo_size _ A)). change (bit_ (a_op a)) with b in Cm. fold wb in Cm. rewrite Hc in Cm.
      cbn [andb orb negb] in Cm.
      assert (E : has type T_ALLOW_DIFF_SIZE || (64 <? wb) || (b =? 0) || (b =? wb) = true).
      { destruct (has type T_ALLOW_DIFF_SIZE) eqn:Df; [reflexivity|]. cbn [orb]. destruct (64 <? wb) eqn:Lw; [reflexivity|]. cbn [orb].
        destruct (b =? 0) eqn:B0; [reflexivity|]. cbn [orb].
        unfold opRext in H. apply emits_fn in H. cbv zeta in H. cbn [orb] in H. rewrite Hapx in H.
        ebind H j1 j2 d H1 H2. apply emits_ret in H1 as [-> ->]. change (ogetBit (OMem a)) with b in H2. fold wb in H2.
        assert (Ew : bit_ (regOf ext REG wb false) = wb).
        { apply regOf_small; auto. pose proof (mem_bits _ A) as Mb. change (0 <= b < 16384) in Mb. unfold wb. destruct (dis && (b =? 64)); lia. }
        apply opMR_size in H2; auto.
        - rewrite Ew in H2. change (b = wb) in H2. apply Z.eqb_eq. exact H2.
        - rewrite Ew. lia.
        - change (0 < b). pose proof (mo_size _ A) as Sz. change (In b [0; 8; 16; 32; 64; 128; 256; 512]) in Sz. cbn in Sz. lia. }
      rewrite E in Cm. cbn [negb orb] in Cm. exact Cm. }
  assert (CM : isMEM op = true -> m = true).
  { intros M. specialize (CK (or_introl M)). cbv zeta in CK. apply andb_prop in CK as [_ CK]. rewrite M in CK. cbn in CK. exact CK. }
  eapply (rext_says s row (wsel (isMEM op) b) m s1 type code dis ext bit op n lo ex); eauto.
  - destruct op; auto.
  - intros Q. specialize (CK Q). cbv zeta in CK. do 3 (apply andb_prop in CK as [CK ?]). specialize (I Q).
    repeat match goal with |- _ /\ _ => split end; auto.
    + match goal with X : _ || size_isb _ _ _ = true |- _ => apply orb_prop in X as [X|X] end.
      * left. apply andb_prop in H2 as [Q1 Q2]. split; auto. lia.
      * right. now apply size_isb_ok.
    + unfold sized. match goal with X : (_ =? 0) || _ = true |- _ => apply orb_prop in X as [X|X] end; [left; lia|].
      right. rewrite L. cbn [combine]. apply Exists_cons_hd. apply andb_prop in H1 as [Q1 Q2]. cbn. destruct s1; try discriminate. split; auto. fold b. lia.
Qed.
