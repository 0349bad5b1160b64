(* C27: segment override prefixes and moves from and to segment registers. *)
From Coq Require Import ZArith List Bool Lia.
From Verif Require Import Base Types Emit Encode SpecX86 SpecAddr Wf EmitFacts BitFacts MemFacts LegacyFacts EncThms LegFacts SpecReg RegFacts SpecSeg.
Import ListNotations.
Open Scope Z_scope.

Definition pseg (x : segreg) (p : prefixes) : prefixes :=
  mkPfx (p_66 p) (p_67 p) (p_F2 p) (p_F3 p) (p_lock p) (Some match p_seg p with Some y => y | None => x end).
Lemma step_seg x p b : prefix_step (pseg x p) b = option_map (pseg x) (prefix_step p b).
Proof.
  unfold prefix_step, pseg; cbn [p_66 p_67 p_F2 p_F3 p_lock p_seg].
  repeat match goal with |- context [if b =? ?k then _ else _] => destruct (b =? k); [reflexivity|] end. reflexivity.
Qed.
Lemma scan_seg x bs : forall p, scan_prefixes (pseg x p) bs = (let (q, r) := scan_prefixes p bs in (pseg x q, r)).
Proof.
  induction bs as [|b bs IH]; intros p; cbn [scan_prefixes]; [reflexivity|]. rewrite step_seg. destruct (prefix_step p b); cbn [option_map]; auto.
Qed.
Lemma no_simd_seg x p : no_simd_pfx (pseg x p) = no_simd_pfx p. Proof. reflexivity. Qed.
Lemma dec_legacy_seg x p a b c d e bs : dec_legacy (pseg x p) a b c d e bs = hseg x (dec_legacy p a b c d e bs).
Proof. unfold dec_legacy. destruct (dec_opcode bs) as [[[m o] r]|]; reflexivity. Qed.
Lemma dec_header_seg x b bs : prefix_step pfx0 b = Some (pseg x pfx0) -> dec_header (b :: bs) = hseg x (dec_header bs).
Proof.
  intros H. unfold dec_header. cbn [scan_prefixes]. rewrite H, scan_seg. destruct (scan_prefixes pfx0 bs) as [p r]. destruct r as [|o r]; [reflexivity|].
  rewrite no_simd_seg.
  repeat match goal with |- (if ?c then _ else _) = hseg x (if ?c then _ else _) => destruct c end;
    try (apply dec_legacy_seg); try reflexivity.
  - destruct r as [|q [|o1 r]]; reflexivity.
  - destruct r as [|q [|o1 r]]; reflexivity.
  - destruct r as [|q1 [|q2 [|o1 r]]]; reflexivity.
  - destruct r as [|q1 [|q2 [|q3 [|o1 r]]]]; reflexivity.
Qed.
Lemma dec_rm_seg x h v n bs : dec_rm (with_seg x h) v n bs = dec_rm h v n bs.
Proof. reflexivity. Qed.
Lemma decode_seg x b v n bs : prefix_step pfx0 b = Some (pseg x pfx0) ->
  decode v n (b :: bs) = match decode v n bs with Some (h, reg, rm, r) => Some (with_seg x h, reg, rm, r) | None => None end.
Proof.
  intros H. unfold decode. rewrite (dec_header_seg x) by auto. destruct (dec_header bs) as [[h r]|]; [|reflexivity]. cbn [hseg].
  change (h_space (with_seg x h)) with (h_space h). rewrite dec_rm_seg. destruct (dec_rm h v _ r) as [[[reg rm] r']|]; reflexivity.
Qed.

Lemma putSeg_ok s g env pos its u x : g = FS \/ g = GS -> seg_is g x -> emits (putSeg g) env pos its u ->
  (forall rest, dec_header (render s its ++ rest) = hseg x (dec_header rest))
  /\ forall v n rest, decode v n (render s its ++ rest)
     = match decode v n rest with Some (h, reg, rm, r) => Some (with_seg x h, reg, rm, r) | None => None end.
Proof.
  intros G X H. destruct G as [-> | ->]; apply emits_db in H as ->; cbn [render render1 app]; destruct x; try contradiction;
    (split; intros; [apply dec_header_seg|apply decode_seg]; reflexivity).
Qed.
Lemma putSeg_wrong s g env pos its u x : g = ES \/ g = CS \/ g = SS \/ g = DS -> seg_is g x -> emits (putSeg g) env pos its u ->
  exists y, y <> x /\ forall rest, dec_header (render s its ++ rest) = hseg y (dec_header rest).
Proof.
  intros G X H. destruct G as [-> |[-> |[-> | ->]]]; apply emits_db in H as ->; cbn [render render1 app]; destruct x; try contradiction.
  - exists SegCS. split; [discriminate|]. intros; apply dec_header_seg; reflexivity.
  - exists SegSS. split; [discriminate|]. intros; apply dec_header_seg; reflexivity.
  - exists SegDS. split; [discriminate|]. intros; apply dec_header_seg; reflexivity.
  - exists SegES. split; [discriminate|]. intros; apply dec_header_seg; reflexivity.
Qed.
(* push fs, pop gs, ... *)
Lemma push_seg_ok s g (isPop : bool) env pos its u : g = FS \/ g = GS -> emits (if isPop then pop_seg g else push_seg g) env pos its u ->
  render s its = [0x0F; (match g with FS => 0xA0 | _ => 0xA8 end) + (if isPop then 1 else 0)].
Proof.
  intros G H. destruct G as [-> | ->], isPop; try (unfold pop_seg in H; apply emits_fn in H);
    apply emits_bind in H as (i1 & i2 & a & H1 & H2 & ->); apply emits_db in H1 as ->; apply emits_db in H2 as ->; reflexivity.
Qed.
Lemma push_seg_bad s g (isPop : bool) env pos its u : g <> FS -> g <> GS -> emits (if isPop then pop_seg g else push_seg g) env pos its u ->
  exists o, render s its = [o] /\ invalid64 o = true.
Proof.
  intros N1 N2 H. destruct g, isPop; try congruence; try (unfold pop_seg in H; apply emits_fn in H); try (einv H; fail); apply emits_db in H as ->; eexists; split; reflexivity.
Qed.

(* mov r/m, Sreg and mov Sreg, r/m *)
Definition seg_type : Z := T_ALLOW_DIFF_SIZE ||| T_ALLOW_ABCDH.
Lemma sreg_ro s g op code cond n env pos its u rest x : seg_is g x -> code = 0x8C \/ code = 0x8E ->
  match op with OReg q => gpr q | OMem a => mem_ok a end ->
  emits (opRO (Reg8 (segIdx g)) op seg_type code cond n) env pos its u ->
  exists h rm, decode false 1 (render s its ++ rest) = Some (h, sreg_num x, rm, rest)
    /\ h_space h = Legacy /\ h_map h = 0 /\ h_opc h = code /\ h_F2 h = false /\ h_F3 h = false /\ h_lock h = false /\ h_seg h = None
    /\ op_means op h rm
    /\ match op with OReg q => h_W h = (bit_ q =? 64) /\ h_66 h = (bit_ q =? 16) /\ cond = true | OMem a => h_W h = false end.
Proof.
  intros X C W H. unfold opRO in H. apply emits_fn in H. assert (R : regno (Reg8 (segIdx g)) = sreg_num x) by (destruct g, x; try contradiction; reflexivity).
  assert (B4 : isREG (Reg8 (segIdx g)) = false -> bit4 (Reg8 (segIdx g)) = false) by (intros Q; discriminate Q).
  assert (F : final_opc seg_type (Reg8 (segIdx g)) code = code) by (destruct C as [-> | ->]; reflexivity).
  assert (O : opcode_ok (getMap seg_type) (final_opc seg_type (Reg8 (segIdx g)) code) = true) by (rewrite F; destruct C as [-> | ->]; reflexivity).
  destruct op as [q|a].
  - destruct cond; [|einv H].
    assert (G1 : isREG q = true) by (destruct W as [K _]; unfold isREG, is_; rewrite K; reflexivity).
    eapply (legacy_reg_lemma s _ _ _ _ _ _ _ rest) in H as (h & D & H1 & H2 & H3 & H4 & H5 & _ & H6 & H7 & H8 & H9 & _); auto; try (intros Q; congruence); try (intros _; reflexivity).
    exists h, (RReg (regno q) (regno q)). rewrite <- R. rewrite F in H3. do 8 (split; [auto; fail|]). split; [reflexivity|].
    split; [|split; auto].
    + rewrite H4. replace (isREGb (Reg8 (segIdx g)) 64) with false by (destruct g; reflexivity). cbn [orb]. destruct W as (K & [[[Q|[Q|[Q|Q]]] _]|[Q _]]); unfold isREGb, is_; rewrite K, Q; reflexivity.
    + rewrite H5. unfold pfx66. replace (isBit (Reg8 (segIdx g)) 16) with false by (destruct g; reflexivity). replace (isBit (Reg8 (segIdx g)) i32e) with false by (destruct g; reflexivity).
      destruct W as (K & [[[Q|[Q|[Q|Q]]] _]|[Q _]]); unfold isBit; rewrite Q; reflexivity.
  - pose proof (set_imm_ok a n W) as W'. eapply (legacy_mem_lemma s _ _ _ _ _ _ _ rest) in H as (h & m & D & Dn & H1 & H2 & H3 & H4 & H5 & H6 & H7 & H8 & H9); auto;
      try (apply W'); try (intros _; reflexivity).
    exists h, (RMem m). rewrite <- R. rewrite F in H3. do 8 (split; [auto; fail|]). split; [exists m; split; [reflexivity|exact Dn]|].
    rewrite H4. destruct g; reflexivity.
Qed.
Lemma mov_from s g op env pos its u rest x : seg_is g x ->
  match op with OReg q => gpr q | OMem a => mem_ok a end ->
  emits (mov_o_seg op g) env pos its u ->
  exists h rm, decode false 1 (render s its ++ rest) = Some (h, sreg_num x, rm, rest)
    /\ h_space h = Legacy /\ h_map h = 0 /\ h_opc h = 0x8C /\ h_F2 h = false /\ h_F3 h = false /\ h_lock h = false /\ h_seg h = None
    /\ op_means op h rm
    /\ match op with OReg q => h_W h = (bit_ q =? 64) /\ h_66 h = (bit_ q =? 16) /\ bit_ q <> 8 | OMem a => h_W h = false end.
Proof.
  intros X W H. unfold mov_o_seg in H. eapply (sreg_ro s g op 0x8C _ _ _ _ _ _ rest) in H as (h & rm & H); eauto. exists h, rm.
  destruct H as (H1 & H2 & H3 & H4 & H5 & H6 & H7 & H8 & H9 & H10). do 9 (split; [assumption|]). destruct op; auto.
  destruct H10 as (A & B & C). split; auto. split; auto. intros Q. unfold oREGb in C. cbn [ob] in C. destruct W as (K & _). unfold isREGb, is_ in C. rewrite K, Q in C. discriminate.
Qed.
Lemma mov_to s g op env pos its u rest x : seg_is g x ->
  match op with OReg q => gpr q | OMem a => mem_ok a end ->
  emits (mov_seg_o g op) env pos its u ->
  exists h rm, decode false 1 (render s its ++ rest) = Some (h, sreg_num x, rm, rest)
    /\ h_space h = Legacy /\ h_map h = 0 /\ h_opc h = 0x8E /\ h_F2 h = false /\ h_F3 h = false /\ h_lock h = false /\ h_seg h = None
    /\ op_means op h rm
    /\ match op with OReg q => bit_ q <> 8 | OMem a => True end.
Proof.
  intros X W H. unfold mov_seg_o in H. apply emits_bind in H as (i1 & i2 & op' & H1 & H2 & ->). destruct op as [q|a].
  - cbn [ob] in *. unfold oREGb in *. cbn [ob] in *. destruct (isREGb q (16 ||| i32e)) eqn:C.
    + apply emits_bind in H1 as (j1 & j2 & r & H1 & H3 & ->). apply emits_ret in H3 as [-> ->].
      assert (N : env_noexc env = false) by (destruct H2; auto).
      assert (B8 : bit_ q <> 8) by (intros Q; destruct W as (K & _); unfold isREGb, is_ in C; rewrite K, Q in C; discriminate).
      assert (M : gpr_meaning q = BLow (regno q)) by (unfold gpr_meaning; destruct (bit_ q =? 8) eqn:Q; [lia|reflexivity]).
      destruct (gpr_resize q 32 env pos W ltac:(cbn; auto) N) as [_ P]. destruct P as (q' & P1 & P2 & P3 & P4); [intros [[k Hk] _]; congruence|].
      apply emits_bind in H1 as (k1 & k2 & q2 & [_ H1] & H3 & ->). rewrite P1 in H1. injection H1 as <- <-. apply emits_ret in H3 as [-> ->]. cbn [app] in *.
      assert (Rq : regno (Reg32 (getIdx q')) = regno q).
      { rewrite M in P4. unfold gpr_meaning in P4. replace (bit_ q' =? 8) with false in P4 by lia. injection P4 as P4. rewrite <- P4, regno_getIdx.
        unfold regno at 1, Reg32, regOf. cbn [idx_]. rewrite Z.lor_0_r. assert (0 <= regno q' < 32) by (unfold regno; apply Z.mod_pos_bound; lia).
        rewrite (Z.mod_small _ 64), Z.mod_small by lia. reflexivity. }
      assert (G : gpr (Reg32 (getIdx q'))).
      { split; [reflexivity|]. left. split; [cbn; auto|]. unfold Reg32, regOf; cbn [idx_]. rewrite regno_getIdx, Z.lor_0_r. assert (0 <= regno q' < 32) by (unfold regno; apply Z.mod_pos_bound; lia).
        rewrite Z.mod_small by lia. lia. }
      eapply (sreg_ro s g (OReg _) 0x8E _ _ _ _ _ _ rest) in H2 as (h & rm & H); eauto. exists h, rm.
      destruct H as (H1 & H2 & H3 & H4 & H5 & H6 & H7 & H8 & H9 & H10). do 8 (split; [assumption|]). split; auto. cbn [op_means] in H9 |- *. rewrite Rq in H9. exact H9.
    + apply emits_ret in H1 as [-> ->]. eapply (sreg_ro s g (OReg q) 0x8E _ _ _ _ _ _ rest) in H2 as (h & rm & H); eauto. destruct H as (_ & _ & _ & _ & _ & _ & _ & _ & _ & _ & _ & Q). discriminate.
  - assert (Q : oREGb (OMem a) (16 ||| i32e) = false).
    { pose proof (wm_kind _ (mo_wf _ W)) as K. unfold oREGb, isREGb, is_. cbn [ob]. rewrite K. reflexivity. }
    rewrite Q in *. apply emits_ret in H1 as [-> ->]. eapply (sreg_ro s g (OMem a) 0x8E _ _ _ _ _ _ rest) in H2 as (h & rm & H); eauto. exists h, rm.
    destruct H as (H1 & H2 & H3 & H4 & H5 & H6 & H7 & H8 & H9 & H10). do 8 (split; [assumption|]). auto.
Qed.
