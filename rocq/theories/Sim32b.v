(* The 32-bit build against the 64-bit build: the encoder helpers. *)
From Coq Require Import ZArith List Bool Lia.
From Verif Require Import Base Types Emit EmitFacts MemFacts BitFacts VexFacts LegacyFacts SpecX86 SpecAddr Encode Encode32 Spec32 Sim32.
Import ListNotations.
Open Scope Z_scope.

Lemma oXMM_w o : oXMM (widen_op o) = oXMM o. Proof. unfold oXMM. now rewrite ob_w. Qed.
Lemma oMMX_w o : oMMX (widen_op o) = oMMX o. Proof. unfold oMMX. now rewrite ob_w. Qed.
Lemma oREG_w o : oREG (widen_op o) = oREG o. Proof. unfold oREG. now rewrite ob_w. Qed.
Lemma oREGb_w o b : oREGb (widen_op o) b = oREGb o b. Proof. unfold oREGb. now rewrite ob_w. Qed.
Lemma oBit_w o b : oBit (widen_op o) b = oBit o b. Proof. unfold oBit. now rewrite ob_w. Qed.
Lemma ogetBit_w o : ogetBit (widen_op o) = ogetBit o. Proof. unfold ogetBit. now rewrite ob_w. Qed.
Lemma ogetIdx_w o : ogetIdx (widen_op o) = ogetIdx o. Proof. unfold ogetIdx. now rewrite ob_w. Qed.
Lemma oKind_w o : oKind (widen_op o) = oKind o. Proof. unfold oKind. now rewrite ob_w. Qed.
Lemma isMEMb_w o b : isMEMb (widen_op o) b = isMEMb o b. Proof. destruct o; reflexivity. Qed.
Lemma isValidSSE_w o : isValidSSE (widen_op o) = isValidSSE o. Proof. unfold isValidSSE. now rewrite oXMM_w, ogetIdx_w. Qed.
Lemma isXMM_XMMorMEM_w o p : isXMM_XMMorMEM (widen_op o) (widen_op p) = isXMM_XMMorMEM o p.
Proof. unfold isXMM_XMMorMEM. now rewrite !oXMM_w, isMEM_w. Qed.
Lemma oREGb_96 o : op32 o -> oREGb o 96 = oREGb o 32. Proof. intros H. apply isREGb_96. now apply op32_ob. Qed.
Lemma oREGb_112 o : op32 o -> oREGb o 112 = oREGb o 48. Proof. intros H. apply isREGb_112. now apply op32_ob. Qed.
Lemma getIdx_w a : addr32 a -> e_index (Types.getRegExp (widen_addr a)) = widen (e_index (getRegExp a)).
Proof. intros H. now rewrite getRegExp_w by exact H. Qed.
Lemma getBase_w a : addr32 a -> e_base (Types.getRegExp (widen_addr a)) = widen (e_base (getRegExp a)).
Proof. intros H. now rewrite getRegExp_w by exact H. Qed.
#[global] Hint Rewrite ob_w isMEM_w oXMM_w oMMX_w oREG_w oREGb_w oBit_w ogetBit_w ogetIdx_w oKind_w isMEMb_w isValidSSE_w isXMM_XMMorMEM_w
  rex2_w rex2nf_w addrRex2_w widen_getIdx widen_hasIdxBit widen_ext widen_ext2 widen_rex2 widen_kind : w.
#[global] Hint Rewrite oREGb_96 oREGb_112 isREGb_96 isREGb_112 isREGb_64 is32bit_w isVsib_w using (assumption || (apply op32_ob; assumption)) : w.
Create HintDb sim.
Ltac wcst := unfold Types.i32e, i32e, Types.BIT, BIT in *; change (16 ||| 96) with 112 in *; change (16 ||| 32) with 48 in *.

Ltac sim1 := match goal with
  | |- bsame _ ?m ?m => apply sim_refl
  | |- bsame _ (fn _ _) (fn _ _) => apply sim_fn
  | |- bsame _ (throw _) (throw _) => apply sim_throw
  | |- bsame _ (if ?c then _ else _) (if ?c then _ else _) => destruct c
  | |- bsame _ (bind _ _) (bind _ _) => apply sim_bind; [|intros]
  | |- bsame _ _ _ => solve [eauto 3 with sim nocore]
  end.
Ltac simr := cbv zeta; wcst; repeat (autorewrite with w; sim1).

Lemma mixed_bits a b : mixed a b = false -> (isBit a 16 && negb (isBit b 96)) = (isBit a 16 && negb (isBit b 32)).
Proof.
  unfold mixed. intros H. apply orb_false_iff in H as [H _]. destruct (isBit a 16); [|reflexivity]. cbn [andb] in *. now rewrite isBit_96.
Qed.
Lemma mixed_sym a b : mixed a b = mixed b a. Proof. unfold mixed. apply orb_comm. Qed.
Lemma mixed_self r : reg32 r -> mixed r r = false.
Proof. intros (_ & _ & _ & H). unfold mixed. destruct (isBit r 16); [now rewrite H|now rewrite andb_false_l]. Qed.
Lemma mixed_noReg r : mixed r noReg = false.
Proof. unfold mixed. change (isBit noReg 64) with false. change (isBit noReg 16) with false. now rewrite andb_false_r. Qed.
Lemma reg32_noReg : reg32 noReg. Proof. repeat split; try (cbn; lia); discriminate. Qed.

Definition wk (o : Operand) : Prop := match o with OReg _ => True | OMem a => addr32 a end.
Lemma op32_wk o : op32 o -> wk o. Proof. destruct o; cbn; auto. Qed.
Lemma wk_reg r : wk (OReg r). Proof. exact Logic.I. Qed.
Lemma wk_mem a : addr32 a -> wk (OMem a). Proof. auto. Qed.
#[global] Hint Resolve op32_wk wk_reg wk_mem : sim.
Section Helpers.
Context {M : Prop}.
Notation sim := (bsame M).

Lemma sim_rex o1 o2 t : wk o1 -> wk o2 -> mixed (ob o1) (ob o2) = false -> sim (rex o1 o2 t) (Encode.rex (widen_op o1) (widen_op o2) t).
Proof.
  intros H1 H2 MX. unfold rex, Encode.rex. apply sim_fn. cbv zeta. wcst. unfold oBit. rewrite !ob_w, !isMEM_w.
  rewrite (mixed_bits _ _ MX). rewrite mixed_sym in MX. rewrite (mixed_bits _ _ MX).
  destruct (NF_ _ || NF_ _); [apply sim_throw|]. destruct (ZU_ _ || ZU_ _); [apply sim_throw|].
  assert (MEM_ : forall a r (c : E unit), addr32 a -> sim
    (c ;;; (when has t T_F2 do db 242) ;;; (when has t T_F3 do db 243) ;;;
      (if regHasRex2 r || addrHasRex2 a
       then if has t (T_0F38 ||| T_0F3A) then throw ERR_CANT_USE_REX2 else
        rex2 (has t T_0F) (rexRXB 3 (isREGb r 64) r (e_base (getRegExp a)) (e_index (getRegExp a))) r (e_base (getRegExp a)) (e_index (getRegExp a)) ;;; ret true
       else (when negb ((if negb (rexRXB 3 (isREGb r 64) r (e_base (getRegExp a)) (e_index (getRegExp a)) =? 0) || isExt8bit r
                then rexRXB 3 (isREGb r 64) r (e_base (getRegExp a)) (e_index (getRegExp a)) ||| 64
                else rexRXB 3 (isREGb r 64) r (e_base (getRegExp a)) (e_index (getRegExp a))) =? 0)
        do db (if negb (rexRXB 3 (isREGb r 64) r (e_base (getRegExp a)) (e_index (getRegExp a)) =? 0) || isExt8bit r
                then rexRXB 3 (isREGb r 64) r (e_base (getRegExp a)) (e_index (getRegExp a)) ||| 64
                else rexRXB 3 (isREGb r 64) r (e_base (getRegExp a)) (e_index (getRegExp a)))) ;;; ret false))
    (c ;;; (when has t T_F2 do db 242) ;;; (when has t T_F3 do db 243) ;;; (when is32bit (widen_addr a) do db 103) ;;;
      (if regHasRex2 r || addrHasRex2 (widen_addr a)
       then if has t (T_0F38 ||| T_0F3A) then throw ERR_CANT_USE_REX2 else
        rex2 (has t T_0F) (rexRXB 3 (isREGb r 64) r (e_base (Types.getRegExp (widen_addr a))) (e_index (Types.getRegExp (widen_addr a)))) r (e_base (Types.getRegExp (widen_addr a))) (e_index (Types.getRegExp (widen_addr a))) ;;; ret true
       else (when negb ((if negb (rexRXB 3 (isREGb r 64) r (e_base (Types.getRegExp (widen_addr a))) (e_index (Types.getRegExp (widen_addr a))) =? 0) || isExt8bit r
                then rexRXB 3 (isREGb r 64) r (e_base (Types.getRegExp (widen_addr a))) (e_index (Types.getRegExp (widen_addr a))) ||| 64
                else rexRXB 3 (isREGb r 64) r (e_base (Types.getRegExp (widen_addr a))) (e_index (Types.getRegExp (widen_addr a)))) =? 0)
        do db (if negb (rexRXB 3 (isREGb r 64) r (e_base (Types.getRegExp (widen_addr a))) (e_index (Types.getRegExp (widen_addr a))) =? 0) || isExt8bit r
                then rexRXB 3 (isREGb r 64) r (e_base (Types.getRegExp (widen_addr a))) (e_index (Types.getRegExp (widen_addr a))) ||| 64
                else rexRXB 3 (isREGb r 64) r (e_base (Types.getRegExp (widen_addr a))) (e_index (Types.getRegExp (widen_addr a))))) ;;; ret false))).
  { intros a r c HA. do 3 (apply sim_bind; [apply sim_refl|intros _]). rewrite (is32bit_w a HA). apply sim_retr.
    rewrite !(getIdx_w a HA), !(getBase_w a HA), addrRex2_w. unfold rex2, rexRXB. rewrite !widen_hasIdxBit. apply sim_refl. }
  destruct o1 as [r1|a1], o2 as [r2|a2]; cbn [isMEM widen_op ob wk] in *.
  - apply sim_refl.
  - apply MEM_. exact H2.
  - apply MEM_. exact H1.
  - apply sim_throw.
Qed.

(* ---- VEX and EVEX ---- *)
Lemma disp8N_cmp t V V' b : (V =? 128) = (V' =? 128) -> (V =? 256) = (V' =? 256) -> (V =? 512) = (V' =? 512) -> evexDisp8N t V b = evexDisp8N t V' b.
Proof. intros A1 A2 A3. unfold evexDisp8N. now rewrite A1, A2, A3. Qed.
Lemma max_cmp x y k n : 128 <= n -> (Z.max (Z.max x 64) y + k =? n + k) = (Z.max (Z.max x 32) y + k =? n + k).
Proof. intros H. destruct (Z.eqb_spec (Z.max (Z.max x 64) y + k) (n + k)), (Z.eqb_spec (Z.max (Z.max x 32) y + k) (n + k)); auto; lia. Qed.
Lemma max_cmp0 x y n : 128 <= n -> (Z.max (Z.max x 64) y =? n) = (Z.max (Z.max x 32) y =? n).
Proof. intros H. pose proof (max_cmp x y 0 n H). now rewrite !Z.add_0_r in H0. Qed.
Lemma widen_noReg : widen noReg = noReg. Proof. reflexivity. Qed.
Lemma isSIMD_widen r : isSIMD (widen r) = isSIMD r. Proof. apply widen_is. Qed.
Lemma isREG_widen r : isREG (widen r) = isREG r. Proof. apply widen_is. Qed.
Lemma isXMM_widen r : isXMM (widen r) = isXMM r. Proof. apply widen_is. Qed.
Lemma isYMM_widen r : isYMM (widen r) = isYMM r. Proof. apply widen_is. Qed.
Lemma isZMM_widen r : isZMM (widen r) = isZMM r. Proof. apply widen_is. Qed.
Lemma verifySAE_w r b t : verifySAE r (widen b) t = verifySAE r b t.
Proof. unfold verifySAE. now rewrite isXMM_widen, isYMM_widen, isZMM_widen. Qed.
Lemma verifyER_w r b t : base32 b -> verifyER r (widen b) t = verifyER r b t.
Proof.
  intros H. unfold verifyER. rewrite isXMM_widen, isYMM_widen, isZMM_widen.
  assert (isREGb (widen b) 96 = isREGb b 96) as ->; [|reflexivity].
  destruct H as [->|(K & B & _)]; [reflexivity|]. unfold isREGb, is_. rewrite widen_kind, K, B. unfold widen, isREG, is_. rewrite K. reflexivity.
Qed.
Lemma sim_evex r b v t c x bc aaa vl hi : base32 b -> sim (evex r b v t c (Some x) bc aaa vl hi) (evex r (widen b) v t c (Some (widen x)) bc aaa vl hi).
Proof.
  intros HB. apply sim_eq. unfold evex. destruct (widen_mods b) as (-> & -> & -> & _).
  rewrite isSIMD_widen, !isREG_widen, !widen_ext, !widen_ext2, verifySAE_w, (verifyER_w _ _ _ HB).
  destruct HB as [->|(K & B & _)]; [reflexivity|].
  assert (getBit (widen b) = 64) as -> by (unfold getBit, widen, isREG, is_; rewrite K; reflexivity).
  assert (getBit b = 32) as -> by exact B. cbv zeta.
  rewrite (max_cmp0 _ _ 512), (max_cmp0 _ _ 256) by lia.
  rewrite (disp8N_cmp t (Z.max (Z.max (getBit r) 64) match v with Some v0 => Z.max vl (getBit v0) | None => vl end) (Z.max (Z.max (getBit r) 32) match v with Some v0 => Z.max vl (getBit v0) | None => vl end) bc) by (apply max_cmp0; lia).
  reflexivity.
Qed.
Lemma sim_vex r b v t c x : sim (vex r b v t c x) (vex r (widen b) v t c x).
Proof. apply sim_eq. unfold vex. now rewrite widen_ext, widen_getIdx. Qed.
Lemma evexLeg_w r b x v t sc : evexLeg r (widen b) (widen x) v t sc = evexLeg r b x v t sc.
Proof.
  unfold evexLeg. destruct (widen_mods b) as (_ & _ & _ & -> & ->), (widen_mods x) as (_ & _ & _ & -> & _). now rewrite !widen_ext, !widen_ext2.
Qed.
Lemma addr32_set a f : addr32 a -> a_op (f a) = a_op a -> a_e (f a) = a_e a -> a_mode (f a) = a_mode a -> a_label (f a) = a_label a -> addr32 (f a).
Proof. unfold addr32. intros H -> -> -> ->. exact H. Qed.
Lemma addr32_imm a n : addr32 a -> addr32 (set_immSize a n). Proof. intros H. now apply (addr32_set a (fun a => set_immSize a n)). Qed.
Lemma addr32_d8 a n : addr32 a -> addr32 (set_disp8N a n). Proof. intros H. now apply (addr32_set a (fun a => set_disp8N a n)). Qed.
Lemma addr32_vsib a : addr32 a -> addr32 (set_permitVsib a). Proof. intros H. now apply (addr32_set a set_permitVsib). Qed.
Lemma addr32_clone a : addr32 a -> addr32 (cloneNoOptimize a). Proof. intros H. now apply (addr32_set a cloneNoOptimize). Qed.
#[local] Hint Resolve addr32_imm addr32_d8 addr32_vsib addr32_clone reg32_noReg : sim.

Lemma sim_opVex r p o t c i : wk o -> sim (opVex r p o t c i) (Encode.opVex r p (widen_op o) t c i).
Proof.
  intros H. unfold opVex, Encode.opVex. apply sim_fn. apply sim_bind; [|intros _; apply sim_refl]. destruct o as [b|a]; [apply sim_refl|].
  cbn [widen_op wk] in *. cbv zeta. rewrite (is32bit_w a H). apply sim_retr. rewrite getRegExp_w by exact H. cbn [e_base e_index widen_exp].
  rewrite addrRex2_w. change (a_broadcast (widen_addr a)) with (a_broadcast a). change (a_op (widen_addr a)) with (a_op a).
  pose proof (getRegExp_32 _ H) as (HB & HI & _).
  apply sim_bind.
  - destruct (_ || addrHasRex2 a); [|apply sim_bind; [rewrite widen_ext; apply sim_vex|intros; apply sim_refl]].
    destruct (_ && negb (has t T_M_K)); [apply sim_throw|]. destruct (_ && negb (has t (T_B32 ||| T_B64))); [apply sim_throw|].
    unfold isVsibE, vsib_bits. rewrite isSIMD_widen, widen_ext2. cbn [widen_exp e_index]. rewrite vsib_w by exact HI.
    replace (if isBit (e_index (getRegExp a)) 896 then getBit (widen (e_index (getRegExp a))) else 0)
      with (if isBit (e_index (getRegExp a)) 896 then getBit (e_index (getRegExp a)) else 0).
    + apply sim_evex. exact HB.
    + unfold isBit, getBit. destruct (index_bits _ HI) as [[-> ->]|[(-> & -> & _)|(_ & -> & _)]]; reflexivity.
  - intros d8. repeat match goal with |- context [if ?c then _ else _] => destruct c end;
      match goal with |- sim (opAddr ?x _) _ => apply (sim_opAddr x); eauto with sim nocore end.
Qed.
Lemma sim_opROO d o1 o2 t c i sc : wk o1 -> wk o2 -> sim (opROO d o1 o2 t c i sc) (Encode.opROO d (widen_op o1) (widen_op o2) t c i sc).
Proof.
  intros H1 H2. unfold opROO, Encode.opROO. apply sim_fn. rewrite !rex2nf_w, !isMEM_w. destruct (_ && negb _); [apply sim_refl|].
  assert (MEM_ : forall a r c, addr32 a -> sim (evexLeg r (e_base (getRegExp a)) (e_index (getRegExp a)) d t sc ;;; writeCode t d c false ;;; opAddr (set_immSize a i) (getIdx r) ;;; ret true)
      (evexLeg r (e_base (Types.getRegExp (widen_addr a))) (e_index (Types.getRegExp (widen_addr a))) d t sc ;;; writeCode t d c false ;;; Encode.opAddr (set_immSize (widen_addr a) i) (getIdx r) ;;; ret true)).
  { intros a r c' H. rewrite getIdx_w, getBase_w by exact H. rewrite evexLeg_w. apply sim_bind; [apply sim_refl|intros _]. apply sim_bind; [apply sim_refl|intros _].
    apply sim_bind; [apply (sim_opAddr (set_immSize a i)); eauto with sim nocore|intros _; apply sim_refl]. }
  destruct o1 as [r1|a1], o2 as [r2|a2]; cbn [isMEM widen_op wk ob] in *.
  - apply sim_refl.
  - apply MEM_. exact H2.
  - apply MEM_. exact H1.
  - apply sim_throw.
Qed.

Lemma bit_regOf i k b e : 0 <= b < 16384 -> bit_ (regOf i k b e) = b.
Proof. intros H. cbn. now apply Z.mod_small. Qed.
Lemma mixed_regOf i k b e r : 0 <= b < 16384 -> isBit r 16 = false \/ has b 64 = false -> isBit r 64 = false \/ has b 16 = false -> mixed (regOf i k b e) r = false.
Proof.
  intros H H1 H2. unfold mixed, isBit. rewrite bit_regOf by exact H. unfold isBit in *.
  destruct H1 as [H1|H1], H2 as [H2|H2]; rewrite H1, H2, ?andb_false_r, ?andb_false_l; reflexivity.
Qed.
Lemma mixed_ext i o e : reg32 (ob o) -> mixed (regOf i REG (ogetBit o) e) (ob o) = false.
Proof.
  intros (_ & B & _ & H). apply mixed_regOf; [exact B| |]; unfold ogetBit, getBit, isBit in *.
  - destruct (has (bit_ (ob o)) 16); auto.
  - destruct (has (bit_ (ob o)) 16); auto.
Qed.
Lemma mixed_32 r i : mixed (Reg32 i) r = false.
Proof. apply mixed_regOf; [lia|right; reflexivity|right; reflexivity]. Qed.
Lemma mixed_8 r i : mixed (Reg8 i) r = false.
Proof. apply mixed_regOf; [lia|right; reflexivity|right; reflexivity]. Qed.

(* ---- helpers for legacy instructions ---- *)
(* the size checks of opMR in the two builds agree *)
Lemma sim_opRR r1 r2 t c : mixed r1 r2 = false -> sim (opRR r1 r2 t c) (Encode.opRR r1 r2 t c).
Proof.
  intros MX. unfold opRR, Encode.opRR. apply sim_fn. destruct (_ && negb _); [apply sim_throw|]. destruct (_ && (_ || _)); [apply sim_throw|].
  apply sim_bind; [|intros; apply sim_refl]. apply (sim_rex (OReg r2) (OReg r1)); [exact Logic.I|exact Logic.I|]. cbn [ob]. now rewrite mixed_sym.
Qed.
Lemma mode_32 a : addr32 a -> AMode_beq (a_mode a) M_64bitDisp = false /\ AMode_beq (a_mode (widen_addr a)) M_64bitDisp = false.
Proof. intros (_ & _ & Q & _). unfold widen_addr. cbn [a_mode]. rewrite Q. destruct (isOnlyDisp a); split; reflexivity. Qed.
Lemma sim_opMR a r t c t2 c2 : addr32 a -> mixed r (a_op a) = false -> (M -> fits r (a_op a)) -> sim (opMR a r t c t2 c2) (Encode.opMR (widen_addr a) r t c t2 c2).
Proof.
  intros H MX FT. unfold opMR, Encode.opMR. apply sim_fn. cbv zeta. apply sim_bind.
  - destruct (negb (t2 =? 0)); [|apply sim_refl]. apply (sim_opROO noReg (OMem a) (OReg r)); [exact H|exact Logic.I].
  - intros [|]; [apply sim_refl|]. unfold is64bitDisp. destruct (mode_32 a H) as [-> ->].
    change (a_op (widen_addr a)) with (a_op a). wcst.
    assert (sim (x2 <- rex (OMem a) (OReg r) t ;; writeCode t r c x2 ;;; opAddr a (getIdx r))
              (x2 <- Encode.rex (OMem (widen_addr a)) (OReg r) t ;; writeCode t r c x2 ;;; Encode.opAddr (widen_addr a) (getIdx r))) as [S1 S2].
    { apply sim_bind; [|intros x; apply sim_bind; [apply sim_refl|intros _; now apply sim_opAddr]].
      apply (sim_rex (OMem a) (OReg r)); [exact H|exact Logic.I|]. cbn [ob]. now rewrite mixed_sym. }
    destruct (negb (has t T_ALLOW_DIFF_SIZE) && (getBit r <=? 64) && (0 <? getBit (a_op a)) && negb (getBit (a_op a) =? getBit r)) eqn:Q;
    destruct (negb (has t T_ALLOW_DIFF_SIZE) && (getBit r <=? 32) && (0 <? getBit (a_op a)) && negb (getBit (a_op a) =? getBit r)) eqn:Q3.
    + apply sim_throw.
    + split; [intros env pos its u J; destruct (emits_throw _ _ _ _ _ J)|]. intros Q0. exfalso. specialize (FT Q0). destruct (has t T_ALLOW_DIFF_SIZE); [discriminate Q|].
      cbn [negb andb] in *. apply andb_true_iff in Q as [Q QD]. apply andb_true_iff in Q as [QA QB]. rewrite QB, QD in Q3. rewrite !andb_true_r in Q3.
      apply Z.leb_le in QA. apply Z.leb_gt in Q3. apply Z.ltb_lt in QB. apply negb_true_iff, Z.eqb_neq in QD. unfold getBit in *. destruct FT as [F|[F|F]]; lia.
    + exfalso. destruct (has t T_ALLOW_DIFF_SIZE); [discriminate Q3|]. cbn [negb andb] in *. destruct (getBit r <=? 32) eqn:Q4; [|discriminate Q3].
      replace (getBit r <=? 64) with true in Q by (symmetry; apply Z.leb_le; apply Z.leb_le in Q4; lia). cbn [andb] in *. congruence.
    + split; [exact S1|exact S2].
Qed.
Lemma sim_opMR0 a r t c t2 c2 n : addr32 a -> mixed r (a_op a) = false -> (M -> fits r (a_op a)) -> sim (opMR (set_immSize a n) r t c t2 c2) (Encode.opMR (set_immSize (widen_addr a) n) r t c t2 c2).
Proof. intros H MX FT. apply (sim_opMR (set_immSize a n)); [now apply addr32_imm|exact MX|exact FT]. Qed.
Lemma sim_opLoadSeg a r t c : addr32 a -> mixed r (a_op a) = false -> sim (opLoadSeg a r t c) (Encode.opLoadSeg (widen_addr a) r t c).
Proof.
  intros H MX. unfold opLoadSeg, Encode.opLoadSeg. apply sim_fn. destruct (isBit r 8); [apply sim_throw|]. unfold is64bitDisp. destruct (mode_32 a H) as [-> ->].
  apply sim_bind; [apply (sim_rex (OMem a) (OReg r)); [exact H|exact Logic.I|cbn [ob]; now rewrite mixed_sym]|intros].
  apply sim_bind; [apply sim_refl|intros]. apply sim_bind; [apply sim_refl|intros]. now apply sim_opAddr.
Qed.
Lemma sim_opMIB a r t c : addr32 a -> mixed r (a_op a) = false -> (M -> fits r (a_op a)) -> isOnlyDisp a = false -> sim (opMIB a r t c) (Encode.opMIB (widen_addr a) r t c).
Proof.
  intros H MX FT OD. unfold opMIB, Encode.opMIB. apply sim_fn. assert (a_mode (widen_addr a) = a_mode a) as -> by (unfold widen_addr; rewrite OD; reflexivity).
  destruct (negb _); [apply sim_throw|]. apply (sim_opMR (cloneNoOptimize a)); [now apply addr32_clone|exact MX|exact FT].
Qed.
Lemma setBit_same r b : isBit r b = true -> sim (setBit r b) (Emit.setBit r b).
Proof. intros H. unfold setBit, Emit.setBit. apply sim_fn. destruct (negb _); [apply sim_throw|]. rewrite H. apply sim_refl. Qed.
Lemma setBit_vec r b : 128 <= b -> sim (setBit r b) (Emit.setBit r b).
Proof.
  intros H. unfold setBit, Emit.setBit. apply sim_fn. destruct (negb _); [apply sim_throw|]. destruct (isBit r b); [apply sim_refl|].
  destruct (is_ r _ 0); [apply sim_refl|]. destruct (is_ r _ 0); [|apply sim_throw]. destruct (_ && _ && _); [apply sim_throw|].
  destruct (b =? 8) eqn:Q; [apply Z.eqb_eq in Q; lia|]. destruct (b =? 16) eqn:Q1; [apply Z.eqb_eq in Q1; lia|]. destruct (b =? 32) eqn:Q2; [apply Z.eqb_eq in Q2; lia|].
  destruct (b =? 64) eqn:Q3; [apply Z.eqb_eq in Q3; lia|]. apply sim_refl.
Qed.
Lemma setBit_32 r : reg32 r -> sim (setBit r 32) (Emit.setBit r 32).
Proof.
  intros ((I1 & I2) & _). unfold setBit, Emit.setBit. apply sim_fn. cbn [Z.eqb Pos.eqb orb negb].  destruct (isBit r 32); [apply sim_refl|].
  destruct (is_ r _ 0); [apply sim_refl|]. destruct (is_ r _ 0); [|apply sim_throw]. destruct (_ && _ && _); [apply sim_throw|].
  assert (getIdx r = idx_ r) as -> by (unfold getIdx; change 31 with (Z.ones 5); rewrite Z.land_ones by lia; apply Z.mod_small; lia).
  destruct (16 <=? idx_ r) eqn:Q; [apply Z.leb_le in Q; lia|]. destruct (32 <=? idx_ r) eqn:Q1; [apply Z.leb_le in Q1; lia|]. apply sim_refl.
Qed.
End Helpers.
#[global] Hint Resolve sim_refl sim_opAddr sim_opVex sim_opROO : sim.
#[global] Hint Resolve addr32_imm addr32_d8 addr32_vsib addr32_clone reg32_noReg : sim.
