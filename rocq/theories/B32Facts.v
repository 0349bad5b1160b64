(* The 32-bit build: methods that are not in the table of Sim32Tables.v. *)
From Coq Require Import ZArith List Bool Lia.
From Verif Require Import Base Types Emit EmitFacts MemFacts BitFacts VexFacts LegacyFacts SpecX86 SpecAddr Encode Encode32
  Mnemonic Mnemonic32 MnemonicAvx MnemonicAvx32 Spec32 SpecB32 SpecFixed FixedFacts Sim32 Sim32b Sim32c Sim32d.
Import ListNotations.
Open Scope Z_scope.

(* the same address as a 64-bit memory operand *)
Definition qword (a : Address) : Address :=
  mkAddr (set_kindbit (a_op a) (kind_ (a_op a)) 64) (a_e a) (a_label a) (a_mode a) (immSize a) (disp8N a) (permitVsib a) (a_broadcast a) (a_optimize a).

Lemma isREG_64 r : reg32 r -> isREG r = true -> isBit r 64 = false. Proof. intros (_ & _ & H & _). exact H. Qed.
Lemma isBit_112 r : isBit r 64 = false -> isBit r 112 = isBit r 48.
Proof. unfold isBit. change 112 with (48 ||| 64). rewrite has_lor. intros ->. apply orb_false_r. Qed.

Section Calls.
Context {M : Prop}.
Notation sim := (bsame M).
Lemma b_lea r a : reg32 r -> isREG r = true -> addr32 a -> mixed r (a_op a) = false -> (M -> no_mmx (OReg r)) ->
  sim (Mnemonic32.i_lea r a) (Mnemonic.i_lea r (widen_addr a)).
Proof.
  intros R K A X N. unfold Mnemonic32.i_lea, Mnemonic.i_lea. apply sim_fn. wcst. rewrite (isBit_112 r) by (apply isREG_64; auto).
  destruct (negb _); [apply sim_throw|]. apply sim_opMR; auto. intros Q. apply fits_nm. auto.
Qed.
Lemma b_vmovmskps r x : reg32 r -> isREG r = true -> sim (Mnemonic32.i_vmovmskps r x) (Mnemonic.i_vmovmskps r x).
Proof.
  intros R K. unfold Mnemonic32.i_vmovmskps, Mnemonic.i_vmovmskps. apply sim_fn. wcst. rewrite (isBit_96 r) by (apply isREG_64; auto).
  destruct (negb _); [apply sim_throw|]. apply (sim_opAVX_X_X_XM _ (OReg _) (OReg _)); exact Logic.I.
Qed.
Lemma b_vmovmskpd r x : reg32 r -> isREG r = true -> sim (Mnemonic32.i_vmovmskpd r x) (Mnemonic.i_vmovmskpd r x).
Proof.
  intros R K. unfold Mnemonic32.i_vmovmskpd, Mnemonic.i_vmovmskpd. apply sim_fn. wcst. rewrite (isBit_96 r) by (apply isREG_64; auto).
  destruct (negb _); [apply sim_throw|]. apply (sim_opAVX_X_X_XM _ (OReg _) (OReg _)); exact Logic.I.
Qed.
Lemma b_vfpclasspbf16 k o i : reg32 k -> op32 o -> ogetBit o <> 8 -> sim (MnemonicAvx32.i_vfpclasspbf16 k o i) (MnemonicAvx.i_vfpclasspbf16 k (widen_op o) i).
Proof.
  intros R H B. unfold MnemonicAvx32.i_vfpclasspbf16, MnemonicAvx.i_vfpclasspbf16. cbv zeta. rewrite ob_w. apply sim_bind; [apply setBit_sim; auto|].
  intros x. apply sim_opVex. now apply op32_wk.
Qed.
Lemma b_bndldx r a : addr32 a -> isOnlyDisp a = false -> mixed r (a_op a) = false -> (M -> no_mmx (OReg r)) -> sim (Mnemonic32.i_bndldx r a) (Mnemonic.i_bndldx r (widen_addr a)).
Proof. intros A D X N. apply sim_opMIB; auto. intros Q. apply fits_nm. auto. Qed.
Lemma b_bndstx a r : addr32 a -> isOnlyDisp a = false -> mixed r (a_op a) = false -> (M -> no_mmx (OReg r)) -> sim (Mnemonic32.i_bndstx a r) (Mnemonic.i_bndstx (widen_addr a) r).
Proof. intros A D X N. apply sim_opMIB; auto. intros Q. apply fits_nm. auto. Qed.
(* an accumulator register and a memory operand with a displacement only *)
Definition moffs (o1 o2 : Operand) : bool :=
  match o1, o2 with
  | OReg r, OMem a | OMem a, OReg r => isREG r && (getIdx r =? 0) && isOnlyDisp a
  | _, _ => false
  end.
Lemma b_mov_oo o1 o2 : op32 o1 -> op32 o2 -> moffs o1 o2 = false -> mixed (ob o1) (ob o2) = false -> (M -> no_mmx o1 /\ no_mmx o2) ->
  sim (Encode32.mov_oo o1 o2) (Encode.mov_oo (widen_op o1) (widen_op o2)).
Proof.
  intros H1 H2 D X N. unfold Encode32.mov_oo, Encode.mov_oo. apply sim_fn. cbv zeta.
  assert (R : sim (opRO_MR o1 o2 136) (Encode.opRO_MR (widen_op o1) (widen_op o2) 136)) by (apply sim_opRO_MR; auto using op32_wk; intros Q; apply fit_opsnm; auto).
  destruct o1 as [r1|a1], o2 as [r2|a2]; cbn [widen_op] in *; try exact R; cbn [moffs] in D.
  - destruct (isREG r1 && (getIdx r1 =? 0)); [|exact R]. cbn [andb] in D. unfold is64bitDisp. rewrite D, (proj2 (mode_32 a2 H2)). exact R.
  - destruct (isREG r2 && (getIdx r2 =? 0)); [|exact R]. cbn [andb] in D. unfold is64bitDisp. rewrite D, (proj2 (mode_32 a1 H1)). exact R.
Qed.
Definition eax_ (o : Operand) : bool := oREGb o 32 && (ogetIdx o =? 0).
Lemma b_xchg o1 o2 : op32 o1 -> op32 o2 -> eax_ o1 && oREG o2 && (ogetIdx o2 =? 0) = false -> eax_ o2 && oREG o1 && (ogetIdx o1 =? 0) = false ->
  mixed (ob o1) (ob o2) = false -> (M -> no_mmx o1 /\ no_mmx o2) ->
  sim (Encode32.xchg o1 o2) (Encode.xchg (widen_op o1) (widen_op o2)).
Proof.
  intros H1 H2 D1 D2 X N. unfold Encode32.xchg, Encode.xchg. apply sim_fn. wcst. rewrite !isMEM_w, oREGb_w, ogetIdx_w, (oREGb_112 o2) by exact H2.
  assert (P : forall p1 p2, op32 p1 -> op32 p2 -> eax_ p1 && oREG p2 && (ogetIdx p2 =? 0) = false -> mixed (ob p1) (ob p2) = false -> (M -> no_mmx p1 /\ no_mmx p2) ->
    sim (if isMEM p1 then throw ERR_BAD_COMBINATION else if oREG p2 && (oREGb p1 48 && (ogetIdx p1 =? 0)) then rex p2 p1 0 ;;; db (144 ||| (ogetIdx p2 &&& 7))
       else let '(p1, p2) := if oREG p1 && oREG p2 then (p2, p1) else (p1, p2) in
         opRO (ob p1) p2 0 (134 ||| (if oBit p1 8 then 0 else 1)) (oREG p1 && (ogetBit p1 =? ogetBit p2)) 0)
      (let p1 := widen_op p1 in let p2 := widen_op p2 in if isMEM p1 then throw ERR_BAD_COMBINATION else if oREG p2 && (oREGb p1 112 && (ogetIdx p1 =? 0)) && (negb (ogetIdx p2 =? 0) || negb (oREGb p1 32)) then Encode.rex p2 p1 0 ;;; db (144 ||| (ogetIdx p2 &&& 7))
       else let '(p1, p2) := if oREG p1 && oREG p2 then (p2, p1) else (p1, p2) in
         Encode.opRO (ob p1) p2 0 (134 ||| (if oBit p1 8 then 0 else 1)) (oREG p1 && (ogetBit p1 =? ogetBit p2)) 0)).
  { clear - M. intros p1 p2 H1 H2 D X N. cbv zeta. rewrite !isMEM_w, !oREG_w, !oREGb_w, !ogetIdx_w, (oREGb_112 p1) by exact H1.
    destruct (isMEM p1) eqn:ME; [apply sim_throw|].
    assert (oREG p2 && (oREGb p1 48 && (ogetIdx p1 =? 0)) && (negb (ogetIdx p2 =? 0) || negb (oREGb p1 32)) = oREG p2 && (oREGb p1 48 && (ogetIdx p1 =? 0))) as ->.
    { unfold eax_ in D. destruct (oREG p2), (ogetIdx p1 =? 0), (ogetIdx p2 =? 0), (oREGb p1 32), (oREGb p1 48); cbn in *; auto; discriminate. }
    destruct (oREG p2 && _).
    - apply sim_bind; [apply sim_rex; auto using op32_wk; now rewrite mixed_sym|intros; apply sim_refl].
    - destruct (oREG p1 && oREG p2) eqn:RR; rewrite ?oREG_w, ?oBit_w, ?ogetBit_w, ?ob_w; apply sim_opRO; auto using op32_wk; try (now rewrite mixed_sym); intros Q; apply fits_opnm; destruct (N Q) as [N1 N2].
      + destruct p2 as [r2|a2]; [exact N2|]. destruct H2 as (K & _). apply andb_true_iff in RR as [_ RR]. unfold oREG, isREG, is_ in RR. cbn [ob] in RR. rewrite K in RR. discriminate RR.
      + destruct p1 as [r1|a1]; [exact N1|discriminate ME]. }
  destruct (isMEM o1 || _).
  - apply P; auto. + now rewrite mixed_sym. + tauto.
  - apply P; auto.
Qed.
(* inc/dec: of memory and of byte registers as in the 64-bit build *)
Lemma b_inc_o o : op32 o -> oREG o && negb (oBit o 8) = false -> sim (Mnemonic32.i_inc_o o) (Mnemonic.i_inc_o (widen_op o)).
Proof.
  intros H B. unfold Mnemonic32.i_inc_o, Mnemonic.i_inc_o, opIncDec, Encode.opIncDec. change (isREG noReg) with false. rewrite B, verify_w, ogetBit_w.
  apply sim_bind; [apply sim_refl|intros _]. now apply sim_opRext.
Qed.
Lemma b_dec_o o : op32 o -> oREG o && negb (oBit o 8) = false -> sim (Mnemonic32.i_dec_o o) (Mnemonic.i_dec_o (widen_op o)).
Proof.
  intros H B. unfold Mnemonic32.i_dec_o, Mnemonic.i_dec_o, opIncDec, Encode.opIncDec. change (isREG noReg) with false. rewrite B, verify_w, ogetBit_w.
  apply sim_bind; [apply sim_refl|intros _]. now apply sim_opRext.
Qed.
Lemma b_jmp_op o ty : op32 o -> isBit (ob o) 64 = false -> sim (Encode32.jmp_op o ty) (Encode.jmp_op (widen_op o) ty).
Proof. intros. now apply sim_opJmpOp. Qed.
Lemma b_call_op o ty : op32 o -> isBit (ob o) 64 = false -> sim (Encode32.call_op o ty) (Encode.call_op (widen_op o) ty).
Proof. intros. now apply sim_opJmpOp. Qed.
(* push and pop of 16-bit memory; of 32-bit memory like 64-bit memory in the 64-bit build *)
Lemma pushpop16 a c e alt : addr32 a -> getBit (a_op a) = 16 -> sim (opPushPop (OMem a) c e alt) (Encode.opPushPop (OMem (widen_addr a)) c e alt).
Proof.
  intros A B. unfold opPushPop, Encode.opPushPop. apply sim_fn. change (oREG (OMem (widen_addr a))) with (oREG (OMem a)). change (ogetBit (OMem (widen_addr a))) with (ogetBit (OMem a)).
  cbv zeta. destruct A as (K & A'). assert (oREG (OMem a) = false) as -> by (unfold oREG, isREG, is_; cbn [ob]; rewrite K; reflexivity). cbn [andb].
  unfold ogetBit. cbn [ob]. rewrite B. cbn [Z.eqb orb]. apply sim_bind; [apply sim_refl|intros _]. apply sim_opMR; [split; assumption|apply mixed_32|intros _; left; cbn; lia].
Qed.
Lemma pushpop32 a c e alt : addr32 a -> getBit (a_op a) = 32 -> sim (opPushPop (OMem a) c e alt) (Encode.opPushPop (OMem (qword (widen_addr a))) c e alt).
Proof.
  intros A B. pose proof A as (K & A'). unfold opPushPop, Encode.opPushPop. apply sim_fn. cbv zeta.
  assert (oREG (OMem a) = false) as -> by (unfold oREG, isREG, is_; cbn [ob]; rewrite K; reflexivity).
  assert (oREG (OMem (qword (widen_addr a))) = false) as -> by (unfold oREG, isREG, is_; cbn; rewrite K; reflexivity).
  change (ogetBit (OMem (qword (widen_addr a)))) with 64. unfold ogetBit. cbn [ob]. rewrite B. wcst. cbn [Z.eqb orb andb]. apply sim_bind; [apply sim_refl|intros _].
  assert (Q : Encode.opMR (qword (widen_addr a)) (regOf e REG 32 false) T_ALLOW_DIFF_SIZE c 0 NONE = Encode.opMR (widen_addr a) (regOf e REG 32 false) T_ALLOW_DIFF_SIZE c 0 NONE).
  { unfold Encode.opMR. change (is64bitDisp (qword (widen_addr a))) with (is64bitDisp (widen_addr a)). cbv zeta. change (has T_ALLOW_DIFF_SIZE T_ALLOW_DIFF_SIZE) with true. cbn [negb andb].
    change (a_mode (qword (widen_addr a))) with (a_mode (widen_addr a)).
    assert (Encode.rex (OMem (qword (widen_addr a))) (OReg (regOf e REG 32 false)) T_ALLOW_DIFF_SIZE = Encode.rex (OMem (widen_addr a)) (OReg (regOf e REG 32 false)) T_ALLOW_DIFF_SIZE) as ->; [|reflexivity].
    unfold Encode.rex. cbn [isMEM]. unfold oBit. cbn [ob].
    assert (isBit (a_op (qword (widen_addr a))) 16 = isBit (a_op (widen_addr a)) 16) as -> by (unfold isBit, getBit in *; cbn; rewrite B; reflexivity).
    assert (isBit (a_op (qword (widen_addr a))) Types.i32e = isBit (a_op (widen_addr a)) Types.i32e) as -> by (unfold isBit, getBit in *; cbn; rewrite B; reflexivity).
    reflexivity. }
  rewrite Q. apply sim_opMR; [exact A|apply mixed_32|intros _; left; cbn; lia].
Qed.
End Calls.

(* ---- encodings of the 32-bit build ---- *)
Ltac each i := let H := fresh in intros H; assert (i = 0 \/ i = 1 \/ i = 2 \/ i = 3 \/ i = 4 \/ i = 5 \/ i = 6 \/ i = 7) as Q by lia; clear H;
  destruct Q as [->|[->|[->|[->|[->|[->|[->| ->]]]]]]].
Ltac byts := intros s env pos; unfold fn; destruct (env_noexc env); eexists; split; reflexivity.
Lemma inc32 i : 0 <= i < 8 -> emits_bytes (Mnemonic32.i_inc_o (OReg (Reg32 i))) [0x40 + i]. Proof. each i; byts. Qed.
Lemma inc16 i : 0 <= i < 8 -> emits_bytes (Mnemonic32.i_inc_o (OReg (Reg16 i))) [0x66; 0x40 + i]. Proof. each i; byts. Qed.
Lemma dec32 i : 0 <= i < 8 -> emits_bytes (Mnemonic32.i_dec_o (OReg (Reg32 i))) [0x48 + i]. Proof. each i; byts. Qed.
Lemma dec16 i : 0 <= i < 8 -> emits_bytes (Mnemonic32.i_dec_o (OReg (Reg16 i))) [0x66; 0x48 + i]. Proof. each i; byts. Qed.
Lemma push32 i : 0 <= i < 8 -> emits_bytes (Encode32.push_op (OReg (Reg32 i))) [0x50 + i]. Proof. each i; byts. Qed.
Lemma push16 i : 0 <= i < 8 -> emits_bytes (Encode32.push_op (OReg (Reg16 i))) [0x66; 0x50 + i]. Proof. each i; byts. Qed.
Lemma pop32 i : 0 <= i < 8 -> emits_bytes (Encode32.pop_op (OReg (Reg32 i))) [0x58 + i]. Proof. each i; byts. Qed.
Lemma pop16 i : 0 <= i < 8 -> emits_bytes (Encode32.pop_op (OReg (Reg16 i))) [0x66; 0x58 + i]. Proof. each i; byts. Qed.
Lemma umonitor32 i : 0 <= i < 8 -> emits_bytes (Mnemonic32.i_umonitor (Reg32 i)) [0xF3; 0x0F; 0xAE; 0xF0 + i]. Proof. each i; byts. Qed.
Lemma umonitor16 i : 0 <= i < 8 -> emits_bytes (Mnemonic32.i_umonitor (Reg16 i)) [0x67; 0xF3; 0x0F; 0xAE; 0xF0 + i]. Proof. each i; byts. Qed.
Lemma xchg_eax : emits_bytes (Encode32.xchg (OReg (Reg32 0)) (OReg (Reg32 0))) [0x90]. Proof. byts. Qed.

(* mov between the accumulator and a displacement *)
Definition abs32 (b d : Z) : Operand := OMem (address0 b false (mkRegExp noReg noReg 0 d)).
Lemma emits_seqv {A} (f : E A) x g bs bs' : (forall s env pos, exists its, f env pos = (its, Ok x) /\ render s its = bs) -> emits_bytes g bs' -> emits_bytes (f ;;; g) (bs ++ bs').
Proof.
  intros F G s env pos. unfold bind. destruct (F s env pos) as (i & -> & <-). destruct (G s env (pos + items_size i)) as (i' & -> & <-).
  eexists. split; [reflexivity|]. apply render_app.
Qed.
Lemma fn_bytes m bs : emits_bytes m bs -> emits_bytes (fn tt m) bs.
Proof. intros H s env pos. destruct (H s env pos) as (its & K & R). exists its. split; [|exact R]. unfold fn. rewrite K. now destruct (env_noexc env). Qed.
Lemma moffs_is m f p c d : 0 <= d < 2 ^ 32 -> 0 <= c < 256 -> (forall s env pos, exists its, f env pos = (its, Ok false) /\ render s its = p) ->
  m = fn tt (f ;;; db c ;;; dd (w32 d)) -> emits_bytes m (p ++ c :: le4 d).
Proof.
  intros R C F ->. apply fn_bytes. apply (emits_seqv f false); [exact F|]. change (c :: le4 d) with ([c] ++ le4 d). apply emits_seq.
  - rewrite <- (w8_id c C) at 2. apply emits_db.
  - unfold w32. rewrite Z.mod_small by lia. now apply emits_dd.
Qed.
Ltac mo p c := intros; match goal with H : 0 <= ?d < _ |- _ => eapply (moffs_is _ _ p c d); [exact H|lia| |reflexivity]; intros s env pos; unfold rex, fn; eexists; split; cbn; reflexivity end.
Lemma mov_eax_m d b : b = 0 \/ b = 32 -> 0 <= d < 2 ^ 32 -> emits_bytes (Encode32.mov_oo (OReg (Reg32 0)) (abs32 b d)) (0xA1 :: le4 d).
Proof. intros [-> | ->]; mo (@nil Z) 0xA1. Qed.
Lemma mov_ax_m d b : b = 0 \/ b = 16 -> 0 <= d < 2 ^ 32 -> emits_bytes (Encode32.mov_oo (OReg (Reg16 0)) (abs32 b d)) (0x66 :: 0xA1 :: le4 d).
Proof. intros [-> | ->]; mo [0x66] 0xA1. Qed.
Lemma mov_al_m d b : b = 0 \/ b = 8 -> 0 <= d < 2 ^ 32 -> emits_bytes (Encode32.mov_oo (OReg (Reg8 0)) (abs32 b d)) (0xA0 :: le4 d).
Proof. intros [-> | ->]; mo (@nil Z) 0xA0. Qed.
Lemma mov_m_eax d b : b = 0 \/ b = 32 -> 0 <= d < 2 ^ 32 -> emits_bytes (Encode32.mov_oo (abs32 b d) (OReg (Reg32 0))) (0xA3 :: le4 d).
Proof. intros [-> | ->]; mo (@nil Z) 0xA3. Qed.
Lemma mov_m_ax d b : b = 0 \/ b = 16 -> 0 <= d < 2 ^ 32 -> emits_bytes (Encode32.mov_oo (abs32 b d) (OReg (Reg16 0))) (0x66 :: 0xA3 :: le4 d).
Proof. intros [-> | ->]; mo [0x66] 0xA3. Qed.
Lemma mov_m_al d b : b = 0 \/ b = 8 -> 0 <= d < 2 ^ 32 -> emits_bytes (Encode32.mov_oo (abs32 b d) (OReg (Reg8 0))) (0xA2 :: le4 d).
Proof. intros [-> | ->]; mo (@nil Z) 0xA2. Qed.
(* the size of the memory operand is not checked *)
Lemma mov_ax_dword d : 0 <= d < 2 ^ 32 -> emits_bytes (Encode32.mov_oo (OReg (Reg16 0)) (abs32 32 d)) (0xA1 :: le4 d).
Proof. mo (@nil Z) 0xA1. Qed.
Lemma mov_dword_ax d : 0 <= d < 2 ^ 32 -> emits_bytes (Encode32.mov_oo (abs32 32 d) (OReg (Reg16 0))) (0xA3 :: le4 d).
Proof. mo (@nil Z) 0xA3. Qed.
Lemma mov_al_dword d : 0 <= d < 2 ^ 32 -> emits_bytes (Encode32.mov_oo (OReg (Reg8 0)) (abs32 32 d)) (0xA0 :: le4 d).
Proof. mo (@nil Z) 0xA0. Qed.

(* the instructions that exist outside 64-bit mode only, Intel SDM vol. 2 *)
Definition only32 : list (E unit * list Z) :=
  [(Mnemonic32.i_aaa, [0x37]); (Mnemonic32.i_aad, [0xD5; 0x0A]); (Mnemonic32.i_aam, [0xD4; 0x0A]); (Mnemonic32.i_aas, [0x3F]);
   (Mnemonic32.i_daa, [0x27]); (Mnemonic32.i_das, [0x2F]); (Mnemonic32.i_into, [0xCE]); (Mnemonic32.i_popad, [0x61]); (Mnemonic32.i_popa, [0x61]);
   (Mnemonic32.i_popfd, [0x9D]); (Mnemonic32.i_pushad, [0x60]); (Mnemonic32.i_pusha, [0x60]); (Mnemonic32.i_pushfd, [0x9C])].
Lemma only32_bytes : Forall (fun p => emits_bytes (fst p) (snd p)) only32.
Proof. repeat constructor; byts. Qed.

(* ---- findings ---- *)
Ltac byt := unfold Mnemonic32.i_inc_o, Mnemonic32.i_dec_o, opIncDec; intros s env pos; unfold fn; destruct (env_noexc env); eexists; split; reflexivity.
Lemma moffs_size : exists d, 0 <= d < 2 ^ 32 /\ emits_bytes (Encode32.mov_oo (OReg (Reg16 0)) (abs32 32 d)) (0xA1 :: le4 d)
  /\ emits_bytes (Encode32.mov_oo (OReg (Reg32 0)) (abs32 32 d)) (0xA1 :: le4 d) /\ emits_bytes (Encode32.mov_oo (abs32 32 d) (OReg (Reg16 0))) (0xA3 :: le4 d)
  /\ emits_bytes (Encode32.mov_oo (abs32 32 d) (OReg (Reg32 0))) (0xA3 :: le4 d).
Proof. exists 0x1000. repeat split; try lia; [apply mov_ax_dword|apply mov_eax_m|apply mov_dword_ax|apply mov_m_eax]; lia. Qed.
Lemma idx_Reg32 i : 0 <= i < 8 -> idx_ (Reg32 i) = i.
Proof. intros. unfold Reg32, Reg32e, regOf, idx_. rewrite Z.lor_0_r. apply Z.mod_small; lia. Qed.
Lemma simple_addr b i : 0 <= b < 128 -> has b 16 && has b 64 = false -> 0 <= i < 8 -> addr32 (address0 b false (mkRegExp (Reg32 i) noReg 0 0)).
Proof.
  intros B X I0. split; [reflexivity|]. split.
  - assert (bit_ (a_op (address0 b false (mkRegExp (Reg32 i) noReg 0 0))) = b) as BB by (cbn; rewrite Z.mod_small; lia).
    split; [cbn; lia|]. split; [rewrite BB; lia|]. split; [discriminate|]. unfold isBit. rewrite BB. destruct (has b 16), (has b 64); auto.
  - split; [reflexivity|]. split; [reflexivity|]. split; [|split; [left; now left|cbn; lia]]. right. split; [reflexivity|]. split; [reflexivity|].
    change (0 <= idx_ (Reg32 i) < 8). rewrite idx_Reg32; lia.
Qed.
Lemma qword_mem : exists a, addr32 a /\ getBit (a_op a) = 64 /\ exists b, addr32 b /\ getBit (a_op b) = 32 /\ a_e b = a_e a
  /\ exists x y, emits_bytes (Mnemonic32.i_inc_o (OMem a)) (x ++ y) /\ emits_bytes (Mnemonic32.i_dec_o (OReg (Reg32 0))) x /\ emits_bytes (Mnemonic32.i_inc_o (OMem b)) y.
Proof.
  exists (address0 64 false (mkRegExp (Reg32 0) noReg 0 0)). split; [apply simple_addr; try lia; reflexivity|]. split; [reflexivity|].
  exists (address0 32 false (mkRegExp (Reg32 0) noReg 0 0)). split; [apply simple_addr; try lia; reflexivity|]. split; [reflexivity|]. split; [reflexivity|].
  exists [0x48], [0xFF; 0x00]. split; [byt|]. split; byt.
Qed.
Lemma reg32_32 i : 0 <= i < 8 -> reg32 (Reg32 i).
Proof. intros I0. pose proof (idx_Reg32 i I0) as E0. split; [rewrite E0; lia|]. split; [cbn; lia|]. split; discriminate || reflexivity. Qed.
Lemma inc_two : exists d r, reg32 d /\ reg32 r /\ d <> r /\ exists bs, emits_bytes (Mnemonic32.i_inc_ro d (OReg r)) bs /\ emits_bytes (Mnemonic32.i_inc_o (OReg r)) bs.
Proof. exists (Reg32 1), (Reg32 0). split; [apply reg32_32; lia|]. split; [apply reg32_32; lia|]. split; [discriminate|]. exists [0x40]. split; byt. Qed.
Lemma apx_form : exists d p q bs, reg32 d /\ reg32 p /\ reg32 q /\ emits_bytes (Mnemonic32.i_add_roo d (OReg p) (OReg q)) bs /\ forall rest, dec_header32 (bs ++ rest) = None.
Proof.
  exists (Reg32 0), (Reg32 1), (Reg32 2), [0x62; 0xF4; 0x7C; 0x18; 0x01; 0xD1]. do 3 (split; [apply reg32_32; lia|]). split; [|reflexivity]. byt.
Qed.
Lemma xmm8 : exists bs h m t, emits_bytes (Mnemonic32.i_vaddps (Xmm 8) (OReg (Xmm 1)) (OReg (Xmm 2))) bs
  /\ decode32 false 1 bs = Some (h, 6, RMem m, t) /\ h_space h = Legacy /\ h_opc h = 0xC5 /\ t = [0xC2].
Proof. exists [0xC5; 0x70; 0x58; 0xC2]. do 3 eexists. split; [byt|]. split; [reflexivity|]. repeat split. Qed.
Lemma reg8 : exists x y, emits_bytes (Mnemonic32.i_add_oo (OReg (Reg32 8)) (OReg (Reg32 2))) (x ++ y)
  /\ emits_bytes (Mnemonic32.i_inc_o (OReg (Reg32 1))) x /\ emits_bytes (Mnemonic32.i_add_oo (OReg (Reg32 0)) (OReg (Reg32 2))) y.
Proof. exists [0x41], [0x01; 0xD0]. split; [byt|]. split; byt. Qed.
