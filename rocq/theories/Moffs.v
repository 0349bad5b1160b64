(* mov between the accumulator and a 64-bit address, ptr[disp] built from a size_t; and mov(reg, label) of the 32-bit build. *)
From Coq Require Import ZArith List Bool Lia.
From Verif Require Import Base Types Emit EmitFacts Encode Encode32 SpecX86 SpecFixed FixedFacts B32Facts SpecExec.
Import ListNotations.
Open Scope Z_scope.

(* al, ax, eax, rax *)
Definition acc (w : Z) : Reg := if w =? 8 then Reg8 0 else if w =? 16 then Reg16 0 else if w =? 32 then Reg32 0 else Reg64 0.
Definition acc_pre (w : Z) : list Z := if w =? 16 then [0x66] else if w =? 64 then [0x48] else [].
Lemma moffs64_is m f p c d : 0 <= d < 2 ^ 64 -> 0 <= c < 256 -> (forall s env pos, exists its, f env pos = (its, Ok false) /\ render s its = p) ->
  m = fn tt (f ;;; db c ;;; dbn (w64 d) 8) -> emits_bytes m (p ++ c :: le_bytes d 8).
Proof.
  intros R C F ->. apply fn_bytes. apply (emits_seqv f false); [exact F|]. change (c :: le_bytes d 8) with ([c] ++ le_bytes d (Z.to_nat 8)). apply emits_seq.
  - rewrite <- (w8_id c C) at 2. apply emits_db.
  - unfold w64. rewrite Z.mod_small by lia. now apply emits_dbn.
Qed.
Lemma moffs_emits w d : In w [8; 16; 32; 64] -> 0 <= d < 2 ^ 64 ->
  emits_bytes (Encode.mov_oo (OReg (acc w)) (OMem (address64 d))) (acc_pre w ++ (if w =? 8 then 0xA0 else 0xA1) :: le_bytes d 8)
  /\ emits_bytes (Encode.mov_oo (OMem (address64 d)) (OReg (acc w))) (acc_pre w ++ (if w =? 8 then 0xA2 else 0xA3) :: le_bytes d 8).
Proof.
  intros H R. assert (w = 8 \/ w = 16 \/ w = 32 \/ w = 64) as [->|[->|[->| ->]]] by (cbn in H; lia); clear H; split;
    (eapply moffs64_is; [exact R|cbn; lia| |reflexivity]); intros s env pos; unfold Encode.rex, fn; eexists; split; cbn; reflexivity.
Qed.
(* the instruction with the opcode opc of the one-byte map, operand size w, and the 8 bytes of the address d *)
Definition moffs_insn (w opc d : Z) (bs : list Z) : Prop := forall rest, exists h, dec_header (bs ++ rest) = Some (h, le_bytes d 8 ++ rest)
  /\ plain h = true /\ h_map h = 0 /\ h_opc h = opc /\ (w <> 8 -> opsize h = w).
Lemma moffs_says w d : In w [8; 16; 32; 64] -> 0 <= d < 2 ^ 64 ->
  (exists bs, emits_bytes (Encode.mov_oo (OReg (acc w)) (OMem (address64 d))) bs /\ moffs_insn w (if w =? 8 then 0xA0 else 0xA1) d bs)
  /\ (exists bs, emits_bytes (Encode.mov_oo (OMem (address64 d)) (OReg (acc w))) bs /\ moffs_insn w (if w =? 8 then 0xA2 else 0xA3) d bs).
Proof.
  intros H R. destruct (moffs_emits w d H R) as [A B].
  assert (w = 8 \/ w = 16 \/ w = 32 \/ w = 64) as Q by (cbn in H; lia). clear H R.
  split; eexists; (split; [eassumption|]); clear A B; intros rest; destruct Q as [->|[->|[->| ->]]]; eexists;
    (split; [reflexivity|]); repeat split; intros; congruence.
Qed.
(* any other register: rejected *)
Lemma moffs_other r d env pos : isREG r = true -> getIdx r <> 0 -> env_noexc env = false ->
  Encode.mov_oo (OReg r) (OMem (address64 d)) env pos = ([], Err ERR_CANT_USE_64BIT_DISP)
  /\ Encode.mov_oo (OMem (address64 d)) (OReg r) env pos = ([], Err ERR_CANT_USE_64BIT_DISP).
Proof.
  intros K N X. unfold Encode.mov_oo. rewrite K. replace (getIdx r =? 0) with false by lia. cbn [andb].
  split; unfold Encode.opRO_MR, Encode.opRO, Encode.opMR, fn; try (change (oREG (OReg r)) with (isREG r); rewrite K); cbn; rewrite ?K; cbn; rewrite ?X; cbn; rewrite ?X; reflexivity.
Qed.

(* mov(reg, label) of the 32-bit build: B8 + r and the 4 bytes of the address *)
Lemma mov_label32 i l env pos : 0 <= i < 8 -> Encode32.mov_label (Reg32 i) l env pos = ([IDb (0xB8 + i); IPutL l false 0], Ok tt).
Proof. each i; unfold Encode32.mov_label, Encode32.mov_imm, fn, bind; destruct (env_noexc env); reflexivity. Qed.
