(* jmp and call through a register or memory (opJmpOp, xbyak.h:2172-2181), near and far. *)
From Coq Require Import ZArith List Bool String Lia.
From Verif Require Import Base Types Emit EmitFacts BitFacts MemFacts LegacyFacts EncThms Encode SpecX86 SpecAddr SpecIsa SpecInsn SpecLeg SpecFixed FixedFacts SpecExec SpecMach Wf LegFacts LegShapes LegGpr ExecFacts ProgInsn ProgMach ProgRef.
Import ListNotations.
Open Scope list_scope.
Open Scope Z_scope.

Lemma goes_step k m t env pos its u s rest ip x : goes k m t -> emits m env pos its u -> fetch (mm x) ip 15 = render s its ++ rest ->
  mstep ip x = Some (addr64 (t x), if k =? 2 then do_push 64 (addr64 (ip + Z.of_nat (List.length (render s its)))) x else x).
Proof.
  intros G H F. destruct (G _ _ _ _ H) as (_ & _ & X). destruct (X s rest) as (h & rm & D & Hi & T).
  now rewrite (mstep_indirect _ _ _ _ h k rm (t x) F D Hi (T _ x)).
Qed.
Lemma jmp_step op ty env pos its u s rest ip x : go_op op -> ty <> T_FAR -> emits (jmp_op op ty) env pos its u ->
  fetch (mm x) ip 15 = render s its ++ rest -> mstep ip x = Some (addr64 (go_to op x), x).
Proof. intros G T H F. now rewrite (goes_step 4 _ _ _ _ _ _ _ _ _ _ (jmp_goes op ty G T) H F). Qed.
Lemma call_step op ty env pos its u s rest ip x : go_op op -> ty <> T_FAR -> emits (call_op op ty) env pos its u ->
  fetch (mm x) ip 15 = render s its ++ rest ->
  mstep ip x = Some (addr64 (go_to op x), do_push 64 (addr64 (ip + Z.of_nat (List.length (render s its)))) x).
Proof. intros G T H F. now rewrite (goes_step 2 _ _ _ _ _ _ _ _ _ _ (call_goes op ty G T) H F). Qed.

(* ---- which operands are accepted ---- *)
(* FF /k with the register in ModRM; the fourth bit of its number is REX.B, the fifth REX2.B4 *)
Definition branch_bytes (k i : Z) : list Z :=
  (if i <? 8 then [] else if i <? 16 then [0x41] else [0xD5; 0x10 + (i / 8) mod 2]) ++ [0xFF; 0xC0 + 8 * k + i mod 8].
Definition below32 : list Z := map Z.of_nat (seq 0 32).
Lemma in_below32 i : 0 <= i < 32 -> In i below32.
Proof. intros H. unfold below32. rewrite <- (Z2Nat.id i) by lia. apply in_map. apply in_seq. lia. Qed.
Lemma near_type op ty k : ty <> T_FAR -> opJmpOp op ty k = opJmpOp op T_AUTO k.
Proof. intros H. destruct ty; try reflexivity. contradiction. Qed.
Lemma reg_bytes : Forall (fun i =>
  (emits_bytes (opJmpOp (OReg (Reg64 i)) T_AUTO 4) (branch_bytes 4 i) /\ emits_bytes (opJmpOp (OReg (Reg64 i)) T_AUTO 2) (branch_bytes 2 i))
  /\ (emits_bytes (opJmpOp (OReg (Reg32 i)) T_AUTO 4) (branch_bytes 4 i) /\ emits_bytes (opJmpOp (OReg (Reg32 i)) T_AUTO 2) (branch_bytes 2 i))) below32.
Proof.
  unfold below32. cbn [seq map]. repeat apply Forall_cons; [..|apply Forall_nil];
    (split; split); intros s env pos; unfold opJmpOp, opRext, fn; destruct (env_noexc env); eexists; split; reflexivity.
Qed.
Lemma jmp_reg i ty : 0 <= i < 32 -> ty <> T_FAR -> emits_bytes (jmp_op (OReg (Reg64 i)) ty) (branch_bytes 4 i) /\ emits_bytes (call_op (OReg (Reg64 i)) ty) (branch_bytes 2 i).
Proof.
  intros H T. unfold jmp_op, call_op. rewrite !(near_type _ ty) by exact T. pose proof reg_bytes as F. rewrite Forall_forall in F.
  exact (proj1 (F i (in_below32 i H))).
Qed.
(* a 32-bit register is taken for the 64-bit one *)
Lemma jmp_reg32 i ty : 0 <= i < 32 -> ty <> T_FAR -> emits_bytes (jmp_op (OReg (Reg32 i)) ty) (branch_bytes 4 i) /\ emits_bytes (call_op (OReg (Reg32 i)) ty) (branch_bytes 2 i).
Proof.
  intros H T. unfold jmp_op, call_op. rewrite !(near_type _ ty) by exact T. pose proof reg_bytes as F. rewrite Forall_forall in F.
  exact (proj2 (F i (in_below32 i H))).
Qed.

Definition rejects (m : E unit) (e : xerr) : Prop := forall env pos, m env pos = if env_noexc env then ([IErr e], Ok tt) else ([], Err e).
Lemma fn_rejects m e : rejects m e -> rejects (fn tt m) e.
Proof. intros H env pos. unfold fn. rewrite H. now destruct (env_noexc env). Qed.
Lemma throw_rejects e : rejects (fn tt (throw e)) e.
Proof. intros env pos. unfold fn, throw. now destruct (env_noexc env). Qed.
Lemma bind_rejects {A} (x : A) m e : rejects m e -> rejects (bind (ret x) (fun _ => m)) e.
Proof. intros H env pos. unfold bind, ret. cbn [items_size fold_right app]. rewrite Z.add_0_r, H. now destruct (env_noexc env). Qed.
(* memory declared to have 64 bits: always refused *)
Lemma jmp_qword a ty k : is64bitDisp a = false -> getBit (a_op a) = 64 -> ty <> T_FAR -> k = 2 \/ k = 4 -> rejects (opJmpOp (OMem a) ty k) ERR_BAD_MEM_SIZE.
Proof.
  intros A B T Hk. unfold opJmpOp. cbv zeta. replace (LabelType_beq ty T_FAR) with false by (destruct ty; auto; contradiction).
  apply fn_rejects. unfold opRext. change (ogetBit (OMem a)) with (getBit (a_op a)). rewrite B. cbv zeta. cbn [andb Z.eqb Pos.eqb].
  replace (has 0 T_APX) with false by reflexivity. cbn [andb].
  apply fn_rejects. apply (bind_rejects false). unfold opMR. cbv zeta. cbn [Z.eqb negb].
  change (is64bitDisp (set_immSize a 0)) with (is64bitDisp a). change (a_op (set_immSize a 0)) with (a_op a). rewrite A, B.
  rewrite ?A, ?B. destruct Hk as [-> | ->]; intros env pos; unfold fn, bind, ret; cbn; now destruct (env_noexc env).
Qed.

(* ---- far: FF /5 and FF /3 with the operand size of the memory operand, m16:16, m16:32, m16:64 ---- *)
Definition far_row (k : Z) : lrow := mkL SpecIsa.NP 0 0xFF true (Some k) [rm_ KG true Sv] OsV I_none.
Definition far_sizes : list Z := [16; 32; 64].
Lemma far_chk k : 0 <= k < 8 -> rextchk (far_row k) 0 0xFF false (16 ||| i32e) true Sv (fun m b => m && existsb (Z.eqb b) far_sizes) (fun _ b => b) = true.
Proof. intros _. vm_compute. reflexivity. Qed.
Lemma far_says a k s rest env pos its u : mem_ok a -> k = 2 \/ k = 4 -> emits (opJmpOp (OMem a) T_FAR k) env pos its u ->
  In (bit_ (a_op a)) far_sizes /\ lsays (far_row (k + 1)) [OMem a] 0 (render s its) rest.
Proof.
  intros A Hk H. unfold opJmpOp in H. apply emits_fn in H. cbv zeta in H. cbn [LabelType_beq] in H.
  destruct (isMEMb (OMem a) (16 ||| i32e)) eqn:M; cbn [negb] in H; [|exfalso; eapply emits_throw; exact H].
  assert (In (bit_ (a_op a)) far_sizes) as X.
  { pose proof (mo_size _ A) as Sz. unfold far_sizes. revert M. unfold isMEMb, is_. cbn [ob]. cbn [In] in Sz |- *.
    destruct Sz as [Q|[Q|[Q|[Q|[Q|[Q|[Q|[Q|[]]]]]]]]]; rewrite <- Q; auto; intros M; apply andb_prop in M as [_ M]; discriminate M. }
  split; [exact X|].
  pose proof (rext_gen s (far_row (k + 1)) true Sv 0 0xFF false (k + 1) (16 ||| i32e) (OMem a) 0 [] [] env pos its u 0 [] rest _ _ A eq_refl eq_refl ltac:(lia) eq_refl (far_chk (k + 1) ltac:(lia)) H) as Y.
  rewrite app_nil_r in Y. apply Y.
  - intros _. cbn [isMEM ob andb]. apply existsb_exists. eexists. split; [exact X|apply Z.eqb_refl].
  - intros _. apply imm_none_ok.
  - intros. constructor.
Qed.
Lemma far_only op k : isMEMb op (16 ||| i32e) = false -> rejects (opJmpOp op T_FAR k) ERR_NOT_SUPPORTED.
Proof. intros H. unfold opJmpOp. cbv zeta. cbn [LabelType_beq]. rewrite H. apply throw_rejects. Qed.
