(* Property theorems C48: the encoder of the 32-bit build (no XBYAK64).  [bsame], [decode32] and the operands are in Spec32.v,
   [entry_same] in SpecB32.v, the table of the methods in Sim32Tables.v. *)
From Coq Require Import ZArith List Bool String Lia.
From Verif Require Import Base Types Emit EmitFacts SpecX86 SpecAddr SpecFixed Encode Encode32 Mnemonic Mnemonic32 MnemonicAvx MnemonicAvx32
  Spec32 SpecB32 Sim32Tables B32Facts.
Import ListNotations.
Open Scope Z_scope.

(* C48: for every method of the table and all operands of the 32-bit build, the method emits the bytes that the method of the
   64-bit build emits for the corresponding operands; it succeeds for the same calls (for the methods of [sized_methods] if
   memory operands next to MMX registers have their size or none: only the 64-bit build checks that) *)
Theorem C48_same_code : Forall (entry_same sized_methods) b_methods.
Proof. exact b_methods_ok. Qed.
Print Assumptions C48_same_code.
(* add(ecx, dword[eax + edx * 4 + 0x123]) *)
Example C48_hypotheses :
  let m := OMem (address0 32 false (mkRegExp (Reg32 0) (Reg32 2) 4 0x123)) in
  let v := mkArgs (fun i => if i =? 1 then OReg (Reg32 1) else m) (fun _ => address0 32 false (mkRegExp (Reg32 0) noReg 0 0)) (fun _ => Reg32 3) (fun _ => 0) DefaultEncoding ES in
  args32 v /\ args_fit v
  /\ emits_bytes (Mnemonic32.i_add_oo (ar_o v 1) (ar_o v 2)) [0x03; 0x8C; 0x90; 0x23; 0x01; 0x00; 0x00]
  /\ emits_bytes (Mnemonic.i_add_oo (widen_op (ar_o v 1)) (widen_op (ar_o v 2))) [0x03; 0x8C; 0x90; 0x23; 0x01; 0x00; 0x00].
Proof.
  cbv zeta. assert (A : forall e, exp32 e -> addr32 (address0 32 false e)).
  { intros e X. split; [reflexivity|]. split; [repeat split; cbn; try lia; discriminate|]. split; [reflexivity|]. split; [reflexivity|exact X]. }
  assert (B : forall i, 0 <= i < 8 -> base32 (Reg32 i)).
  { intros i I1. right. split; [reflexivity|]. split; [reflexivity|]. unfold Reg32, Reg32e, regOf, idx_. rewrite Z.lor_0_r. rewrite Z.mod_small; lia. }
  split; [|split; [|split]].
  - split; [|split; [|split]].
    + intros i. cbn [ar_o]. destruct (i =? 1); [repeat split; cbn; try lia; discriminate|]. apply A. split; [apply B; lia|]. split; [left; apply B; lia|cbn; lia].
    + intros i. apply A. split; [apply B; lia|]. split; [left; now left|cbn; lia].
    + intros i. repeat split; cbn; try lia; discriminate.
    + left. intros r (i & H). cbn [ar_o ar_a ar_r] in H. destruct H as [-> |[-> | ->]]; [destruct (i =? 1)| |]; reflexivity.
  - intros r (i & H). cbn [ar_o ar_r] in H. assert (bit_ r = 32) as K.
    { destruct H as [-> | H]; [reflexivity|]. destruct (i =? 1); [injection H as <-; reflexivity|discriminate H]. }
    split; intros j; [cbn [ar_o]; destruct (j =? 1); [exact Logic.I|]|]; left; rewrite K; lia.
  - intros s env pos. unfold fn. destruct (env_noexc env); eexists; split; reflexivity.
  - intros s env pos. unfold fn. destruct (env_noexc env); eexists; split; reflexivity.
Qed.

(* C48: methods outside the table, with the operands for which the two builds agree *)
Theorem C48_lea r a : reg32 r -> isREG r = true -> addr32 a -> mixed r (a_op a) = false ->
  bsame (no_mmx (OReg r)) (Mnemonic32.i_lea r a) (Mnemonic.i_lea r (widen_addr a)).
Proof. intros. apply b_lea; auto. Qed.
Print Assumptions C48_lea.
Theorem C48_vmovmskps r x : reg32 r -> isREG r = true -> bsame True (Mnemonic32.i_vmovmskps r x) (Mnemonic.i_vmovmskps r x).
Proof. exact (b_vmovmskps r x). Qed.
Print Assumptions C48_vmovmskps.
Theorem C48_vmovmskpd r x : reg32 r -> isREG r = true -> bsame True (Mnemonic32.i_vmovmskpd r x) (Mnemonic.i_vmovmskpd r x).
Proof. exact (b_vmovmskpd r x). Qed.
Print Assumptions C48_vmovmskpd.
Theorem C48_vfpclasspbf16 k o i : reg32 k -> op32 o -> ogetBit o <> 8 ->
  bsame True (MnemonicAvx32.i_vfpclasspbf16 k o i) (MnemonicAvx.i_vfpclasspbf16 k (widen_op o) i).
Proof. exact (b_vfpclasspbf16 k o i). Qed.
Print Assumptions C48_vfpclasspbf16.
Theorem C48_bndldx r a : addr32 a -> isOnlyDisp a = false -> mixed r (a_op a) = false ->
  bsame (no_mmx (OReg r)) (Mnemonic32.i_bndldx r a) (Mnemonic.i_bndldx r (widen_addr a)).
Proof. intros. apply b_bndldx; auto. Qed.
Print Assumptions C48_bndldx.
Theorem C48_bndstx a r : addr32 a -> isOnlyDisp a = false -> mixed r (a_op a) = false ->
  bsame (no_mmx (OReg r)) (Mnemonic32.i_bndstx a r) (Mnemonic.i_bndstx (widen_addr a) r).
Proof. intros. apply b_bndstx; auto. Qed.
Print Assumptions C48_bndstx.
Theorem C48_mov o1 o2 : op32 o1 -> op32 o2 -> moffs o1 o2 = false -> mixed (ob o1) (ob o2) = false ->
  bsame (no_mmx o1 /\ no_mmx o2) (Encode32.mov_oo o1 o2) (Encode.mov_oo (widen_op o1) (widen_op o2)).
Proof. intros. apply b_mov_oo; auto. Qed.
Print Assumptions C48_mov.
Theorem C48_xchg o1 o2 : op32 o1 -> op32 o2 ->
  eax_ o1 && oREG o2 && (ogetIdx o2 =? 0) = false -> eax_ o2 && oREG o1 && (ogetIdx o1 =? 0) = false -> mixed (ob o1) (ob o2) = false ->
  bsame (no_mmx o1 /\ no_mmx o2) (Encode32.xchg o1 o2) (Encode.xchg (widen_op o1) (widen_op o2)).
Proof. intros. apply b_xchg; auto. Qed.
Print Assumptions C48_xchg.
Theorem C48_inc o : op32 o -> oREG o && negb (oBit o 8) = false -> bsame True (Mnemonic32.i_inc_o o) (Mnemonic.i_inc_o (widen_op o)).
Proof. exact (b_inc_o o). Qed.
Print Assumptions C48_inc.
Theorem C48_dec o : op32 o -> oREG o && negb (oBit o 8) = false -> bsame True (Mnemonic32.i_dec_o o) (Mnemonic.i_dec_o (widen_op o)).
Proof. exact (b_dec_o o). Qed.
Print Assumptions C48_dec.
Theorem C48_jmp o ty : op32 o -> isBit (ob o) 64 = false -> bsame True (Encode32.jmp_op o ty) (Encode.jmp_op (widen_op o) ty).
Proof. exact (b_jmp_op o ty). Qed.
Print Assumptions C48_jmp.
Theorem C48_call o ty : op32 o -> isBit (ob o) 64 = false -> bsame True (Encode32.call_op o ty) (Encode.call_op (widen_op o) ty).
Proof. exact (b_call_op o ty). Qed.
Print Assumptions C48_call.
(* push/pop of word memory; dword memory is treated like qword memory in the 64-bit build *)
Theorem C48_push_memory a : addr32 a ->
  (getBit (a_op a) = 16 -> bsame True (Encode32.push_op (OMem a)) (Encode.push_op (OMem (widen_addr a))))
  /\ (getBit (a_op a) = 32 -> bsame True (Encode32.push_op (OMem a)) (Encode.push_op (OMem (qword (widen_addr a))))).
Proof. intros A. split; intros B; [exact (pushpop16 a 0xFF 6 0x50 A B)|exact (pushpop32 a 0xFF 6 0x50 A B)]. Qed.
Print Assumptions C48_push_memory.
Theorem C48_pop_memory a : addr32 a ->
  (getBit (a_op a) = 16 -> bsame True (Encode32.pop_op (OMem a)) (Encode.pop_op (OMem (widen_addr a))))
  /\ (getBit (a_op a) = 32 -> bsame True (Encode32.pop_op (OMem a)) (Encode.pop_op (OMem (qword (widen_addr a))))).
Proof. intros A. split; intros B; [exact (pushpop16 a 0x8F 0 0x58 A B)|exact (pushpop32 a 0x8F 0 0x58 A B)]. Qed.
Print Assumptions C48_pop_memory.
Example C48_address_hypotheses :
  let a := address0 32 false (mkRegExp (Reg32 3) noReg 0 8) in
  addr32 a /\ getBit (a_op a) = 32 /\ isOnlyDisp a = false /\ mixed (Reg32 1) (a_op a) = false /\ isBit (a_op a) 64 = false /\ moffs (OReg (Reg32 0)) (OMem a) = false
  /\ eax_ (OReg (Reg32 0)) && oREG (OMem a) && (ogetIdx (OMem a) =? 0) = false /\ oREG (OMem a) && negb (oBit (OMem a) 8) = false
  /\ emits_bytes (Encode32.push_op (OMem a)) [0xFF; 0x73; 0x08] /\ emits_bytes (Mnemonic32.i_lea (Reg32 1) a) [0x8D; 0x4B; 0x08].
Proof.
  cbv zeta. split.
  { split; [reflexivity|]. split; [repeat split; cbn; try lia; discriminate|]. split; [reflexivity|]. split; [reflexivity|].
    split; [right; split; [reflexivity|]; split; [reflexivity|cbn; lia]|]. split; [left; now left|cbn; lia]. }
  repeat split; try (intros s env pos; unfold fn; destruct (env_noexc env); eexists; split; reflexivity); reflexivity.
Qed.

(* C48: encodings that exist outside 64-bit mode only *)
Theorem C48_inc_register i : 0 <= i < 8 -> emits_bytes (Mnemonic32.i_inc_o (OReg (Reg32 i))) [0x40 + i] /\ emits_bytes (Mnemonic32.i_inc_o (OReg (Reg16 i))) [0x66; 0x40 + i].
Proof. intros I. split; [now apply inc32|now apply inc16]. Qed.
Print Assumptions C48_inc_register.
Theorem C48_dec_register i : 0 <= i < 8 -> emits_bytes (Mnemonic32.i_dec_o (OReg (Reg32 i))) [0x48 + i] /\ emits_bytes (Mnemonic32.i_dec_o (OReg (Reg16 i))) [0x66; 0x48 + i].
Proof. intros I. split; [now apply dec32|now apply dec16]. Qed.
Print Assumptions C48_dec_register.
Theorem C48_push_register i : 0 <= i < 8 -> emits_bytes (Encode32.push_op (OReg (Reg32 i))) [0x50 + i] /\ emits_bytes (Encode32.push_op (OReg (Reg16 i))) [0x66; 0x50 + i].
Proof. intros I. split; [now apply push32|now apply push16]. Qed.
Print Assumptions C48_push_register.
Theorem C48_pop_register i : 0 <= i < 8 -> emits_bytes (Encode32.pop_op (OReg (Reg32 i))) [0x58 + i] /\ emits_bytes (Encode32.pop_op (OReg (Reg16 i))) [0x66; 0x58 + i].
Proof. intros I. split; [now apply pop32|now apply pop16]. Qed.
Print Assumptions C48_pop_register.
Theorem C48_umonitor i : 0 <= i < 8 -> emits_bytes (Mnemonic32.i_umonitor (Reg32 i)) [0xF3; 0x0F; 0xAE; 0xF0 + i]
  /\ emits_bytes (Mnemonic32.i_umonitor (Reg16 i)) [0x67; 0xF3; 0x0F; 0xAE; 0xF0 + i].
Proof. intros I. split; [now apply umonitor32|now apply umonitor16]. Qed.
Print Assumptions C48_umonitor.
Theorem C48_xchg_eax : emits_bytes (Encode32.xchg (OReg (Reg32 0)) (OReg (Reg32 0))) [0x90].
Proof. exact xchg_eax. Qed.
Print Assumptions C48_xchg_eax.
(* mov al/ax/eax, [disp32] and back: A0..A3 *)
Theorem C48_moffs_load d : 0 <= d < 2 ^ 32 ->
  (forall b, b = 0 \/ b = 32 -> emits_bytes (Encode32.mov_oo (OReg (Reg32 0)) (abs32 b d)) (0xA1 :: le4 d))
  /\ (forall b, b = 0 \/ b = 16 -> emits_bytes (Encode32.mov_oo (OReg (Reg16 0)) (abs32 b d)) (0x66 :: 0xA1 :: le4 d))
  /\ (forall b, b = 0 \/ b = 8 -> emits_bytes (Encode32.mov_oo (OReg (Reg8 0)) (abs32 b d)) (0xA0 :: le4 d)).
Proof. intros D. split; [|split]; intros b B; [apply mov_eax_m|apply mov_ax_m|apply mov_al_m]; auto. Qed.
Print Assumptions C48_moffs_load.
Theorem C48_moffs_store d : 0 <= d < 2 ^ 32 ->
  (forall b, b = 0 \/ b = 32 -> emits_bytes (Encode32.mov_oo (abs32 b d) (OReg (Reg32 0))) (0xA3 :: le4 d))
  /\ (forall b, b = 0 \/ b = 16 -> emits_bytes (Encode32.mov_oo (abs32 b d) (OReg (Reg16 0))) (0x66 :: 0xA3 :: le4 d))
  /\ (forall b, b = 0 \/ b = 8 -> emits_bytes (Encode32.mov_oo (abs32 b d) (OReg (Reg8 0))) (0xA2 :: le4 d)).
Proof. intros D. split; [|split]; intros b B; [apply mov_m_eax|apply mov_m_ax|apply mov_m_al]; auto. Qed.
Print Assumptions C48_moffs_store.
(* [only32]: aaa, aad, aam, aas, daa, das, into, popa, popad, popfd, pusha, pushad, pushfd *)
Theorem C48_only32 : Forall (fun p => emits_bytes (fst p) (snd p)) only32.
Proof. exact only32_bytes. Qed.
Print Assumptions C48_only32.

(* ---- what goes wrong ---- *)
(* C48: mov(ax, dword[disp]) and mov(dword[disp], ax) are not rejected: they emit mov eax, [disp] and mov [disp], eax *)
Theorem C48_moffs_size_refuted : exists d, 0 <= d < 2 ^ 32 /\ emits_bytes (Encode32.mov_oo (OReg (Reg16 0)) (abs32 32 d)) (0xA1 :: le4 d)
  /\ emits_bytes (Encode32.mov_oo (OReg (Reg32 0)) (abs32 32 d)) (0xA1 :: le4 d) /\ emits_bytes (Encode32.mov_oo (abs32 32 d) (OReg (Reg16 0))) (0xA3 :: le4 d)
  /\ emits_bytes (Encode32.mov_oo (abs32 32 d) (OReg (Reg32 0))) (0xA3 :: le4 d).
Proof. exact moffs_size. Qed.
Print Assumptions C48_moffs_size_refuted.
(* C48: a qword memory operand is not rejected: inc(qword[eax]) emits dec eax; inc dword[eax] *)
Theorem C48_qword_refuted : exists a, addr32 a /\ getBit (a_op a) = 64 /\ exists b, addr32 b /\ getBit (a_op b) = 32 /\ a_e b = a_e a
  /\ exists x y, emits_bytes (Mnemonic32.i_inc_o (OMem a)) (x ++ y) /\ emits_bytes (Mnemonic32.i_dec_o (OReg (Reg32 0))) x /\ emits_bytes (Mnemonic32.i_inc_o (OMem b)) y.
Proof. exact qword_mem. Qed.
Print Assumptions C48_qword_refuted.
(* C48: inc(ecx, eax) ignores its first operand and emits inc eax *)
Theorem C48_inc_two_operands_refuted : exists d r, reg32 d /\ reg32 r /\ d <> r /\ exists bs, emits_bytes (Mnemonic32.i_inc_ro d (OReg r)) bs /\ emits_bytes (Mnemonic32.i_inc_o (OReg r)) bs.
Proof. exact inc_two. Qed.
Print Assumptions C48_inc_two_operands_refuted.
(* C48: add(eax, ecx, edx), an APX form, is not rejected *)
Theorem C48_apx_refuted : exists d p q bs, reg32 d /\ reg32 p /\ reg32 q /\ emits_bytes (Mnemonic32.i_add_roo d (OReg p) (OReg q)) bs /\ forall rest, dec_header32 (bs ++ rest) = None.
Proof. exact apx_form. Qed.
Print Assumptions C48_apx_refuted.
(* C48: Xmm(8) is not rejected: vaddps(Xmm(8), xmm1, xmm2) emits lds esi, [eax + 0x58]; ... *)
Theorem C48_xmm8_refuted : exists bs h m t, emits_bytes (Mnemonic32.i_vaddps (Xmm 8) (OReg (Xmm 1)) (OReg (Xmm 2))) bs
  /\ decode32 false 1 bs = Some (h, 6, RMem m, t) /\ h_space h = Legacy /\ h_opc h = 0xC5 /\ t = [0xC2].
Proof. exact xmm8. Qed.
Print Assumptions C48_xmm8_refuted.
(* C48: Reg32(8) is not rejected: add(Reg32(8), edx) emits inc ecx; add eax, edx *)
Theorem C48_reg8_refuted : exists x y, emits_bytes (Mnemonic32.i_add_oo (OReg (Reg32 8)) (OReg (Reg32 2))) (x ++ y)
  /\ emits_bytes (Mnemonic32.i_inc_o (OReg (Reg32 1))) x /\ emits_bytes (Mnemonic32.i_add_oo (OReg (Reg32 0)) (OReg (Reg32 2))) y.
Proof. exact reg8. Qed.
Print Assumptions C48_reg8_refuted.
