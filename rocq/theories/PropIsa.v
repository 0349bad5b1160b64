(* Property theorems C18, C19, C32, C33, C39: the VEX / EVEX methods of xbyak_mnemonic.h against the
   instruction table IsaRows.v.  [implements], [gather_avx2] ... are in SpecInsn.v, [says] in SpecIsa.v,
   [selects] in EncSel.v, [emitted] and [mnemonic] in NoShare.v. *)
From Coq Require Import ZArith List Bool String Lia.
From Verif Require Import Base Types Emit Encode SpecX86 SpecAddr SpecIsa SpecInsn Wf EmitFacts IsaRows Mnemonic MnemonicAvx VexTables VexShort NoShare EncSel ArgCheck.
Import ListNotations.
Open Scope Z_scope.

(* C18, C19: whatever a method of the table emits is the VEX or EVEX form of its row, with the operands
   written: registers, address, mask, zeroing, broadcast, rounding, vector length, immediate *)
Theorem C18_instruction_table : forall enc, Forall (implements true) (vex_table enc).
Proof. exact vex_table_ok. Qed.
Print Assumptions C18_instruction_table.
(* the same for the methods that also accept rounding modifiers their instruction does not have *)
Theorem C19_instruction_table_partial : forall enc, Forall (implements false) (vex_table_norc enc).
Proof. exact vex_table_norc_ok. Qed.
Print Assumptions C19_instruction_table_partial.
Example C18_table_size : List.length (vex_table DefaultEncoding) = 877%nat /\ List.length (vex_table_norc DefaultEncoding) = 53%nat.
Proof. split; reflexivity. Qed.
Definition ex_env := mkEnv false 0x400000 false false VexEncoding PreAVX10v2Encoding.
(* vaddps zmm17{k2}{z}, zmm3, [rax + 0x40] *)
Example C18_table_hypotheses :
  let m := address0 0 false (mkRegExp (Reg64 0) noReg 0 0x40) in
  let x := setZero (set_mask (Zmm 17) 2) in
  let e := mkEntry "vaddps/xoo" [cX; cX; cO] (roo i_vaddps) r_vaddps_xoo VlRegs in
  let ops := [OReg x; OReg (Zmm 3); OMem m] in
  In e (vex_table DefaultEncoding) /\ Forall2 arg_ok (en_sig e) ops /\ one_mask ops
  /\ Forall (fun o => width o <= vl_of (en_vl e) (en_row e) ops) ops
  /\ exists act its, en_fun e ops 0 = Some act /\ emits act ex_env 0 its tt
     /\ render (fun _ _ _ => 0) its = [0x62; 0xE1; 0x64; 0xCA; 0x58; 0x48; 0x01].
Proof.
  cbv zeta. split; [apply in_or_app; left; left; reflexivity|]. split; [|split; [|split]].
  - apply args_okb_ok. reflexivity.
  - apply one_mask_none. reflexivity.
  - repeat constructor; cbn; lia.
  - eexists; eexists; split; [reflexivity|]. split; [split; reflexivity|reflexivity].
Qed.
(* the form with one source operand: vop(x, op) is vop(x, x, op) *)
Theorem C18_two_operand_form : Forall (shorthand given) two_operand /\ Forall (shorthand given_mem) two_operand_mem.
Proof. exact (conj two_operand_lemma two_operand_mem_lemma). Qed.
Print Assumptions C18_two_operand_form.
Example C18_two_operand_example : given (OReg (Ymm 9)) /\
  exists its, emits (i_vaddps (Ymm 1) (OReg (Ymm 9)) (OReg noReg)) ex_env 0 its tt
    /\ render (fun _ _ _ => 0) its = [0xC4; 0xC1; 0x74; 0x58; 0xC9].
Proof. split; [reflexivity|]. eexists; split; [split; reflexivity|reflexivity]. Qed.

(* C32: the methods with an encoding parameter emit the chosen encoding, or report ERR_BAD_ENCODING_MODE *)
Theorem C32_selected_encoding : forall x1 x2 op imm, Forall (fun '(_, group, f) => selects group f) (enc_methods x1 x2 op imm).
Proof. exact selection_lemma. Qed.
Print Assumptions C32_selected_encoding.
(* the methods without one: EVEX exactly if an operand needs it (zmm, xmm16 .. xmm31, r16 .. r31 in an
   address, mask, rounding, broadcast) or the instruction has no VEX form, and only if it has an EVEX form *)
Theorem C32_operands_decide : forall s r p1 op type code imm8 env pos its u, emits (opVex r p1 op type code imm8) env pos its u ->
  starts (uses_evex r p1 op type) (render s its) /\ (uses_evex r p1 op type = true -> has type (T_EVEX ||| T_MUST_EVEX) = true).
Proof. exact opVex_starts. Qed.
Print Assumptions C32_operands_decide.
(* vpdpbusd xmm1, xmm2, [rax]: VEX by default, EVEX on request; an encoding of the other group is refused *)
Example C32_example :
  let m := OMem (address0 0 false (mkRegExp (Reg64 0) noReg 0 0)) in
  (exists its, emits (i_vpdpbusd (Xmm 1) (Xmm 2) m DefaultEncoding) ex_env 0 its tt /\ render (fun _ _ _ => 0) its = [0xC4; 0xE2; 0x69; 0x50; 0x08])
  /\ (exists its, emits (i_vpdpbusd (Xmm 1) (Xmm 2) m EvexEncoding) ex_env 0 its tt /\ render (fun _ _ _ => 0) its = [0x62; 0xF2; 0x6D; 0x08; 0x50; 0x08])
  /\ i_vpdpbusd (Xmm 1) (Xmm 2) m AVX10v2Encoding ex_env 0 = ([], Err ERR_BAD_ENCODING_MODE).
Proof. cbv zeta. split; [|split]; [eexists; split; [split; reflexivity|reflexivity]..|reflexivity]. Qed.

(* C33: gathers and scatters: lengths of data, index and mask, distinct registers, the index written *)
Theorem C33_avx2_gather : Forall (fun '(_, r, g, f) => gather_avx2 r g f) tab_avx2.
Proof. exact tab_avx2_ok. Qed.
Print Assumptions C33_avx2_gather.
Theorem C33_avx512_gather : Forall (fun '(_, r, g, f) => gather_evex true r g f) tab_gather.
Proof. exact tab_gather_ok. Qed.
Print Assumptions C33_avx512_gather.
Theorem C33_scatter : Forall (fun '(_, r, g, f) => gather_evex false r g f) tab_scatter.
Proof. exact tab_scatter_ok. Qed.
Print Assumptions C33_scatter.
Theorem C33_prefetch : Forall (fun '(_, r, n, f) => gather_fetch r n f) tab_fetch.
Proof. exact tab_fetch_ok. Qed.
Print Assumptions C33_prefetch.
(* vgatherdpd ymm1, [r9 + xmm12*8 + 0x10], ymm2  and  vgatherdpd ymm17{k1}, [r9 + xmm28*8 + 0x10] *)
Example C33_hypotheses :
  let m n := address0 0 false (mkRegExp (Reg64 9) (Xmm n) 8 0x10) in
  vec_reg (Ymm 1) /\ bare (Ymm 1) /\ mem_ok (m 12) /\ regno (index_of (m 12)) < 16
  /\ (exists its, emits (i_vgatherdpd_xax (Ymm 1) (m 12) (Ymm 2)) ex_env 0 its tt
        /\ render (fun _ _ _ => 0) its = [0xC4; 0x82; 0xED; 0x92; 0x4C; 0xE1; 0x10])
  /\ arg_ok cX (OReg (set_mask (Ymm 17) 1)) /\ mem_ok (m 28) /\ one_mask [OReg (set_mask (Ymm 17) 1); OMem (m 28)]
  /\ (exists its, emits (i_vgatherdpd_xa (set_mask (Ymm 17) 1) (m 28)) ex_env 0 its tt
        /\ render (fun _ _ _ => 0) its = [0x62; 0x82; 0xFD; 0x21; 0x92; 0x4C; 0xE1; 0x02]).
Proof.
  cbv zeta. split; [apply vec_regb_ok; reflexivity|]. split; [apply bareb_ok; reflexivity|]. split; [apply mem_okb_ok; reflexivity|].
  split; [cbn; lia|]. split; [eexists; split; [split; reflexivity|reflexivity]|].
  split; [apply arg_okb_ok; reflexivity|]. split; [apply mem_okb_ok; reflexivity|]. split; [apply one_mask_none; reflexivity|].
  eexists; split; [split; reflexivity|reflexivity].
Qed.

(* C39: bytes emitted by two methods of the tables (vex_table, vex_table_norc, tab_avx2, tab_gather,
   tab_scatter, tab_fetch) are the same only if the methods have the same mnemonic *)
Theorem C39_no_shared_encodings : forall enc n1 n2 bs, emitted enc n1 bs -> emitted enc n2 bs -> mnemonic n1 = mnemonic n2.
Proof. exact no_share_lemma. Qed.
Print Assumptions C39_no_shared_encodings.
Example C39_hypotheses : emitted DefaultEncoding "vaddps/xoo" [0xC5; 0xF0; 0x58; 0xC2].
Proof.
  refine (em_vex DefaultEncoding (mkEntry "vaddps/xoo" [cX; cX; cO] (roo i_vaddps) r_vaddps_xoo VlRegs) (fun _ _ _ => 0)
    [OReg (Xmm 0); OReg (Xmm 1); OReg (Xmm 2)] 0 _ ex_env 0 [IDb 0xC5; IDb 0xF0; IDb 0x58; IDb 0xC2] [] tt _ eq_refl _ _ _ _ _).
  - apply in_or_app; left; left; reflexivity.
  - apply args_okb_ok. reflexivity.
  - apply one_mask_none. reflexivity.
  - repeat constructor; cbn; lia.
  - lia.
  - split; reflexivity.
Qed.
