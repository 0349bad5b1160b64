(* C49: in 32-bit mode the code of the 32-bit build is the instruction that was asked for. *)
From Coq Require Import ZArith List Bool String Lia.
From Verif Require Import Base Types Emit EmitFacts Encode SpecX86 SpecAddr SpecIsa SpecInsn SpecLeg SpecMix Wf IsaRows LegTables LegTables2 MixTables
  VexTables ArgCheck Spec32 SpecB32 SpecFixed SpecStart32 SpecSays32 Sim32Tables Start32Tables Says32 Say32Tables.
From Verif Require Mnemonic Mnemonic32 MnemonicAvx32.
Import ListNotations.
Open Scope Z_scope.

(* C49: no method emits bytes that 32-bit mode reads as another instruction than 64-bit mode *)
Theorem C49_same_instruction : Forall (entry_alike apx_methods small_methods) b_methods.
Proof. exact start_ok. Qed.
Print Assumptions C49_same_instruction.

(* C49: general, MMX and SSE instructions *)
Theorem C49_legacy : Forall (fun p => limplements32 (fst p) (snd p)) leg32_table.
Proof. exact leg32_ok. Qed.
Print Assumptions C49_legacy.

(* C49: instructions with operands of mixed register files *)
Theorem C49_mixed : Forall (fun p => mimplements32 (fst p) (snd p)) mix32_table.
Proof. exact mix32_ok. Qed.
Print Assumptions C49_mixed.

(* C49: AVX, AVX2, AVX-512 *)
Theorem C49_vector : Forall (fun p => implements32 (fst p) (snd p)) vex32_table.
Proof. exact vex32_ok. Qed.
Print Assumptions C49_vector.
Theorem C49_vector_preferred enc : Forall (fun p => implements32 (fst p) (snd p)) (vexe32_table enc).
Proof. exact (vexe32_ok enc). Qed.
Print Assumptions C49_vector_preferred.

(* shufpd(xmm1, ptr[eax + ecx * 4 + 0x40], 1) *)
Example C49_legacy_hypotheses :
  let m := OMem (address0 0 false (mkRegExp (Reg32 0) (Reg32 1) 4 0x40)) in
  let ops := [OReg (Xmm 1); m] in
  ops32 true ops /\ Forall2 larg_ok (le_sig e_shufpd) (map widen_op ops) /\ Forall lbare ops /\ high_ok ops
  /\ Forall (fun row => imm_in (l_imm row) 1) (le_rows e_shufpd)
  /\ emits_bytes (Mnemonic32.i_shufpd (Xmm 1) m 1) [0x66; 0x0F; 0xC6; 0x4C; 0x88; 0x40; 0x01].
Proof.
  cbv zeta. split; [|split; [|split; [|split; [|split]]]].
  - split; [|split; [|split; [|split]]].
    + constructor; [repeat split; cbn; try lia; discriminate|]. constructor; [|constructor].
      split; [reflexivity|]. split; [repeat split; cbn; try lia; discriminate|]. split; [reflexivity|]. split; [reflexivity|].
      split; [right; split; [reflexivity|]; split; [reflexivity|cbn; lia]|]. split; [left; right; split; [reflexivity|]; split; [reflexivity|cbn; lia]|cbn; lia].
    + repeat constructor.
    + right. repeat constructor.
    + intros o1 o2 [<-|[<-|[]]] [<-|[<-|[]]]; try exact I; left; cbn; lia.
    + intros _. repeat constructor.
  - constructor; [apply vec_regb_ok; reflexivity|]. constructor; [|constructor]. split; [apply mem_okb_ok; reflexivity|discriminate].
  - repeat constructor.
  - intros X. inversion X as [? ? Q|? ? Q]; subst; [destruct Q as [Q _]; discriminate Q|]. inversion Q as [? ? Q2|? ? Q2]; subst; [destruct Q2|inversion Q2].
  - repeat constructor; cbn; lia.
  - intros s env pos; unfold fn; destruct (env_noexc env); eexists; split; reflexivity.
Qed.
(* vaddps(zmm1 | k2 | T_z, zmm3, ptr[eax + 0x40]) *)
Example C49_vector_hypotheses :
  let m := OMem (address0 0 false (mkRegExp (Reg32 0) noReg 0 0x40)) in
  let x := setZero (set_mask (Zmm 1) 2) in
  let e := mkEntry "vaddps/xoo" [cX; cX; cO] (roo Mnemonic.i_vaddps) r_vaddps_xoo VlRegs in
  let ops := [OReg x; OReg (Zmm 3); m] in
  In (false, en32 e (roo Mnemonic32.i_vaddps)) vex32_table
  /\ ops32 false ops /\ Forall2 arg_ok (en_sig e) (map widen_op ops) /\ one_mask ops /\ Forall (fun o => width o <= vl_of (en_vl e) (en_row e) ops) ops
  /\ emits_bytes (Mnemonic32.i_vaddps x (OReg (Zmm 3)) m) [0x62; 0xF1; 0x64; 0xCA; 0x58; 0x48; 0x01].
Proof.
  cbv zeta. split; [apply in_or_app; left; left; reflexivity|]. split; [|split; [|split; [|split]]].
  - split; [|split; [|split; [|split]]].
    + constructor; [repeat split; cbn; try lia; discriminate|]. constructor; [repeat split; cbn; try lia; discriminate|]. constructor; [|constructor].
      split; [reflexivity|]. split; [repeat split; cbn; try lia; discriminate|]. split; [reflexivity|]. split; [reflexivity|].
      split; [right; split; [reflexivity|]; split; [reflexivity|cbn; lia]|]. split; [left; now left|cbn; lia].
    + repeat constructor.
    + right. repeat constructor.
    + intros o1 o2 [<-|[<-|[<-|[]]]] [<-|[<-|[<-|[]]]]; try exact I; left; cbn; lia.
    + discriminate.
  - apply args_okb_ok. reflexivity.
  - apply one_mask_none. reflexivity.
  - repeat constructor; cbn; lia.
  - intros s env pos; unfold fn; destruct (env_noexc env); eexists; split; reflexivity.
Qed.
Example C49_table_sizes : (List.length leg32_table, List.length mix32_table, List.length vex32_table, List.length (vexe32_table DefaultEncoding)) = (337, 137, 882, 17)%nat.
Proof. reflexivity. Qed.
