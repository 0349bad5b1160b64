(* Property theorems C18, C19: the VEX / EVEX methods that violate their row for some operands
   (PropIsaRefuted.v) implement it for all others; instructions with two rows; opmask and tile moves.
   [implements_except], [implements_one], [implements_plain], [sib_form] are in SpecExcept.v. *)
From Coq Require Import ZArith List Bool String Lia.
From Verif Require Import Base Types Emit Encode SpecX86 SpecAddr SpecIsa SpecInsn SpecExcept Wf EmitFacts IsaRows Mnemonic MnemonicAvx EncSel ArgCheck VexMore KTile VmovD.
Import ListNotations.
Open Scope Z_scope.

(* conversions whose displacement factor is wrong: right for registers and in VEX form *)
Theorem C19_evex_memory_partial : Forall (implements_except OnEvexMem true) evexmem_table.
Proof. exact evexmem_all. Qed.
Print Assumptions C19_evex_memory_partial.
(* VEX-only instructions: right unless an operand needs EVEX *)
Theorem C19_vex_only_partial : Forall (implements_except OnEvex true) onevex_table.
Proof. exact onevex_all. Qed.
Print Assumptions C19_vex_only_partial.
(* EVEX-only instructions: right if an operand needs EVEX *)
Theorem C18_evex_only_partial : Forall (implements_except OnVex true) onvex_table.
Proof. exact onvex_all. Qed.
Print Assumptions C18_evex_only_partial.
Theorem C19_no_broadcast_partial : forall enc, Forall (implements_except OnBroadcast true) (onbcast_table enc).
Proof. exact onbcast_all. Qed.
Print Assumptions C19_no_broadcast_partial.
Definition env2 := mkEnv false 0x400000 false false VexEncoding PreAVX10v2Encoding.
(* vcvtsd2si eax, [rcx + 8] is not excused: its bytes are the VEX form *)
Example C19_except_example :
  let a := OMem (address0 0 false (mkRegExp (Reg64 1) noReg 0 8)) in
  Forall2 arg_ok [cR 32; cO] [OReg (Reg32 0); a] /\ one_mask [OReg (Reg32 0); a]
  /\ exists its, emits (i_vcvtsd2si_do (Reg32 0) a) env2 0 its tt
     /\ render (fun _ _ _ => 0) its = [0xC5; 0xFB; 0x2D; 0x41; 0x08]
     /\ ~ excused OnEvexMem [OReg (Reg32 0); a] (render (fun _ _ _ => 0) its) [].
Proof.
  cbv zeta. split; [apply args_okb_ok; reflexivity|]. split; [apply one_mask_none; reflexivity|].
  eexists; split; [split; reflexivity|]. split; [reflexivity|]. intros (n & h & reg & rm & tail & D & Q & _).
  cbn in D. injection D as <- _ _ _. discriminate.
Qed.

(* vmovq between memory and xmm, vpextrw: two encodings of the same instruction *)
Theorem C18_two_rows : implements_one r_vmovq_ax2 true e_vmovq_ax /\ implements_one r_vmovq_xa2 true e_vmovq_xa
  /\ implements_one r_vpextrw2 true e_vpextrw.
Proof. exact (conj movq_ax_one (conj movq_xa_one vpextrw_one)). Qed.
Print Assumptions C18_two_rows.
Example C18_two_rows_example :
  let a := address0 0 false (mkRegExp (Reg64 1) noReg 0 8) in
  Forall2 arg_ok [cA; cX] [OMem a; OReg (Xmm 3)]
  /\ (exists its, emits (i_vmovq_ax a (Xmm 3)) env2 0 its tt /\ render (fun _ _ _ => 0) its = [0xC5; 0xF9; 0xD6; 0x59; 0x08])
  /\ (exists its, emits (i_vmovq_ax a (Xmm 19)) env2 0 its tt /\ render (fun _ _ _ => 0) its = [0x62; 0xE1; 0xFD; 0x08; 0x7E; 0x59; 0x01]).
Proof. cbv zeta. split; [apply args_okb_ok; reflexivity|]. split; eexists; split; try split; reflexivity. Qed.

(* opmask moves and the tile configuration, load and store instructions, in VEX or (r16 .. r31) EVEX form *)
Theorem C18_opmask_moves : Forall implements_plain kmov_table.
Proof. exact kmov_all. Qed.
Print Assumptions C18_opmask_moves.
Theorem C18_tile_moves : Forall implements_plain tile_table.
Proof. exact tile_all. Qed.
Print Assumptions C18_tile_moves.
(* the loads and stores of tiles name base and index in a SIB byte, as the architecture requires *)
Theorem C18_tile_address_partial : forall s t a env pos its rest u, arg_ok cT (OReg t) -> amem64 a ->
  emits (i_tileloadd t a) env pos its u \/ emits (i_tileloaddt1 t a) env pos its u \/ (both a /\ emits (i_tilestored a t) env pos its u) ->
  sib_form a (render s its) rest.
Proof. exact tile_sib. Qed.
Print Assumptions C18_tile_address_partial.
Example C18_moves_example :
  let a := address0 0 false (mkRegExp (Reg64 1) (Reg64 18) 1 8) in
  plain (OReg (Opmask 3)) /\ plain (OReg (Tmm 2)) /\ plain (OMem a) /\ arg_ok cT (OReg (Tmm 2)) /\ arg_ok cA (OMem a) /\ both a
  /\ (exists its, emits (i_tileloadd (Tmm 2) a) env2 0 its tt /\ render (fun _ _ _ => 0) its = [0x62; 0xF2; 0x7B; 0x08; 0x4B; 0x54; 0x11; 0x08])
  /\ (exists its, emits (i_kmovb_dk (Reg32 18) (Opmask 3)) env2 0 its tt /\ render (fun _ _ _ => 0) its = [0x62; 0xE1; 0x7D; 0x08; 0x93; 0xD3]).
Proof.
  cbv zeta. split; [apply bareb_ok; reflexivity|]. split; [apply bareb_ok; reflexivity|].
  split; [split; [apply mem_okb_ok; reflexivity|]; repeat split; try reflexivity; unfold vec_reg; cbn; intuition discriminate|].
  split; [apply arg_okb_ok; reflexivity|]. split; [apply arg_okb_ok; reflexivity|]. split; [split; reflexivity|].
  split; eexists; split; try split; reflexivity.
Qed.

(* vmovd and vmovw; for memory the AVX10.2 form if that encoding is chosen *)
Theorem C18_vmovd_vmovw : forall enc, Forall (implements true) (movd_table enc).
Proof. exact movd_all. Qed.
Print Assumptions C18_vmovd_vmovw.
Theorem C18_vmovd_vmovw_memory : forall enc,
  implements_by (fun env => if new_form enc env then r_d_load2 else r_d_load) true "vmovd" [cX; cA] (ra (fun x a => vmovd (OReg x) (OMem a) enc)) VlRegs
  /\ implements_by (fun env => if new_form enc env then r_d_store2 else r_d_store) true "vmovd" [cA; cX] (ar (fun a x => vmovd (OMem a) (OReg x) enc)) VlRegs
  /\ implements_by (fun env => if new_form enc env then r_w_load2 else r_w_load) true "vmovw" [cX; cA] (ra (fun x a => vmovw (OReg x) (OMem a) enc)) VlRegs
  /\ implements_by (fun env => if new_form enc env then r_w_store2 else r_w_store) true "vmovw" [cA; cX] (ar (fun a x => vmovw (OMem a) (OReg x) enc)) VlRegs.
Proof. exact movd_mem. Qed.
Print Assumptions C18_vmovd_vmovw_memory.
Example C18_vmovd_example :
  let a := address0 0 false (mkRegExp (Reg64 1) noReg 0 8) in
  Forall2 arg_ok [cX; cA] [OReg (Xmm 3); OMem a] /\ new_form DefaultEncoding env2 = false /\ new_form AVX10v2Encoding env2 = true
  /\ (exists its, emits (vmovd (OReg (Xmm 3)) (OMem a) DefaultEncoding) env2 0 its tt /\ render (fun _ _ _ => 0) its = [0xC5; 0xF9; 0x6E; 0x59; 0x08])
  /\ (exists its, emits (vmovd (OReg (Xmm 3)) (OMem a) AVX10v2Encoding) env2 0 its tt /\ render (fun _ _ _ => 0) its = [0x62; 0xF1; 0x7E; 0x08; 0x7E; 0x59; 0x02])
  /\ (exists its, emits (vmovw (OReg (Reg32 0)) (OReg (Xmm 3)) DefaultEncoding) env2 0 its tt /\ render (fun _ _ _ => 0) its = [0x62; 0xF5; 0x7D; 0x08; 0x7E; 0xD8]).
Proof.
  cbv zeta. split; [apply args_okb_ok; reflexivity|]. split; [reflexivity|]. split; [reflexivity|].
  repeat split; eexists; split; try split; reflexivity.
Qed.
