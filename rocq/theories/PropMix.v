(* Property theorems C44: the remaining legacy-encoded methods. *)
From Coq Require Import ZArith List Bool String Lia.
From Verif Require Import Base Types Emit Encode Mnemonic SpecX86 SpecAddr SpecIsa SpecInsn SpecLeg SpecMix Wf EmitFacts LegShapes LegGpr3 MixShapes MixTables MixTables2.
Import ListNotations.
Open Scope Z_scope.

(* conversions and moves between register files, stores of vector registers, insertions and extractions, single memory
   operands: what the method emits is the instruction with its name, with these operands.  PARTIAL: the classes of
   arguments leave out the calls refuted below *)
Theorem C44_files_partial : Forall mimplements mix_table.
Proof. exact mix_all. Qed.
Print Assumptions C44_files_partial.
Example C44_files_example : List.length mix_table = 77%nat
  /\ Forall2 marg_ok [aMm; anyM [0; 64]] [OReg (Mmx 3); OReg (Xmm 5)].
Proof.
  split; [reflexivity|]. apply Forall2_cons; [repeat split; cbn; lia|]. apply Forall2_cons; [|apply Forall2_nil].
  left. right; left. split; [left; split; reflexivity|cbn; lia].
Qed.
(* x87 memory operands, bound registers, far pointers, shifts by an immediate, SHA, key locker, bit tests, ports, system
   registers.  PARTIAL: as above *)
Theorem C44_system_partial : Forall mimplements mix2_table.
Proof. exact mix2_all. Qed.
Print Assumptions C44_system_partial.
Example C44_system_example : List.length mix2_table = 85%nat /\ marg_ok (aR [16; 32; 64]) (OReg (Reg64 17)) /\ marg_ok aB (OReg (BoundsReg 2)).
Proof. split; [reflexivity|]. split; [split; [split; [reflexivity|left; split; [auto|cbn; lia]]|cbn; auto]|repeat split; cbn; lia]. Qed.
(* C43, memory operands: fadd m32 / m64, fiadd m16 / m32, ...: the instruction for the declared size; no other size is
   accepted *)
Definition x87_mem : list string :=
  ["fadd"; "fcom"; "fcomp"; "fdiv"; "fdivr"; "fmul"; "fsub"; "fsubr"; "fiadd"; "ficom"; "ficomp"; "fidiv"; "fidivr"; "fimul"; "fisub"; "fisubr";
   "fild"; "fist"; "fistp"; "fisttp"; "fld"; "fst"; "fstp"]%string.
Definition x87_mem_table : list mentry := filter (fun e => existsb (String.eqb (me_name e)) x87_mem) mix2_table.
Theorem C43_x87_memory : Forall mimplements x87_mem_table.
Proof. exact (incl_Forall (fun x H => proj1 (proj1 (filter_In _ x mix2_table) H)) mix2_all). Qed.
Print Assumptions C43_x87_memory.
Example C43_x87_memory_example : map me_name x87_mem_table = x87_mem.
Proof. reflexivity. Qed.
(* fsave, fstcw, fstenv, fstsw: WAIT, then the instruction *)
Theorem C44_wait_forms : Forall wimplements wait_table.
Proof. exact wait_all. Qed.
Print Assumptions C44_wait_forms.
Theorem C44_pextrw_memory : forall s a x imm env pos its rest u,
  kind_ (a_op a) = MEM -> marg_ok (aM [0; 8; 16; 32; 64; 128; 256; 512]) (OMem a) -> marg_ok aX (OReg x) -> lbare (OMem a) -> lbare (OReg x) -> 0 <= imm < 256 ->
  emits (i_pextrw (OMem a) x imm) env pos its u -> lsays pextrw_mrow [OMem a; OReg x] imm (render s its) rest.
Proof. exact pextrw_mem. Qed.
Print Assumptions C44_pextrw_memory.
(* PARTIAL: registers 0 .. 7 *)
Theorem C44_encodekey_partial : forall s r1 r2 env pos its rest u imm,
  gpr r1 -> gpr r2 -> bit_ r1 = 32 -> bit_ r2 = 32 -> regno r1 < 8 -> regno r2 < 8 ->
  (emits (i_encodekey128 r1 r2) env pos its u -> lsays (enckey_row 0xFA) [OReg r1; OReg r2] imm (render s its) rest)
  /\ (emits (i_encodekey256 r1 r2) env pos its u -> lsays (enckey_row 0xFB) [OReg r1; OReg r2] imm (render s its) rest).
Proof. exact enckey_both. Qed.
Print Assumptions C44_encodekey_partial.

(* ---- calls that are accepted and emit something else ---- *)
Definition env2 := mkEnv false 0x400000 false false VexEncoding PreAVX10v2Encoding.
Definition bytes2 (its : list item) : list Z := render (fun _ _ _ => 0) its.
Definition mem_ (bit : Z) : Address := address0 bit false (mkRegExp (Reg64 0) noReg 0 0).
(* both calls are accepted and emit the same bytes *)
Definition same_code (x y : E unit) : Prop := exists its, emits x env2 0 its tt /\ emits y env2 0 its tt.
Ltac same := eexists; split; split; reflexivity.
(* xbyak.h:1779 (rex): the operand-size prefix follows the declared size of memory: addps(xmm0, word[rax]) is
   addpd xmm0, [rax]; the same for every SSE instruction without a mandatory prefix *)
Theorem C44_word_memory_refuted :
  same_code (i_addps (Xmm 0) (OMem (mem_ 16))) (i_addpd (Xmm 0) (OMem (mem_ 0)))
  /\ same_code (i_movaps_ax (mem_ 16) (Xmm 1)) (i_movapd_ax (mem_ 0) (Xmm 1)).
Proof. split; same. Qed.
Print Assumptions C44_word_memory_refuted.
(* xbyak.h:2105: lfs(ax, dword[rax]) is lfs eax, [rax]; lfs(r16, [rax]) has REX2 with M0 = 1 and 0F after it: opcode 0F of
   map 1 *)
Theorem C44_far_pointer_refuted :
  same_code (i_lfs (Reg16 0) (mem_ 32)) (i_lfs (Reg32 0) (mem_ 0))
  /\ (exists its, emits (i_lfs (Reg64 16) (mem_ 0)) env2 0 its tt /\ bytes2 its = [0xD5; 0xC8; 0x0F; 0xB4; 0x00]
       /\ option_map (fun x => (h_map (fst x), h_opc (fst x))) (dec_header (bytes2 its)) = Some (1, 0x0F)).
Proof. split; [same|]. eexists; split; [split; reflexivity|]. split; reflexivity. Qed.
Print Assumptions C44_far_pointer_refuted.
(* no REX.W for 64-bit integers in memory *)
Theorem C44_cvtsi2sd_memory_refuted :
  same_code (i_cvtsi2sd (Xmm 0) (OMem (mem_ 64))) (i_cvtsi2sd (Xmm 0) (OMem (mem_ 32)))
  /\ same_code (i_cvtsi2ss (Xmm 0) (OMem (mem_ 64))) (i_cvtsi2ss (Xmm 0) (OMem (mem_ 32))).
Proof. split; same. Qed.
Print Assumptions C44_cvtsi2sd_memory_refuted.
(* a 64-bit register turns pinsrd, pextrd into pinsrq, pextrq *)
Theorem C44_pinsrd_refuted :
  same_code (i_pinsrd (Xmm 1) (OReg (Reg64 0)) 3) (i_pinsrq (Xmm 1) (OReg (Reg64 0)) 3)
  /\ same_code (i_pextrd (OReg (Reg64 0)) (Xmm 1) 3) (i_pextrq (OReg (Reg64 0)) (Xmm 1) 3).
Proof. split; same. Qed.
Print Assumptions C44_pinsrd_refuted.
(* xbyak_mnemonic.h: int imm of pinsrw: 256 is taken for "no immediate" *)
Theorem C44_pinsrw_immediate_refuted : exists its,
  emits (i_pinsrw (Xmm 1) (OReg (Reg32 0)) 256) env2 0 its tt /\ bytes2 its = [0x66; 0x0F; 0xC4; 0xC8]
  /\ exists its', emits (i_pinsrw (Xmm 1) (OReg (Reg32 0)) 257) env2 0 its' tt /\ bytes2 its' = [0x66; 0x0F; 0xC4; 0xC8; 0x01].
Proof. eexists; split; [split; reflexivity|]. split; [reflexivity|]. eexists; split; [split; reflexivity|reflexivity]. Qed.
Print Assumptions C44_pinsrw_immediate_refuted.
(* parameters of type Mmx or Xmm also take wider registers: the other instruction is emitted *)
Theorem C44_wider_register_refuted :
  same_code (i_movd_mo (Ymm 1) (OReg (Reg32 0))) (i_movd_mo (Mmx 1) (OReg (Reg32 0)))
  /\ same_code (i_movq_mo (Ymm 1) (OReg (Ymm 2))) (i_movq_mo (Mmx 1) (OReg (Mmx 2)))
  /\ same_code (i_pmovmskb (Reg32 0) (Ymm 1)) (i_pmovmskb (Reg32 0) (Mmx 1))
  /\ same_code (i_maskmovq (Xmm 1) (Xmm 2)) (i_maskmovq (Mmx 1) (Mmx 2))
  /\ same_code (i_movhlps (Ymm 1) (Ymm 2)) (i_movhlps (Xmm 1) (Xmm 2))
  /\ same_code (i_movntps (mem_ 0) (Ymm 1)) (i_movntps (mem_ 0) (Xmm 1))
  /\ same_code (i_psllw_mi (Ymm 1) 3) (i_psllw_mi (Mmx 1) 3)
  /\ same_code (i_pslldq (Ymm 1) 3) (i_pslldq (Mmx 1) 3).
Proof. repeat match goal with |- _ /\ _ => split; [same|] end. same. Qed.
Print Assumptions C44_wider_register_refuted.
(* pshufd, pshufhw, pshuflw of mm registers, which do not exist, emit pshufw *)
Theorem C44_pshufd_mmx_refuted :
  same_code (i_pshufd (Mmx 1) (OReg (Mmx 2)) 5) (i_pshufw (Mmx 1) (OReg (Mmx 2)) 5).
Proof. same. Qed.
Print Assumptions C44_pshufd_mmx_refuted.
(* bt, btc, btr, bts (byte[rax], imm) have the 32-bit form *)
Theorem C44_bt_byte_refuted : same_code (i_bt_oi (OMem (mem_ 8)) 3) (i_bt_oi (OMem (mem_ 32)) 3).
Proof. same. Qed.
Print Assumptions C44_bt_byte_refuted.
