(* Property theorems C27 (segment registers). *)
From Coq Require Import ZArith List Bool Lia.
From Verif Require Import Base Types Emit Encode SpecX86 SpecAddr Wf EmitFacts SpecSeg SegProofs.
Import ListNotations.
Open Scope Z_scope.

(* putSeg(fs), putSeg(gs): the following instruction, whatever it is, gets the override and nothing else changes *)
Theorem C27_override : forall s g env pos its u x, g = FS \/ g = GS -> seg_is g x -> emits (putSeg g) env pos its u ->
  (forall rest, dec_header (render s its ++ rest) = hseg x (dec_header rest))
  /\ forall v n rest, decode v n (render s its ++ rest)
     = match decode v n rest with Some (h, reg, rm, r) => Some (with_seg x h, reg, rm, r) | None => None end.
Proof. exact putSeg_ok. Qed.
Print Assumptions C27_override.
(* putSeg of es, cs, ss and ds gives another segment: es -> cs, cs -> ss, ss -> ds, ds -> es *)
Theorem C27_override_refuted : forall s g env pos its u x, g = ES \/ g = CS \/ g = SS \/ g = DS -> seg_is g x -> emits (putSeg g) env pos its u ->
  exists y, y <> x /\ forall rest, dec_header (render s its ++ rest) = hseg y (dec_header rest).
Proof. exact putSeg_wrong. Qed.
Print Assumptions C27_override_refuted.
Definition env_s := mkEnv false 0x400000 false false VexEncoding PreAVX10v2Encoding.
Example C27_override_instance : emits (putSeg ES) env_s 0 [IDb 0x2E] tt /\ emits (putSeg GS) env_s 0 [IDb 0x65] tt
  /\ dec_header [0x2E; 0x8B; 0x00] = hseg SegCS (dec_header [0x8B; 0x00]).
Proof. repeat split. Qed.

(* push fs = 0F A0, push gs = 0F A8, pop fs = 0F A1, pop gs = 0F A9 *)
Theorem C27_push_pop : forall s g (isPop : bool) env pos its u, g = FS \/ g = GS -> emits (if isPop then pop_seg g else push_seg g) env pos its u ->
  render s its = [0x0F; (match g with FS => 0xA0 | _ => 0xA8 end) + (if isPop then 1 else 0)].
Proof. exact push_seg_ok. Qed.
Print Assumptions C27_push_pop.
(* the others do not exist in 64-bit mode but are emitted without an error *)
Theorem C27_push_pop_refuted : forall s g (isPop : bool) env pos its u, g <> FS -> g <> GS -> emits (if isPop then pop_seg g else push_seg g) env pos its u ->
  exists o, render s its = [o] /\ invalid64 o = true.
Proof. exact push_seg_bad. Qed.
Print Assumptions C27_push_pop_refuted.
Example C27_push_instance : emits (push_seg ES) env_s 0 [IDb 0x06] tt /\ emits (pop_seg DS) env_s 0 [IDb 0x1F] tt.
Proof. repeat split. Qed.

Theorem C27_mov_from_segment : forall s g op env pos its u rest x, seg_is g x ->
  match op with OReg q => gpr q | OMem a => mem_ok a end ->
  emits (mov_o_seg op g) env pos its u ->
  exists h rm, decode false 1 (render s its ++ rest) = Some (h, sreg_num x, rm, rest)
    /\ h_space h = Legacy /\ h_map h = 0 /\ h_opc h = 0x8C /\ h_F2 h = false /\ h_F3 h = false /\ h_lock h = false /\ h_seg h = None
    /\ op_means op h rm
    /\ match op with OReg q => h_W h = (bit_ q =? 64) /\ h_66 h = (bit_ q =? 16) /\ bit_ q <> 8 | OMem a => h_W h = false end.
Proof. exact mov_from. Qed.
Print Assumptions C27_mov_from_segment.
Theorem C27_mov_to_segment : forall s g op env pos its u rest x, seg_is g x ->
  match op with OReg q => gpr q | OMem a => mem_ok a end ->
  emits (mov_seg_o g op) env pos its u ->
  exists h rm, decode false 1 (render s its ++ rest) = Some (h, sreg_num x, rm, rest)
    /\ h_space h = Legacy /\ h_map h = 0 /\ h_opc h = 0x8E /\ h_F2 h = false /\ h_F3 h = false /\ h_lock h = false /\ h_seg h = None
    /\ op_means op h rm
    /\ match op with OReg q => bit_ q <> 8 | OMem a => True end.
Proof. exact mov_to. Qed.
Print Assumptions C27_mov_to_segment.
(* mov r9d, fs; mov gs, word [r8] *)
Example C27_mov_instance : gpr (Reg32 9) /\ emits (mov_o_seg (OReg (Reg32 9)) FS) env_s 0 [IDb 0x41; IDb 0x8C; IDb 0xE1] tt
  /\ emits (mov_seg_o GS (OMem (address0 16 false (mkRegExp (Reg64 8) noReg 0 0)))) env_s 0 [IDb 0x66; IDb 0x41; IDb 0x8E; IDb 0x28] tt.
Proof. repeat split. left. split; [cbn; auto|cbn; lia]. Qed.
