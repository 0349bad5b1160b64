(* Property theorems C17-C20: operands survive encoding.  [emits m env pos its u]: the call m
   succeeds (exception build) at code offset pos and emits the items its; [render s its] are its
   bytes, label fields filled in by s; [rest] are arbitrary following bytes. *)
From Coq Require Import ZArith List Bool Lia.
From Verif Require Import Base Types Emit Encode SpecX86 SpecAddr Wf EmitFacts BitFacts LegacyFacts VexFacts EncThms.
Import ListNotations.
Open Scope Z_scope.

(* C17: a [base + index*scale + disp] operand of a legacy / REX / REX2 instruction *)
Theorem C17_legacy_memory_operand : forall s addr r type code env pos its rest u,
  wf_modrm addr -> permitVsib addr = false -> disp8N addr = 0 ->
  (isREG r = false -> bit4 r = false) ->
  (has type T_APX = true -> getMap type = 0) ->
  opcode_ok (getMap type) (final_opc type r code) = true ->
  emits (opMR addr r type code 0 NONE) env pos its u ->
  exists h m, decode false 1 (render s its ++ rest) = Some (h, regno r, RMem m, rest)
   /\ denotes (a_e addr) h m
   /\ h_space h = Legacy /\ h_map h = getMap type /\ h_opc h = final_opc type r code
   /\ h_W h = isREGb r 64 /\ h_66 h = pfx66 type (a_op addr) r
   /\ h_F2 h = has type T_F2 /\ h_F3 h = has type T_F3 /\ h_lock h = false /\ h_seg h = None.
Proof. exact legacy_mem_lemma. Qed.
Print Assumptions C17_legacy_memory_operand.

Definition ex_addr : Address := (* dword [r13 + r12*8 - 0x81] *)
  address0 32 false (mkRegExp (Reg64 13) (Reg64 12) 8 (w64 (-129))).
Example C17_hypotheses :
  wf_modrm ex_addr /\ opcode_ok (getMap 0) (final_opc 0 (Reg32 20) 0x8B) = true /\
  exists its, emits (opMR ex_addr (Reg32 20) 0 0x8B 0 NONE) (mkEnv false 0 false false VexEncoding PreAVX10v2Encoding) 0 its tt
    /\ render (fun _ _ _ => 0) its = [0xD5; 0x43; 0x8B; 0xA4; 0xE5; 0x7F; 0xFF; 0xFF; 0xFF].
Proof.
  split; [|split; [reflexivity|]].
  - apply wf_modrmb_ok. reflexivity.
  - eexists; split; [split; reflexivity|reflexivity].
Qed.

(* C18: VEX, register and memory forms *)
Theorem C18_vex_register_operands : forall s r p1 base type code imm8 env pos its rest u,
  mods_ok r -> mods_ok base -> omods_ok p1 ->
  uses_evex_reg r p1 base type = false ->
  emits (opVex r p1 (OReg base) type code imm8) env pos its u ->
  exists h, decode false 1 (render s its ++ rest) = Some (h, regno r, RReg (regno base) (regno base), imm_bytes imm8 ++ rest)
    /\ vex_says type code r p1 h.
Proof. exact vex_reg_lemma. Qed.
Print Assumptions C18_vex_register_operands.

Theorem C18_vex_memory_operand : forall s r p1 addr type code imm8 env pos its rest u,
  wf_modrm addr -> disp8N addr = 0 -> permitVsib addr = false ->
  mods_ok r -> omods_ok p1 -> mods_ok (e_base (getRegExp addr)) -> 0 <= mask_ (a_op addr) < 8 ->
  no_rounding r p1 (e_base (getRegExp addr)) ->
  uses_evex_mem r p1 addr type = false ->
  (isVsib addr = true -> regno (e_index (a_e addr)) < 16) ->
  emits (opVex r p1 (OMem addr) type code imm8) env pos its u ->
  exists h m, decode (isVsib addr) 1 (render s its ++ rest) = Some (h, regno r, RMem m, imm_bytes imm8 ++ rest)
    /\ denotes (a_e addr) h m /\ vex_says type code r p1 h /\ (isVsib addr = true -> has type T_VSIB = true).
Proof. exact vex_mem_lemma. Qed.
Print Assumptions C18_vex_memory_operand.
Definition env0 := mkEnv false 0x400000 false false VexEncoding PreAVX10v2Encoding.
(* vfmadd231ps ymm9, ymm10, [r11 + rcx*4 + 0x12345678] *)
Example C18_hypotheses :
  let a := address0 0 false (mkRegExp (Reg64 11) (Reg64 1) 4 0x12345678) in
  let type := T_66 ||| T_0F38 ||| T_W0 ||| T_YMM ||| T_EVEX ||| T_EW0 ||| T_ER_Z ||| T_B32 in
  wf_modrm a /\ uses_evex_mem (Ymm 9) (Some (Ymm 10)) a type = false /\
  exists its, emits (opVex (Ymm 9) (Some (Ymm 10)) (OMem a) type 0xB8 NONE) env0 0 its tt
    /\ render (fun _ _ _ => 0) its = [0xC4; 0x42; 0x2D; 0xB8; 0x8C; 0x8B; 0x78; 0x56; 0x34; 0x12].
Proof.
  cbv zeta. split; [|split; [reflexivity|]].
  - apply wf_modrmb_ok. reflexivity.
  - eexists; split; [split; reflexivity|reflexivity].
Qed.

(* C19: EVEX, register and memory forms *)
Theorem C19_evex_register_operands : forall s r p1 base type code imm8 env pos its rest u,
  mods_ok r -> mods_ok base -> omods_ok p1 ->
  width_ok (bit_ r) -> width_ok (bit_ base) -> Forall width_ok (ow p1) ->
  uses_evex_reg r p1 base type = true ->
  let vl := veclen (bit_ r :: bit_ base :: 0 :: ow p1) in
  emits (opVex r p1 (OReg base) type code imm8) env pos its u ->
  exists h g v, decode false 1 (render s its ++ rest) = Some (h, regno r, RReg g v, imm_bytes imm8 ++ rest)
    /\ (isSIMD base = true -> v = regno base) /\ (isREG base = true -> g = regno base)
    /\ (regno base < 16 -> g = regno base /\ v = regno base)
    /\ evex_says type code r p1 vl h
    /\ h_V h = vreg p1
    /\ agreed (mask_ base) (mask_ r) (ovl p1 mask_) (h_aaa h)
    /\ h_z h = negb (h_aaa h =? 0) && (zero_ r || zero_ base || ovb p1 zero_)
    /\ exists rnd, agreed (rounding_ r) (rounding_ base) (ovl p1 rounding_) rnd
         /\ (rnd = 0 -> h_b h = false /\ h_L h = Z.log2 (vl / 128))
         /\ (rnd = 5 -> h_b h = true)
         /\ (1 <= rnd <= 4 -> h_b h = true /\ h_L h = rnd - 1).
Proof. exact evex_reg_lemma. Qed.
Print Assumptions C19_evex_register_operands.

Theorem C19_evex_memory_operand : forall s r p1 addr type code imm8 env pos its rest u,
  wf_modrm addr -> disp8N addr = 0 -> permitVsib addr = false ->
  mods_ok r -> omods_ok p1 -> mods_ok (e_base (getRegExp addr)) -> 0 <= mask_ (a_op addr) < 8 ->
  mask_ (e_base (getRegExp addr)) = 0 -> zero_ (e_base (getRegExp addr)) = false ->
  no_rounding r p1 (e_base (getRegExp addr)) ->
  width_ok (bit_ r) -> Forall width_ok (ow p1) ->
  uses_evex_mem r p1 addr type = true ->
  (isVsib addr = true -> ovb p1 bit4 = false) ->
  let vl := veclen (bit_ r :: bit_ (e_base (getRegExp addr)) :: (if isVsib addr then bit_ (e_index (a_e addr)) else 0) :: ow p1) in
  (tuple_of type = TMovddup -> 128 <= bit_ r) ->
  emits (opVex r p1 (OMem addr) type code imm8) env pos its u ->
  exists h m,
    decode (isVsib addr) (disp8_factor (tuple_of type) vl (if a_broadcast addr then Some (bcast_size type) else None))
           (render s its ++ rest) = Some (h, regno r, RMem m, imm_bytes imm8 ++ rest)
    /\ denotes (a_e addr) h m
    /\ evex_says type code r p1 vl h
    /\ h_L h = Z.log2 (vl / 128)
    /\ h_b h = a_broadcast addr
    /\ (isVsib addr = false -> h_V h = vreg p1)
    /\ (isVsib addr = true -> has type T_VSIB = true /\ h_V h mod 16 = vreg p1)
    /\ (a_broadcast addr = true -> has type (T_B32 ||| T_B64) = true)
    /\ agreed (mask_ (a_op addr)) (if mask_ (a_op addr) =? 0 then mask_ r else 0)
              (if mask_ (a_op addr) =? 0 then ovl p1 mask_ else 0) (h_aaa h)
    /\ (mask_ (a_op addr) <> 0 -> has type T_M_K = true)
    /\ h_z h = negb (h_aaa h =? 0) && (zero_ r || ovb p1 zero_).
Proof. exact evex_mem_lemma. Qed.
Print Assumptions C19_evex_memory_operand.
(* vaddps zmm20 {k3}{z}, zmm31, [r13 + 0x1000]: disp8 = 0x40, N = 64 *)
Example C19_hypotheses :
  let a := address0 0 false (mkRegExp (Reg64 13) noReg 0 0x1000) in
  let r := setZero (set_mask (Zmm 20) 3) in
  let type := T_0F ||| T_EW0 ||| T_YMM ||| T_EVEX ||| T_ER_Z ||| T_B32 in
  wf_modrm a /\ mods_ok r /\ uses_evex_mem r (Some (Zmm 31)) a type = true /\
  exists its, emits (opVex r (Some (Zmm 31)) (OMem a) type 0x58 NONE) env0 0 its tt
    /\ render (fun _ _ _ => 0) its = [0x62; 0xC1; 0x04; 0xC3; 0x58; 0x65; 0x40].
Proof.
  cbv zeta. split; [|split; [split; cbn; lia|split; [reflexivity|]]].
  - apply wf_modrmb_ok. reflexivity.
  - eexists; split; [split; reflexivity|reflexivity].
Qed.

(* C20: register-register legacy instructions *)
Theorem C20_register_register : forall s r1 r2 type code env pos its rest u,
  (isREG r1 = false -> bit4 r1 = false) -> (isREG r2 = false -> bit4 r2 = false) ->
  (has type T_APX = true -> getMap type = 0) ->
  opcode_ok (getMap type) (final_opc type r1 code) = true ->
  emits (opRR r1 r2 type code) env pos its u ->
  exists h, decode false 1 (render s its ++ rest) = Some (h, regno r1, RReg (regno r2) (regno r2), rest)
   /\ h_space h = Legacy /\ h_map h = getMap type /\ h_opc h = final_opc type r1 code
   /\ h_W h = (isREGb r1 64 || isREGb r2 64) /\ h_66 h = pfx66 type r2 r1 /\ h_67 h = false
   /\ h_F2 h = has type T_F2 /\ h_F3 h = has type T_F3 /\ h_lock h = false /\ h_seg h = None
   /\ (has type T_ALLOW_DIFF_SIZE = false -> isREG r1 = true -> isREG r2 = true -> bit_ r1 = bit_ r2)
   /\ (has type (T_ALLOW_DIFF_SIZE ||| T_ALLOW_ABCDH) = false -> gpr r1 -> gpr r2 -> bit_ r1 = 8 ->
       bit_ r2 = 8 /\ byte_reg (h_rex h) (regno r1) = byte_meaning r1
       /\ byte_reg (h_rex h) (regno r2) = byte_meaning r2).
Proof. exact legacy_reg_lemma. Qed.
Print Assumptions C20_register_register.
(* mov bh, dl is accepted, mov bh, sil is not *)
Example C20_hypotheses :
  (exists its, emits (opRR (Reg8 2) (Reg8 7) 0 0x88) env0 0 its tt /\ render (fun _ _ _ => 0) its = [0x88; 0xD7])
  /\ opRR (Reg8e 6) (Reg8 7) 0 0x88 env0 0 = ([], Err ERR_CANT_USE_ABCDH).
Proof. split; [|reflexivity]. eexists; split; [split; reflexivity|reflexivity]. Qed.
