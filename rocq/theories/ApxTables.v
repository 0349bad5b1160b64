(* Generated by tools/apxtab.py: the methods with Intel APX encodings (map 4, and the extended EVEX forms of maps 2 and 3).
   The rows come from the Intel APX architecture specification. *)
From Coq Require Import ZArith List Bool Lia String.
From Verif Require Import Base Types Emit Encode Mnemonic SpecX86 SpecAddr EmitFacts SpecIsa SpecInsn SpecLeg
  LegGpr3 SpecApx ApxFacts ApxShapes ApxShapes2 ApxShapes3 ApxShapes4 ApxShapes5.
Import ListNotations.
Open Scope Z_scope.
Open Scope string_scope.


(* what the methods with a test of their own emit for extended operands *)
Definition incty (b : Z) : Z * Z :=
  (T_APX ||| T_NF ||| T_ND1 ||| (if has b 16 then T_66 else 0), if has b 8 then 0xFE else 0xFF).
Lemma inc_fun e d op : isREG d = true -> opIncDec d op e =
  (opROO d op (OReg (regOf e REG (getBit d) false)) (fst (incty (getBit d))) (snd (incty (getBit d))) 0 NONE ;;; ret tt).
Proof. intros R. unfold opIncDec. rewrite R. reflexivity. Qed.
Lemma adcx_fun r op env pos its u : hasRex2NFZU op || hasRex2NFZU (OReg r) = true -> emits (i_adcx_eo r op) env pos its u ->
  emits (opROO noReg op (OReg r) T_66 0x66 0 NONE) env pos its true.
Proof.
  intros X H. unfold i_adcx_eo in H. apply emits_fn in H.
  match type of H with emits (if ?c then _ else _) _ _ _ _ => destruct c; [apply emits_throw in H; contradiction|] end.
  exact (nod_done _ _ _ _ _ _ _ _ _ X H).
Qed.
Lemma adox_fun r op env pos its u : hasRex2NFZU op || hasRex2NFZU (OReg r) = true -> emits (i_adox_eo r op) env pos its u ->
  emits (opROO noReg op (OReg r) T_F3 0x66 0 NONE) env pos its true.
Proof.
  intros X H. unfold i_adox_eo in H. apply emits_fn in H.
  match type of H with emits (if ?c then _ else _) _ _ _ _ => destruct c; [apply emits_throw in H; contradiction|] end.
  exact (nod_done _ _ _ _ _ _ _ _ _ X H).
Qed.
Lemma crc_fun a b code : code = (0xF0 ||| (if has b 8 then 0 else 1)) -> forall r op env pos its u, hasRex2NFZU op || hasRex2NFZU (OReg r) = true ->
  bit_ r = a -> bit_ (ob op) = b -> emits (i_crc32 r op) env pos its u ->
  emits (opROO noReg op (OReg r) (T_APX ||| ((if has b 16 then T_66 else 0) ||| T_ALLOW_DIFF_SIZE)) code 0 NONE) env pos its true.
Proof.
  intros -> r op env pos its u X A B H. unfold i_crc32 in H. apply emits_fn in H.
  match type of H with emits (if ?c then _ else _) _ _ _ _ => destruct c; [apply emits_throw in H; contradiction|] end.
  cbv zeta in H. unfold isBit in H. rewrite B in H. exact (nod_done _ _ _ _ _ _ _ _ _ X H).
Qed.

Definition apx_arith : list aentry := [
  mkAE "add/roo" [cG; cE; cE] XNo (a_roo i_add_roo)
    [mkA NP 4 0x00 None [v_; rm_a; rg_] OsB Nd1 NfOpt None I_none; mkA NP 4 0x02 None [v_; rg_; mm_a] OsB Nd1 NfOpt None I_none];
  mkAE "add/roi" [cG; cE] XNo (a_roi i_add_roi)
    [mkA NP 4 0x80 (Some 0) [v_; rm_a] OsB Nd1 NfOpt None I_z; mkA NP 4 0x83 (Some 0) [v_; rm_a] OsV Nd1 NfOpt None I_8s];
  mkAE "or/roo" [cG; cE; cE] XNo (a_roo i_or__roo)
    [mkA NP 4 0x08 None [v_; rm_a; rg_] OsB Nd1 NfOpt None I_none; mkA NP 4 0x0A None [v_; rg_; mm_a] OsB Nd1 NfOpt None I_none];
  mkAE "or/roi" [cG; cE] XNo (a_roi i_or__roi)
    [mkA NP 4 0x80 (Some 1) [v_; rm_a] OsB Nd1 NfOpt None I_z; mkA NP 4 0x83 (Some 1) [v_; rm_a] OsV Nd1 NfOpt None I_8s];
  mkAE "adc/roo" [cG; cE; cE] XNo (a_roo i_adc_roo)
    [mkA NP 4 0x10 None [v_; rm_a; rg_] OsB Nd1 NfNo None I_none; mkA NP 4 0x12 None [v_; rg_; mm_a] OsB Nd1 NfNo None I_none];
  mkAE "adc/roi" [cG; cE] XNo (a_roi i_adc_roi)
    [mkA NP 4 0x80 (Some 2) [v_; rm_a] OsB Nd1 NfNo None I_z; mkA NP 4 0x83 (Some 2) [v_; rm_a] OsV Nd1 NfNo None I_8s];
  mkAE "sbb/roo" [cG; cE; cE] XNo (a_roo i_sbb_roo)
    [mkA NP 4 0x18 None [v_; rm_a; rg_] OsB Nd1 NfNo None I_none; mkA NP 4 0x1A None [v_; rg_; mm_a] OsB Nd1 NfNo None I_none];
  mkAE "sbb/roi" [cG; cE] XNo (a_roi i_sbb_roi)
    [mkA NP 4 0x80 (Some 3) [v_; rm_a] OsB Nd1 NfNo None I_z; mkA NP 4 0x83 (Some 3) [v_; rm_a] OsV Nd1 NfNo None I_8s];
  mkAE "and/roo" [cG; cE; cE] XNo (a_roo i_and__roo)
    [mkA NP 4 0x20 None [v_; rm_a; rg_] OsB Nd1 NfOpt None I_none; mkA NP 4 0x22 None [v_; rg_; mm_a] OsB Nd1 NfOpt None I_none];
  mkAE "and/roi" [cG; cE] XNo (a_roi i_and__roi)
    [mkA NP 4 0x80 (Some 4) [v_; rm_a] OsB Nd1 NfOpt None I_z; mkA NP 4 0x83 (Some 4) [v_; rm_a] OsV Nd1 NfOpt None I_8s];
  mkAE "sub/roo" [cG; cE; cE] XNo (a_roo i_sub_roo)
    [mkA NP 4 0x28 None [v_; rm_a; rg_] OsB Nd1 NfOpt None I_none; mkA NP 4 0x2A None [v_; rg_; mm_a] OsB Nd1 NfOpt None I_none];
  mkAE "sub/roi" [cG; cE] XNo (a_roi i_sub_roi)
    [mkA NP 4 0x80 (Some 5) [v_; rm_a] OsB Nd1 NfOpt None I_z; mkA NP 4 0x83 (Some 5) [v_; rm_a] OsV Nd1 NfOpt None I_8s];
  mkAE "xor/roo" [cG; cE; cE] XNo (a_roo i_xor__roo)
    [mkA NP 4 0x30 None [v_; rm_a; rg_] OsB Nd1 NfOpt None I_none; mkA NP 4 0x32 None [v_; rg_; mm_a] OsB Nd1 NfOpt None I_none];
  mkAE "xor/roi" [cG; cE] XNo (a_roi i_xor__roi)
    [mkA NP 4 0x80 (Some 6) [v_; rm_a] OsB Nd1 NfOpt None I_z; mkA NP 4 0x83 (Some 6) [v_; rm_a] OsV Nd1 NfOpt None I_8s];
  mkAE "inc/ro" [cG; cE] XNo (a_ro i_inc_ro)
    [mkA NP 4 0xFE (Some 0) [v_; rm_a] OsB Nd1 NfOpt None I_none];
  mkAE "dec/ro" [cG; cE] XNo (a_ro i_dec_ro)
    [mkA NP 4 0xFE (Some 1) [v_; rm_a] OsB Nd1 NfOpt None I_none];
  mkAE "neg/ro" [cG; cE] XNo (a_ro i_neg_ro)
    [mkA NP 4 0xF6 (Some 3) [v_; rm_a] OsB Nd1 NfOpt None I_none];
  mkAE "not/ro" [cG; cE] XNo (a_ro i_not__ro)
    [mkA NP 4 0xF6 (Some 2) [v_; rm_a] OsB Nd1 NfNo None I_none];
  mkAE "not/o" [cE] XAny (a_o i_not__o)
    [mkA NP 4 0xF6 (Some 2) [rm_a] OsB Nd0 NfNo None I_none];
  mkAE "neg/o" [cE] XAny (a_o i_neg_o)
    [mkA NP 4 0xF6 (Some 3) [rm_a] OsB Nd0 NfOpt None I_none];
  mkAE "mul/o" [cE] XAny (a_o i_mul)
    [mkA NP 4 0xF6 (Some 4) [rm_a] OsB Nd0 NfOpt None I_none];
  mkAE "imul/o" [cE] XAny (a_o i_imul_o)
    [mkA NP 4 0xF6 (Some 5) [rm_a] OsB Nd0 NfOpt None I_none];
  mkAE "div/o" [cE] XAny (a_o i_div)
    [mkA NP 4 0xF6 (Some 6) [rm_a] OsB Nd0 NfOpt None I_none];
  mkAE "idiv/o" [cE] XAny (a_o i_idiv)
    [mkA NP 4 0xF6 (Some 7) [rm_a] OsB Nd0 NfOpt None I_none];
  mkAE "rol/roi" [cG; cE] XNo (a_roi i_rol_roi)
    [mkA NP 4 0xD0 (Some 0) [v_; rm_a] OsB Nd1 NfOpt None I_1; mkA NP 4 0xC0 (Some 0) [v_; rm_a] OsB Nd1 NfOpt None I_8];
  mkAE "rol/rob" [cG; cE; cCl] XNo (a_ror i_rol_rob)
    [mkA NP 4 0xD2 (Some 0) [v_; rm_a; cl_a] OsB Nd1 NfOpt None I_none];
  mkAE "rol/oi" [cE] XAny (a_oi i_rol_oi)
    [mkA NP 4 0xD0 (Some 0) [rm_a] OsB Nd0 NfOpt None I_1; mkA NP 4 0xC0 (Some 0) [rm_a] OsB Nd0 NfOpt None I_8];
  mkAE "rol/ob" [cE; cCl] XAny (a_or i_rol_ob)
    [mkA NP 4 0xD2 (Some 0) [rm_a; cl_a] OsB Nd0 NfOpt None I_none];
  mkAE "ror/roi" [cG; cE] XNo (a_roi i_ror_roi)
    [mkA NP 4 0xD0 (Some 1) [v_; rm_a] OsB Nd1 NfOpt None I_1; mkA NP 4 0xC0 (Some 1) [v_; rm_a] OsB Nd1 NfOpt None I_8];
  mkAE "ror/rob" [cG; cE; cCl] XNo (a_ror i_ror_rob)
    [mkA NP 4 0xD2 (Some 1) [v_; rm_a; cl_a] OsB Nd1 NfOpt None I_none];
  mkAE "ror/oi" [cE] XAny (a_oi i_ror_oi)
    [mkA NP 4 0xD0 (Some 1) [rm_a] OsB Nd0 NfOpt None I_1; mkA NP 4 0xC0 (Some 1) [rm_a] OsB Nd0 NfOpt None I_8];
  mkAE "ror/ob" [cE; cCl] XAny (a_or i_ror_ob)
    [mkA NP 4 0xD2 (Some 1) [rm_a; cl_a] OsB Nd0 NfOpt None I_none];
  mkAE "rcl/roi" [cG; cE] XNo (a_roi i_rcl_roi)
    [mkA NP 4 0xD0 (Some 2) [v_; rm_a] OsB Nd1 NfNo None I_1; mkA NP 4 0xC0 (Some 2) [v_; rm_a] OsB Nd1 NfNo None I_8];
  mkAE "rcl/rob" [cG; cE; cCl] XNo (a_ror i_rcl_rob)
    [mkA NP 4 0xD2 (Some 2) [v_; rm_a; cl_a] OsB Nd1 NfNo None I_none];
  mkAE "rcl/oi" [cE] XAny (a_oi i_rcl_oi)
    [mkA NP 4 0xD0 (Some 2) [rm_a] OsB Nd0 NfNo None I_1; mkA NP 4 0xC0 (Some 2) [rm_a] OsB Nd0 NfNo None I_8];
  mkAE "rcl/ob" [cE; cCl] XAny (a_or i_rcl_ob)
    [mkA NP 4 0xD2 (Some 2) [rm_a; cl_a] OsB Nd0 NfNo None I_none];
  mkAE "rcr/roi" [cG; cE] XNo (a_roi i_rcr_roi)
    [mkA NP 4 0xD0 (Some 3) [v_; rm_a] OsB Nd1 NfNo None I_1; mkA NP 4 0xC0 (Some 3) [v_; rm_a] OsB Nd1 NfNo None I_8];
  mkAE "rcr/rob" [cG; cE; cCl] XNo (a_ror i_rcr_rob)
    [mkA NP 4 0xD2 (Some 3) [v_; rm_a; cl_a] OsB Nd1 NfNo None I_none];
  mkAE "rcr/oi" [cE] XAny (a_oi i_rcr_oi)
    [mkA NP 4 0xD0 (Some 3) [rm_a] OsB Nd0 NfNo None I_1; mkA NP 4 0xC0 (Some 3) [rm_a] OsB Nd0 NfNo None I_8];
  mkAE "rcr/ob" [cE; cCl] XAny (a_or i_rcr_ob)
    [mkA NP 4 0xD2 (Some 3) [rm_a; cl_a] OsB Nd0 NfNo None I_none];
  mkAE "shl/roi" [cG; cE] XNo (a_roi i_shl_roi)
    [mkA NP 4 0xD0 (Some 4) [v_; rm_a] OsB Nd1 NfOpt None I_1; mkA NP 4 0xC0 (Some 4) [v_; rm_a] OsB Nd1 NfOpt None I_8];
  mkAE "shl/rob" [cG; cE; cCl] XNo (a_ror i_shl_rob)
    [mkA NP 4 0xD2 (Some 4) [v_; rm_a; cl_a] OsB Nd1 NfOpt None I_none];
  mkAE "shl/oi" [cE] XAny (a_oi i_shl_oi)
    [mkA NP 4 0xD0 (Some 4) [rm_a] OsB Nd0 NfOpt None I_1; mkA NP 4 0xC0 (Some 4) [rm_a] OsB Nd0 NfOpt None I_8];
  mkAE "shl/ob" [cE; cCl] XAny (a_or i_shl_ob)
    [mkA NP 4 0xD2 (Some 4) [rm_a; cl_a] OsB Nd0 NfOpt None I_none];
  mkAE "sal/roi" [cG; cE] XNo (a_roi i_sal_roi)
    [mkA NP 4 0xD0 (Some 4) [v_; rm_a] OsB Nd1 NfOpt None I_1; mkA NP 4 0xC0 (Some 4) [v_; rm_a] OsB Nd1 NfOpt None I_8];
  mkAE "sal/rob" [cG; cE; cCl] XNo (a_ror i_sal_rob)
    [mkA NP 4 0xD2 (Some 4) [v_; rm_a; cl_a] OsB Nd1 NfOpt None I_none];
  mkAE "sal/oi" [cE] XAny (a_oi i_sal_oi)
    [mkA NP 4 0xD0 (Some 4) [rm_a] OsB Nd0 NfOpt None I_1; mkA NP 4 0xC0 (Some 4) [rm_a] OsB Nd0 NfOpt None I_8];
  mkAE "sal/ob" [cE; cCl] XAny (a_or i_sal_ob)
    [mkA NP 4 0xD2 (Some 4) [rm_a; cl_a] OsB Nd0 NfOpt None I_none];
  mkAE "shr/roi" [cG; cE] XNo (a_roi i_shr_roi)
    [mkA NP 4 0xD0 (Some 5) [v_; rm_a] OsB Nd1 NfOpt None I_1; mkA NP 4 0xC0 (Some 5) [v_; rm_a] OsB Nd1 NfOpt None I_8];
  mkAE "shr/rob" [cG; cE; cCl] XNo (a_ror i_shr_rob)
    [mkA NP 4 0xD2 (Some 5) [v_; rm_a; cl_a] OsB Nd1 NfOpt None I_none];
  mkAE "shr/oi" [cE] XAny (a_oi i_shr_oi)
    [mkA NP 4 0xD0 (Some 5) [rm_a] OsB Nd0 NfOpt None I_1; mkA NP 4 0xC0 (Some 5) [rm_a] OsB Nd0 NfOpt None I_8];
  mkAE "shr/ob" [cE; cCl] XAny (a_or i_shr_ob)
    [mkA NP 4 0xD2 (Some 5) [rm_a; cl_a] OsB Nd0 NfOpt None I_none];
  mkAE "sar/roi" [cG; cE] XNo (a_roi i_sar_roi)
    [mkA NP 4 0xD0 (Some 7) [v_; rm_a] OsB Nd1 NfOpt None I_1; mkA NP 4 0xC0 (Some 7) [v_; rm_a] OsB Nd1 NfOpt None I_8];
  mkAE "sar/rob" [cG; cE; cCl] XNo (a_ror i_sar_rob)
    [mkA NP 4 0xD2 (Some 7) [v_; rm_a; cl_a] OsB Nd1 NfOpt None I_none];
  mkAE "sar/oi" [cE] XAny (a_oi i_sar_oi)
    [mkA NP 4 0xD0 (Some 7) [rm_a] OsB Nd0 NfOpt None I_1; mkA NP 4 0xC0 (Some 7) [rm_a] OsB Nd0 NfOpt None I_8];
  mkAE "sar/ob" [cE; cCl] XAny (a_or i_sar_ob)
    [mkA NP 4 0xD2 (Some 7) [rm_a; cl_a] OsB Nd0 NfOpt None I_none];
  mkAE "shld/rori" [cGv; cEv; cGv] XNo (a_rori i_shld_rori)
    [mkA NP 4 0x24 None [v_; rm_a; rg_] OsV Nd1 NfOpt None I_8];
  mkAE "shld/rorb" [cGv; cEv; cGv; cCl] XNo (a_rorr i_shld_rorb)
    [mkA NP 4 0xA5 None [v_; rm_a; rg_; cl_a] OsV Nd1 NfOpt None I_none];
  mkAE "shld/ori" [cEv; cGv] XAny (a_ori i_shld_ori)
    [mkA NP 4 0x24 None [rm_a; rg_] OsV Nd0 NfOpt None I_8];
  mkAE "shld/orb" [cEv; cGv; cCl] XAny (a_orr i_shld_orb)
    [mkA NP 4 0xA5 None [rm_a; rg_; cl_a] OsV Nd0 NfOpt None I_none];
  mkAE "shrd/rori" [cGv; cEv; cGv] XNo (a_rori i_shrd_rori)
    [mkA NP 4 0x2C None [v_; rm_a; rg_] OsV Nd1 NfOpt None I_8];
  mkAE "shrd/rorb" [cGv; cEv; cGv; cCl] XNo (a_rorr i_shrd_rorb)
    [mkA NP 4 0xAD None [v_; rm_a; rg_; cl_a] OsV Nd1 NfOpt None I_none];
  mkAE "shrd/ori" [cEv; cGv] XAny (a_ori i_shrd_ori)
    [mkA NP 4 0x2C None [rm_a; rg_] OsV Nd0 NfOpt None I_8];
  mkAE "shrd/orb" [cEv; cGv; cCl] XAny (a_orr i_shrd_orb)
    [mkA NP 4 0xAD None [rm_a; rg_; cl_a] OsV Nd0 NfOpt None I_none];
  mkAE "imul/rro" [cGv; cGv; cEv] XNo (a_rro i_imul_rro)
    [mkA NP 4 0xAF None [v_; rg_; rm_a] OsV Nd1 NfOpt None I_none];
  mkAE "adcx/rro" [cGy; cGy; cEy] XNo (a_rro i_adcx_eeo)
    [mkA P66 4 0x66 None [v_; rg_; rm_a] OsY Nd1 NfNo None I_none];
  mkAE "adcx/ro" [cGy; cEy] XAny (a_ro i_adcx_eo)
    [mkA P66 4 0x66 None [rg_; rm_a] OsY Nd0 NfNo None I_none];
  mkAE "adox/rro" [cGy; cGy; cEy] XNo (a_rro i_adox_eeo)
    [mkA PF3 4 0x66 None [v_; rg_; rm_a] OsY Nd1 NfNo None I_none];
  mkAE "adox/ro" [cGy; cEy] XAny (a_ro i_adox_eo)
    [mkA PF3 4 0x66 None [rg_; rm_a] OsY Nd0 NfNo None I_none];
  mkAE "imul/ro" [cGv; cEv] XAny (a_ro i_imul_ro)
    [mkA NP 4 0xAF None [rg_; rm_a] OsV Nd0 NfOpt None I_none];
  mkAE "lzcnt/ro" [cGv; cEv] XAny (a_ro i_lzcnt)
    [mkA NP 4 0xF5 None [rg_; rm_a] OsV Nd0 NfOpt None I_none];
  mkAE "tzcnt/ro" [cGv; cEv] XAny (a_ro i_tzcnt)
    [mkA NP 4 0xF4 None [rg_; rm_a] OsV Nd0 NfOpt None I_none];
  mkAE "imul/roi" [cGv; cEv] XAny (a_roi (fun r op imm => imul_imm r op (s32 imm)))
    [mkA NP 4 0x69 None [rg_; rm_a] OsV NdZU NfOpt None I_z; mkA NP 4 0x6B None [rg_; rm_a] OsV NdZU NfOpt None I_8s];
  mkAE "movbe/mr" [cA; cGv] XAny (a_mr i_movbe_ar)
    [mkA NP 4 0x61 None [mm_a; rg_] OsV Nd0 NfNo None I_none];
  mkAE "movdiri/mr" [cA; cGy] XAny (a_mr i_movdiri)
    [mkA NP 4 0xF9 None [mm_a; rg_] OsY Nd0 NfNo None I_none];
  mkAE "aadd/mr" [cA; cGy] XAny (a_mr i_aadd)
    [mkA NP 4 0xFC None [mm_a; rg_] OsY Nd0 NfNo None I_none];
  mkAE "aand/mr" [cA; cGy] XAny (a_mr i_aand)
    [mkA P66 4 0xFC None [mm_a; rg_] OsY Nd0 NfNo None I_none];
  mkAE "aor/mr" [cA; cGy] XAny (a_mr i_aor)
    [mkA PF2 4 0xFC None [mm_a; rg_] OsY Nd0 NfNo None I_none];
  mkAE "axor/mr" [cA; cGy] XAny (a_mr i_axor)
    [mkA PF3 4 0xFC None [mm_a; rg_] OsY Nd0 NfNo None I_none];
  mkAE "movbe/rm" [cGv; cA] XAny (a_rm i_movbe_ra)
    [mkA NP 4 0x60 None [rg_; mm_a] OsV Nd0 NfNo None I_none];
  mkAE "push2" [cRn 64; cRn 64] XNo (a_rr i_push2)
    [mkA NP 4 0xFF (Some 6) [vn_ 64; rrn_a 64] Os0 Nd1 NfNo None I_none];
  mkAE "push2p" [cRn 64; cRn 64] XNo (a_rr i_push2p)
    [mkA NP 4 0xFF (Some 6) [vn_ 64; rrn_a 64] Os1 Nd1 NfNo None I_none];
  mkAE "pop2" [cRn 64; cRn 64] XNo (a_rr i_pop2)
    [mkA NP 4 0x8F (Some 0) [vn_ 64; rrn_a 64] Os0 Nd1 NfNo None I_none];
  mkAE "pop2p" [cRn 64; cRn 64] XNo (a_rr i_pop2p)
    [mkA NP 4 0x8F (Some 0) [vn_ 64; rrn_a 64] Os1 Nd1 NfNo None I_none];
  mkAE "crc32/32/8" [cRn 32; cEn 8] XAny (a_ro i_crc32)
    [mkA NP 4 0xF0 None [rgn_ 32; rmn_a 8] Os0 Nd0 NfNo None I_none];
  mkAE "crc32/32/16" [cRn 32; cEn 16] XAny (a_ro i_crc32)
    [mkA P66 4 0xF1 None [rgn_ 32; rmn_a 16] Os0 Nd0 NfNo None I_none];
  mkAE "crc32/32/32" [cRn 32; cEn 32] XAny (a_ro i_crc32)
    [mkA NP 4 0xF1 None [rgn_ 32; rmn_a 32] Os0 Nd0 NfNo None I_none];
  mkAE "crc32/64/8" [cRn 64; cEn 8] XAny (a_ro i_crc32)
    [mkA NP 4 0xF0 None [rgn_ 64; rmn_a 8] Os1 Nd0 NfNo None I_none];
  mkAE "crc32/64/64" [cRn 64; cEn 64] XAny (a_ro i_crc32)
    [mkA NP 4 0xF1 None [rgn_ 64; rmn_a 64] Os1 Nd0 NfNo None I_none];
  mkAE "andn" [cGy; cGy; cEy] XHd (a_rro i_andn)
    [mkA NP 2 0xF2 None [rg_; v_; rm_a] OsY Nd0 NfOpt None I_none];
  mkAE "mulx" [cGy; cGy; cEy] XHd (a_rro i_mulx)
    [mkA PF2 2 0xF6 None [rg_; v_; rm_a] OsY Nd0 NfNo None I_none];
  mkAE "pdep" [cGy; cGy; cEy] XHd (a_rro i_pdep)
    [mkA PF2 2 0xF5 None [rg_; v_; rm_a] OsY Nd0 NfNo None I_none];
  mkAE "pext" [cGy; cGy; cEy] XHd (a_rro i_pext)
    [mkA PF3 2 0xF5 None [rg_; v_; rm_a] OsY Nd0 NfNo None I_none];
  mkAE "bextr" [cGy; cEy; cGy] XHd (a_ror i_bextr)
    [mkA NP 2 0xF7 None [rg_; rm_a; v_] OsY Nd0 NfOpt None I_none];
  mkAE "bzhi" [cGy; cEy; cGy] XHd (a_ror i_bzhi)
    [mkA NP 2 0xF5 None [rg_; rm_a; v_] OsY Nd0 NfOpt None I_none];
  mkAE "sarx" [cGy; cEy; cGy] XHd (a_ror i_sarx)
    [mkA PF3 2 0xF7 None [rg_; rm_a; v_] OsY Nd0 NfNo None I_none];
  mkAE "shlx" [cGy; cEy; cGy] XHd (a_ror i_shlx)
    [mkA P66 2 0xF7 None [rg_; rm_a; v_] OsY Nd0 NfNo None I_none];
  mkAE "shrx" [cGy; cEy; cGy] XHd (a_ror i_shrx)
    [mkA PF2 2 0xF7 None [rg_; rm_a; v_] OsY Nd0 NfNo None I_none];
  mkAE "blsr" [cGy; cEy] XRegs (a_ro i_blsr)
    [mkA NP 2 0xF3 (Some 1) [v_; rm_a] OsY Nd0 NfOpt None I_none];
  mkAE "blsmsk" [cGy; cEy] XRegs (a_ro i_blsmsk)
    [mkA NP 2 0xF3 (Some 2) [v_; rm_a] OsY Nd0 NfOpt None I_none];
  mkAE "blsi" [cGy; cEy] XRegs (a_ro i_blsi)
    [mkA NP 2 0xF3 (Some 3) [v_; rm_a] OsY Nd0 NfOpt None I_none];
  mkAE "rorx" [cGy; cEy] XRegs (a_roi i_rorx)
    [mkA PF2 3 0xF0 None [rg_; rm_a] OsY Nd0 NfNo None I_8]
].
Lemma apx_arith_ok : Forall aimplements apx_arith.
Proof.
  unfold apx_arith.
  apply Forall_cons. { refine (roo_entry _ (T_NF ||| T_CODE1_IF1) 0x00 0x00 NfOpt eq_refl eq_refl _); discriminate. }
  apply Forall_cons. { refine (roi_entry _ _ 0 (T_NF ||| T_CODE1_IF1) NfOpt (fun _ _ _ => eq_refl) _ _ eq_refl eq_refl eq_refl); [lia|discriminate]. }
  apply Forall_cons. { refine (roo_entry _ (T_NF ||| T_CODE1_IF1) 0x08 0x08 NfOpt eq_refl eq_refl _); discriminate. }
  apply Forall_cons. { refine (roi_entry _ _ 1 (T_NF ||| T_CODE1_IF1) NfOpt (fun _ _ _ => eq_refl) _ _ eq_refl eq_refl eq_refl); [lia|discriminate]. }
  apply Forall_cons. { refine (roo_entry _ T_NONE 0x10 0x10 NfNo eq_refl eq_refl _); discriminate. }
  apply Forall_cons. { refine (roi_entry _ _ 2 T_NONE NfNo (fun _ _ _ => eq_refl) _ _ eq_refl eq_refl eq_refl); [lia|discriminate]. }
  apply Forall_cons. { refine (roo_entry _ T_NONE 0x18 0x18 NfNo eq_refl eq_refl _); discriminate. }
  apply Forall_cons. { refine (roi_entry _ _ 3 T_NONE NfNo (fun _ _ _ => eq_refl) _ _ eq_refl eq_refl eq_refl); [lia|discriminate]. }
  apply Forall_cons. { refine (roo_entry _ (T_NF ||| T_CODE1_IF1) 0x20 0x20 NfOpt eq_refl eq_refl _); discriminate. }
  apply Forall_cons. { refine (roi_entry _ _ 4 (T_NF ||| T_CODE1_IF1) NfOpt (fun _ _ _ => eq_refl) _ _ eq_refl eq_refl eq_refl); [lia|discriminate]. }
  apply Forall_cons. { refine (roo_entry _ (T_NF ||| T_CODE1_IF1) 0x28 0x28 NfOpt eq_refl eq_refl _); discriminate. }
  apply Forall_cons. { refine (roi_entry _ _ 5 (T_NF ||| T_CODE1_IF1) NfOpt (fun _ _ _ => eq_refl) _ _ eq_refl eq_refl eq_refl); [lia|discriminate]. }
  apply Forall_cons. { refine (roo_entry _ (T_NF ||| T_CODE1_IF1) 0x30 0x30 NfOpt eq_refl eq_refl _); discriminate. }
  apply Forall_cons. { refine (roi_entry _ _ 6 (T_NF ||| T_CODE1_IF1) NfOpt (fun _ _ _ => eq_refl) _ _ eq_refl eq_refl eq_refl); [lia|discriminate]. }
  apply Forall_cons. { refine (ro_digit_entry _ _ (mkA NP 4 0xFE (Some 0) [v_; rm_a] OsB Nd1 NfOpt None I_none) 0 incty (inc_fun 0) _ eq_refl eq_refl eq_refl eq_refl _ eq_refl eq_refl); [lia|discriminate]. }
  apply Forall_cons. { refine (ro_digit_entry _ _ (mkA NP 4 0xFE (Some 1) [v_; rm_a] OsB Nd1 NfOpt None I_none) 1 incty (inc_fun 1) _ eq_refl eq_refl eq_refl eq_refl _ eq_refl eq_refl); [lia|discriminate]. }
  apply Forall_cons. { refine (ro_digit_entry _ _ (mkA NP 4 0xF6 (Some 3) [v_; rm_a] OsB Nd1 NfOpt None I_none) 3 (fun _ => ((T_APX ||| T_NF ||| T_CODE1_IF1 ||| T_ND1), 0xF6)) (fun _ _ _ => eq_refl) _ eq_refl eq_refl eq_refl eq_refl _ eq_refl eq_refl); [lia|discriminate]. }
  apply Forall_cons. { refine (ro_digit_entry _ _ (mkA NP 4 0xF6 (Some 2) [v_; rm_a] OsB Nd1 NfNo None I_none) 2 (fun _ => ((T_APX ||| T_CODE1_IF1 ||| T_ND1), 0xF6)) (fun _ _ _ => eq_refl) _ eq_refl eq_refl eq_refl eq_refl _ eq_refl eq_refl); [lia|discriminate]. }
  apply Forall_cons. { refine (o_digit_entry _ _ (mkA NP 4 0xF6 (Some 2) [rm_a] OsB Nd0 NfNo None I_none) 2 (T_APX ||| T_CODE1_IF1) 0xF6 (fun _ => eq_refl) _ eq_refl eq_refl eq_refl eq_refl _ eq_refl eq_refl eq_refl eq_refl); [lia|discriminate]. }
  apply Forall_cons. { refine (o_digit_entry _ _ (mkA NP 4 0xF6 (Some 3) [rm_a] OsB Nd0 NfOpt None I_none) 3 (T_APX ||| T_NF ||| T_CODE1_IF1) 0xF6 (fun _ => eq_refl) _ eq_refl eq_refl eq_refl eq_refl _ eq_refl eq_refl eq_refl eq_refl); [lia|discriminate]. }
  apply Forall_cons. { refine (o_digit_entry _ _ (mkA NP 4 0xF6 (Some 4) [rm_a] OsB Nd0 NfOpt None I_none) 4 (T_APX ||| T_NF ||| T_CODE1_IF1) 0xF6 (fun _ => eq_refl) _ eq_refl eq_refl eq_refl eq_refl _ eq_refl eq_refl eq_refl eq_refl); [lia|discriminate]. }
  apply Forall_cons. { refine (o_digit_entry _ _ (mkA NP 4 0xF6 (Some 5) [rm_a] OsB Nd0 NfOpt None I_none) 5 (T_APX ||| T_NF ||| T_CODE1_IF1) 0xF6 (fun _ => eq_refl) _ eq_refl eq_refl eq_refl eq_refl _ eq_refl eq_refl eq_refl eq_refl); [lia|discriminate]. }
  apply Forall_cons. { refine (o_digit_entry _ _ (mkA NP 4 0xF6 (Some 6) [rm_a] OsB Nd0 NfOpt None I_none) 6 (T_APX ||| T_NF ||| T_CODE1_IF1) 0xF6 (fun _ => eq_refl) _ eq_refl eq_refl eq_refl eq_refl _ eq_refl eq_refl eq_refl eq_refl); [lia|discriminate]. }
  apply Forall_cons. { refine (o_digit_entry _ _ (mkA NP 4 0xF6 (Some 7) [rm_a] OsB Nd0 NfOpt None I_none) 7 (T_APX ||| T_NF ||| T_CODE1_IF1) 0xF6 (fun _ => eq_refl) _ eq_refl eq_refl eq_refl eq_refl _ eq_refl eq_refl eq_refl eq_refl); [lia|discriminate]. }
  apply Forall_cons. { refine (shift_roi_entry _ _ 8 0 NfOpt (shiftType 8 (Some noReg)) (fun _ _ _ => eq_refl) _ eq_refl (fun _ => eq_refl) _ eq_refl eq_refl eq_refl eq_refl); [lia|discriminate]. }
  apply Forall_cons. { refine (shift_rob_entry _ _ 8 0 NfOpt (shiftType 8 (Some noReg)) (fun _ _ _ => eq_refl) _ eq_refl (fun _ => eq_refl) _ eq_refl eq_refl eq_refl); [lia|discriminate]. }
  apply Forall_cons. { refine (shift_oi_entry _ _ 8 0 NfOpt (shiftType 8 None) (fun _ _ => eq_refl) _ eq_refl eq_refl _ eq_refl eq_refl eq_refl eq_refl); [lia|discriminate]. }
  apply Forall_cons. { refine (shift_ob_entry _ _ 8 0 NfOpt (shiftType 8 None) (fun _ _ => eq_refl) _ eq_refl eq_refl _ eq_refl eq_refl eq_refl); [lia|discriminate]. }
  apply Forall_cons. { refine (shift_roi_entry _ _ 9 1 NfOpt (shiftType 9 (Some noReg)) (fun _ _ _ => eq_refl) _ eq_refl (fun _ => eq_refl) _ eq_refl eq_refl eq_refl eq_refl); [lia|discriminate]. }
  apply Forall_cons. { refine (shift_rob_entry _ _ 9 1 NfOpt (shiftType 9 (Some noReg)) (fun _ _ _ => eq_refl) _ eq_refl (fun _ => eq_refl) _ eq_refl eq_refl eq_refl); [lia|discriminate]. }
  apply Forall_cons. { refine (shift_oi_entry _ _ 9 1 NfOpt (shiftType 9 None) (fun _ _ => eq_refl) _ eq_refl eq_refl _ eq_refl eq_refl eq_refl eq_refl); [lia|discriminate]. }
  apply Forall_cons. { refine (shift_ob_entry _ _ 9 1 NfOpt (shiftType 9 None) (fun _ _ => eq_refl) _ eq_refl eq_refl _ eq_refl eq_refl eq_refl); [lia|discriminate]. }
  apply Forall_cons. { refine (shift_roi_entry _ _ 2 2 NfNo (shiftType 2 (Some noReg)) (fun _ _ _ => eq_refl) _ eq_refl (fun _ => eq_refl) _ eq_refl eq_refl eq_refl eq_refl); [lia|discriminate]. }
  apply Forall_cons. { refine (shift_rob_entry _ _ 2 2 NfNo (shiftType 2 (Some noReg)) (fun _ _ _ => eq_refl) _ eq_refl (fun _ => eq_refl) _ eq_refl eq_refl eq_refl); [lia|discriminate]. }
  apply Forall_cons. { refine (shift_oi_entry _ _ 2 2 NfNo (shiftType 2 None) (fun _ _ => eq_refl) _ eq_refl eq_refl _ eq_refl eq_refl eq_refl eq_refl); [lia|discriminate]. }
  apply Forall_cons. { refine (shift_ob_entry _ _ 2 2 NfNo (shiftType 2 None) (fun _ _ => eq_refl) _ eq_refl eq_refl _ eq_refl eq_refl eq_refl); [lia|discriminate]. }
  apply Forall_cons. { refine (shift_roi_entry _ _ 3 3 NfNo (shiftType 3 (Some noReg)) (fun _ _ _ => eq_refl) _ eq_refl (fun _ => eq_refl) _ eq_refl eq_refl eq_refl eq_refl); [lia|discriminate]. }
  apply Forall_cons. { refine (shift_rob_entry _ _ 3 3 NfNo (shiftType 3 (Some noReg)) (fun _ _ _ => eq_refl) _ eq_refl (fun _ => eq_refl) _ eq_refl eq_refl eq_refl); [lia|discriminate]. }
  apply Forall_cons. { refine (shift_oi_entry _ _ 3 3 NfNo (shiftType 3 None) (fun _ _ => eq_refl) _ eq_refl eq_refl _ eq_refl eq_refl eq_refl eq_refl); [lia|discriminate]. }
  apply Forall_cons. { refine (shift_ob_entry _ _ 3 3 NfNo (shiftType 3 None) (fun _ _ => eq_refl) _ eq_refl eq_refl _ eq_refl eq_refl eq_refl); [lia|discriminate]. }
  apply Forall_cons. { refine (shift_roi_entry _ _ 12 4 NfOpt (shiftType 12 (Some noReg)) (fun _ _ _ => eq_refl) _ eq_refl (fun _ => eq_refl) _ eq_refl eq_refl eq_refl eq_refl); [lia|discriminate]. }
  apply Forall_cons. { refine (shift_rob_entry _ _ 12 4 NfOpt (shiftType 12 (Some noReg)) (fun _ _ _ => eq_refl) _ eq_refl (fun _ => eq_refl) _ eq_refl eq_refl eq_refl); [lia|discriminate]. }
  apply Forall_cons. { refine (shift_oi_entry _ _ 12 4 NfOpt (shiftType 12 None) (fun _ _ => eq_refl) _ eq_refl eq_refl _ eq_refl eq_refl eq_refl eq_refl); [lia|discriminate]. }
  apply Forall_cons. { refine (shift_ob_entry _ _ 12 4 NfOpt (shiftType 12 None) (fun _ _ => eq_refl) _ eq_refl eq_refl _ eq_refl eq_refl eq_refl); [lia|discriminate]. }
  apply Forall_cons. { refine (shift_roi_entry _ _ 12 4 NfOpt (shiftType 12 (Some noReg)) (fun _ _ _ => eq_refl) _ eq_refl (fun _ => eq_refl) _ eq_refl eq_refl eq_refl eq_refl); [lia|discriminate]. }
  apply Forall_cons. { refine (shift_rob_entry _ _ 12 4 NfOpt (shiftType 12 (Some noReg)) (fun _ _ _ => eq_refl) _ eq_refl (fun _ => eq_refl) _ eq_refl eq_refl eq_refl); [lia|discriminate]. }
  apply Forall_cons. { refine (shift_oi_entry _ _ 12 4 NfOpt (shiftType 12 None) (fun _ _ => eq_refl) _ eq_refl eq_refl _ eq_refl eq_refl eq_refl eq_refl); [lia|discriminate]. }
  apply Forall_cons. { refine (shift_ob_entry _ _ 12 4 NfOpt (shiftType 12 None) (fun _ _ => eq_refl) _ eq_refl eq_refl _ eq_refl eq_refl eq_refl); [lia|discriminate]. }
  apply Forall_cons. { refine (shift_roi_entry _ _ 13 5 NfOpt (shiftType 13 (Some noReg)) (fun _ _ _ => eq_refl) _ eq_refl (fun _ => eq_refl) _ eq_refl eq_refl eq_refl eq_refl); [lia|discriminate]. }
  apply Forall_cons. { refine (shift_rob_entry _ _ 13 5 NfOpt (shiftType 13 (Some noReg)) (fun _ _ _ => eq_refl) _ eq_refl (fun _ => eq_refl) _ eq_refl eq_refl eq_refl); [lia|discriminate]. }
  apply Forall_cons. { refine (shift_oi_entry _ _ 13 5 NfOpt (shiftType 13 None) (fun _ _ => eq_refl) _ eq_refl eq_refl _ eq_refl eq_refl eq_refl eq_refl); [lia|discriminate]. }
  apply Forall_cons. { refine (shift_ob_entry _ _ 13 5 NfOpt (shiftType 13 None) (fun _ _ => eq_refl) _ eq_refl eq_refl _ eq_refl eq_refl eq_refl); [lia|discriminate]. }
  apply Forall_cons. { refine (shift_roi_entry _ _ 15 7 NfOpt (shiftType 15 (Some noReg)) (fun _ _ _ => eq_refl) _ eq_refl (fun _ => eq_refl) _ eq_refl eq_refl eq_refl eq_refl); [lia|discriminate]. }
  apply Forall_cons. { refine (shift_rob_entry _ _ 15 7 NfOpt (shiftType 15 (Some noReg)) (fun _ _ _ => eq_refl) _ eq_refl (fun _ => eq_refl) _ eq_refl eq_refl eq_refl); [lia|discriminate]. }
  apply Forall_cons. { refine (shift_oi_entry _ _ 15 7 NfOpt (shiftType 15 None) (fun _ _ => eq_refl) _ eq_refl eq_refl _ eq_refl eq_refl eq_refl eq_refl); [lia|discriminate]. }
  apply Forall_cons. { refine (shift_ob_entry _ _ 15 7 NfOpt (shiftType 15 None) (fun _ _ => eq_refl) _ eq_refl eq_refl _ eq_refl eq_refl eq_refl); [lia|discriminate]. }
  apply Forall_cons. { exact (shxd_rori_entry _ _ 0xA4 0x24 (fun _ _ _ _ => eq_refl) eq_refl). }
  apply Forall_cons. { exact (shxd_rorb_entry _ _ 0xA4 0x24 (fun _ _ _ _ => eq_refl) eq_refl). }
  apply Forall_cons. { exact (shxd_ori_entry _ _ 0xA4 0x24 (fun _ _ _ => eq_refl) eq_refl). }
  apply Forall_cons. { exact (shxd_orb_entry _ _ 0xA4 0x24 (fun _ _ _ => eq_refl) eq_refl). }
  apply Forall_cons. { exact (shxd_rori_entry _ _ 0xAC 0x2C (fun _ _ _ _ => eq_refl) eq_refl). }
  apply Forall_cons. { exact (shxd_rorb_entry _ _ 0xAC 0x2C (fun _ _ _ _ => eq_refl) eq_refl). }
  apply Forall_cons. { exact (shxd_ori_entry _ _ 0xAC 0x2C (fun _ _ _ => eq_refl) eq_refl). }
  apply Forall_cons. { exact (shxd_orb_entry _ _ 0xAC 0x2C (fun _ _ _ => eq_refl) eq_refl). }
  apply Forall_cons. { refine (rro_entry _ _ (mkA NP 4 0xAF None [v_; rg_; rm_a] OsV Nd1 NfOpt None I_none) (T_APX ||| T_ND1 ||| T_NF) 0xAF cGv cGv cEv (fun _ _ _ => eq_refl) eq_refl eq_refl eq_refl eq_refl eq_refl eq_refl eq_refl _ eq_refl eq_refl eq_refl); discriminate. }
  apply Forall_cons. { refine (rro_entry _ _ (mkA P66 4 0x66 None [v_; rg_; rm_a] OsY Nd1 NfNo None I_none) T_66 0x66 cGy cGy cEy (fun _ _ _ => eq_refl) eq_refl eq_refl eq_refl eq_refl eq_refl eq_refl eq_refl _ eq_refl eq_refl eq_refl); discriminate. }
  apply Forall_cons. { refine (ro_entry _ _ (mkA P66 4 0x66 None [rg_; rm_a] OsY Nd0 NfNo None I_none) T_66 0x66 cGy cEy (adcx_fun) eq_refl eq_refl eq_refl eq_refl eq_refl eq_refl _ eq_refl eq_refl eq_refl); discriminate. }
  apply Forall_cons. { refine (rro_entry _ _ (mkA PF3 4 0x66 None [v_; rg_; rm_a] OsY Nd1 NfNo None I_none) T_F3 0x66 cGy cGy cEy (fun _ _ _ => eq_refl) eq_refl eq_refl eq_refl eq_refl eq_refl eq_refl eq_refl _ eq_refl eq_refl eq_refl); discriminate. }
  apply Forall_cons. { refine (ro_entry _ _ (mkA PF3 4 0x66 None [rg_; rm_a] OsY Nd0 NfNo None I_none) T_F3 0x66 cGy cEy (adox_fun) eq_refl eq_refl eq_refl eq_refl eq_refl eq_refl _ eq_refl eq_refl eq_refl); discriminate. }
  apply Forall_cons. { refine (ro_entry _ _ (mkA NP 4 0xAF None [rg_; rm_a] OsV Nd0 NfOpt None I_none) (T_APX ||| T_NF) 0xAF cGv cEv (fun _ _ _ _ _ _ X H => nod_done _ _ _ _ _ _ _ _ _ X H) eq_refl eq_refl eq_refl eq_refl eq_refl eq_refl _ eq_refl eq_refl eq_refl); discriminate. }
  apply Forall_cons. { refine (ro_entry _ _ (mkA NP 4 0xF5 None [rg_; rm_a] OsV Nd0 NfOpt None I_none) (T_APX ||| T_NF) 0xF5 cGv cEv (fun _ _ _ _ _ _ X H => nod_done _ _ _ _ _ _ _ _ _ X H) eq_refl eq_refl eq_refl eq_refl eq_refl eq_refl _ eq_refl eq_refl eq_refl); discriminate. }
  apply Forall_cons. { refine (ro_entry _ _ (mkA NP 4 0xF4 None [rg_; rm_a] OsV Nd0 NfOpt None I_none) (T_APX ||| T_NF) 0xF4 cGv cEv (fun _ _ _ _ _ _ X H => nod_done _ _ _ _ _ _ _ _ _ X H) eq_refl eq_refl eq_refl eq_refl eq_refl eq_refl _ eq_refl eq_refl eq_refl); discriminate. }
  apply Forall_cons. { exact (imul_imm_entry _ _ (fun _ _ _ => eq_refl)). }
  apply Forall_cons. { refine (mr_entry _ _ (mkA NP 4 0x61 None [mm_a; rg_] OsV Nd0 NfNo None I_none) T_0F38 0xF1 T_APX 0x61 cGv (fun _ _ => eq_refl) _ eq_refl eq_refl eq_refl eq_refl eq_refl _ eq_refl eq_refl eq_refl); discriminate. }
  apply Forall_cons. { refine (mr_entry _ _ (mkA NP 4 0xF9 None [mm_a; rg_] OsY Nd0 NfNo None I_none) T_0F38 0xF9 T_APX NONE cGy (fun _ _ => eq_refl) _ eq_refl eq_refl eq_refl eq_refl eq_refl _ eq_refl eq_refl eq_refl); discriminate. }
  apply Forall_cons. { refine (mr_entry _ _ (mkA NP 4 0xFC None [mm_a; rg_] OsY Nd0 NfNo None I_none) T_0F38 0x0FC T_APX NONE cGy (fun _ _ => eq_refl) _ eq_refl eq_refl eq_refl eq_refl eq_refl _ eq_refl eq_refl eq_refl); discriminate. }
  apply Forall_cons. { refine (mr_entry _ _ (mkA P66 4 0xFC None [mm_a; rg_] OsY Nd0 NfNo None I_none) (T_0F38 ||| T_66) 0x0FC (T_APX ||| T_66) NONE cGy (fun _ _ => eq_refl) _ eq_refl eq_refl eq_refl eq_refl eq_refl _ eq_refl eq_refl eq_refl); discriminate. }
  apply Forall_cons. { refine (mr_entry _ _ (mkA PF2 4 0xFC None [mm_a; rg_] OsY Nd0 NfNo None I_none) (T_0F38 ||| T_F2) 0x0FC (T_APX ||| T_F2) NONE cGy (fun _ _ => eq_refl) _ eq_refl eq_refl eq_refl eq_refl eq_refl _ eq_refl eq_refl eq_refl); discriminate. }
  apply Forall_cons. { refine (mr_entry _ _ (mkA PF3 4 0xFC None [mm_a; rg_] OsY Nd0 NfNo None I_none) (T_0F38 ||| T_F3) 0x0FC (T_APX ||| T_F3) NONE cGy (fun _ _ => eq_refl) _ eq_refl eq_refl eq_refl eq_refl eq_refl _ eq_refl eq_refl eq_refl); discriminate. }
  apply Forall_cons. { refine (rm_entry _ _ (mkA NP 4 0x60 None [rg_; mm_a] OsV Nd0 NfNo None I_none) T_0F38 0xF0 T_APX 0x60 cGv (fun _ _ => eq_refl) _ eq_refl eq_refl eq_refl eq_refl eq_refl _ eq_refl eq_refl eq_refl); discriminate. }
  apply Forall_cons. { refine (pp2_entry _ _ (mkA NP 4 0xFF (Some 6) [vn_ 64; rrn_a 64] Os0 Nd1 NfNo None I_none) (T_APX ||| T_ND1 ||| T_W0) 0xFF 6 (fun _ _ => eq_refl) _ eq_refl eq_refl eq_refl eq_refl _ eq_refl eq_refl eq_refl); [lia|discriminate]. }
  apply Forall_cons. { refine (pp2_entry _ _ (mkA NP 4 0xFF (Some 6) [vn_ 64; rrn_a 64] Os1 Nd1 NfNo None I_none) (T_APX ||| T_ND1 ||| T_W1) 0xFF 6 (fun _ _ => eq_refl) _ eq_refl eq_refl eq_refl eq_refl _ eq_refl eq_refl eq_refl); [lia|discriminate]. }
  apply Forall_cons. { refine (pp2_entry _ _ (mkA NP 4 0x8F (Some 0) [vn_ 64; rrn_a 64] Os0 Nd1 NfNo None I_none) (T_APX ||| T_ND1 ||| T_W0) 0x8F 0 (fun _ _ => eq_refl) _ eq_refl eq_refl eq_refl eq_refl _ eq_refl eq_refl eq_refl); [lia|discriminate]. }
  apply Forall_cons. { refine (pp2_entry _ _ (mkA NP 4 0x8F (Some 0) [vn_ 64; rrn_a 64] Os1 Nd1 NfNo None I_none) (T_APX ||| T_ND1 ||| T_W1) 0x8F 0 (fun _ _ => eq_refl) _ eq_refl eq_refl eq_refl eq_refl _ eq_refl eq_refl eq_refl); [lia|discriminate]. }
  apply Forall_cons. { refine (crc_entry _ _ (mkA NP 4 0xF0 None [rgn_ 32; rmn_a 8] Os0 Nd0 NfNo None I_none) (T_APX ||| (0 ||| T_ALLOW_DIFF_SIZE)) 0xF0 32 8 (crc_fun 32 8 0xF0 eq_refl) eq_refl eq_refl eq_refl eq_refl eq_refl eq_refl _ eq_refl eq_refl); auto. }
  apply Forall_cons. { refine (crc_entry _ _ (mkA P66 4 0xF1 None [rgn_ 32; rmn_a 16] Os0 Nd0 NfNo None I_none) (T_APX ||| (T_66 ||| T_ALLOW_DIFF_SIZE)) 0xF1 32 16 (crc_fun 32 16 0xF1 eq_refl) eq_refl eq_refl eq_refl eq_refl eq_refl eq_refl _ eq_refl eq_refl); auto. }
  apply Forall_cons. { refine (crc_entry _ _ (mkA NP 4 0xF1 None [rgn_ 32; rmn_a 32] Os0 Nd0 NfNo None I_none) (T_APX ||| (0 ||| T_ALLOW_DIFF_SIZE)) 0xF1 32 32 (crc_fun 32 32 0xF1 eq_refl) eq_refl eq_refl eq_refl eq_refl eq_refl eq_refl _ eq_refl eq_refl); auto. }
  apply Forall_cons. { refine (crc_entry _ _ (mkA NP 4 0xF0 None [rgn_ 64; rmn_a 8] Os1 Nd0 NfNo None I_none) (T_APX ||| (0 ||| T_ALLOW_DIFF_SIZE)) 0xF0 64 8 (crc_fun 64 8 0xF0 eq_refl) eq_refl eq_refl eq_refl eq_refl eq_refl eq_refl _ eq_refl eq_refl); auto. }
  apply Forall_cons. { refine (crc_entry _ _ (mkA NP 4 0xF1 None [rgn_ 64; rmn_a 64] Os1 Nd0 NfNo None I_none) (T_APX ||| (0 ||| T_ALLOW_DIFF_SIZE)) 0xF1 64 64 (crc_fun 64 64 0xF1 eq_refl) eq_refl eq_refl eq_refl eq_refl eq_refl eq_refl _ eq_refl eq_refl); auto. }
  apply Forall_cons. { refine (rro_v_entry _ _ (mkA NP 2 0xF2 None [rg_; v_; rm_a] OsY Nd0 NfOpt None I_none) (T_APX ||| T_0F38 ||| T_NF) 0xF2 (fun _ _ _ => eq_refl) eq_refl eq_refl eq_refl eq_refl _ eq_refl eq_refl eq_refl); discriminate. }
  apply Forall_cons. { refine (rro_v_entry _ _ (mkA PF2 2 0xF6 None [rg_; v_; rm_a] OsY Nd0 NfNo None I_none) (T_APX ||| T_F2 ||| T_0F38) 0xF6 (fun _ _ _ => eq_refl) eq_refl eq_refl eq_refl eq_refl _ eq_refl eq_refl eq_refl); discriminate. }
  apply Forall_cons. { refine (rro_v_entry _ _ (mkA PF2 2 0xF5 None [rg_; v_; rm_a] OsY Nd0 NfNo None I_none) (T_APX ||| T_F2 ||| T_0F38) 0xF5 (fun _ _ _ => eq_refl) eq_refl eq_refl eq_refl eq_refl _ eq_refl eq_refl eq_refl); discriminate. }
  apply Forall_cons. { refine (rro_v_entry _ _ (mkA PF3 2 0xF5 None [rg_; v_; rm_a] OsY Nd0 NfNo None I_none) (T_APX ||| T_F3 ||| T_0F38) 0xF5 (fun _ _ _ => eq_refl) eq_refl eq_refl eq_refl eq_refl _ eq_refl eq_refl eq_refl); discriminate. }
  apply Forall_cons. { refine (ror_v_entry _ _ (mkA NP 2 0xF7 None [rg_; rm_a; v_] OsY Nd0 NfOpt None I_none) (T_APX ||| T_0F38 ||| T_NF) 0xF7 (fun _ _ _ => eq_refl) eq_refl eq_refl eq_refl eq_refl _ eq_refl eq_refl eq_refl); discriminate. }
  apply Forall_cons. { refine (ror_v_entry _ _ (mkA NP 2 0xF5 None [rg_; rm_a; v_] OsY Nd0 NfOpt None I_none) (T_APX ||| T_0F38 ||| T_NF) 0xF5 (fun _ _ _ => eq_refl) eq_refl eq_refl eq_refl eq_refl _ eq_refl eq_refl eq_refl); discriminate. }
  apply Forall_cons. { refine (ror_v_entry _ _ (mkA PF3 2 0xF7 None [rg_; rm_a; v_] OsY Nd0 NfNo None I_none) (T_APX ||| T_F3 ||| T_0F38) 0xF7 (fun _ _ _ => eq_refl) eq_refl eq_refl eq_refl eq_refl _ eq_refl eq_refl eq_refl); discriminate. }
  apply Forall_cons. { refine (ror_v_entry _ _ (mkA P66 2 0xF7 None [rg_; rm_a; v_] OsY Nd0 NfNo None I_none) (T_APX ||| T_66 ||| T_0F38) 0xF7 (fun _ _ _ => eq_refl) eq_refl eq_refl eq_refl eq_refl _ eq_refl eq_refl eq_refl); discriminate. }
  apply Forall_cons. { refine (ror_v_entry _ _ (mkA PF2 2 0xF7 None [rg_; rm_a; v_] OsY Nd0 NfNo None I_none) (T_APX ||| T_F2 ||| T_0F38) 0xF7 (fun _ _ _ => eq_refl) eq_refl eq_refl eq_refl eq_refl _ eq_refl eq_refl eq_refl); discriminate. }
  apply Forall_cons. { refine (vo_entry _ _ (mkA NP 2 0xF3 (Some 1) [v_; rm_a] OsY Nd0 NfOpt None I_none) (T_APX ||| T_0F38 ||| T_NF) 0xF3 1 (fun _ _ => eq_refl) _ eq_refl eq_refl eq_refl eq_refl _ eq_refl eq_refl eq_refl); [lia|discriminate]. }
  apply Forall_cons. { refine (vo_entry _ _ (mkA NP 2 0xF3 (Some 2) [v_; rm_a] OsY Nd0 NfOpt None I_none) (T_APX ||| T_0F38 ||| T_NF) 0xF3 2 (fun _ _ => eq_refl) _ eq_refl eq_refl eq_refl eq_refl _ eq_refl eq_refl eq_refl); [lia|discriminate]. }
  apply Forall_cons. { refine (vo_entry _ _ (mkA NP 2 0xF3 (Some 3) [v_; rm_a] OsY Nd0 NfOpt None I_none) (T_APX ||| T_0F38 ||| T_NF) 0xF3 3 (fun _ _ => eq_refl) _ eq_refl eq_refl eq_refl eq_refl _ eq_refl eq_refl eq_refl); [lia|discriminate]. }
  apply Forall_cons. { refine (roi_v_entry _ _ (mkA PF2 3 0xF0 None [rg_; rm_a] OsY Nd0 NfNo None I_8) (T_0F3A ||| T_F2 ||| T_APX) 0xF0 (fun _ _ _ => eq_refl) eq_refl eq_refl eq_refl eq_refl _ eq_refl eq_refl eq_refl); discriminate. }
  constructor.
Qed.

Definition apx_cond : list aentry := [
  mkAE "cmovo/rro" [cGv; cGv; cEv] XNo (a_rro i_cmovo_rro)
    [mkA NP 4 0x40 None [v_; rg_; rm_a] OsV Nd1 NfNo None I_none];
  mkAE "cmovno/rro" [cGv; cGv; cEv] XNo (a_rro i_cmovno_rro)
    [mkA NP 4 0x41 None [v_; rg_; rm_a] OsV Nd1 NfNo None I_none];
  mkAE "cmovb/rro" [cGv; cGv; cEv] XNo (a_rro i_cmovb_rro)
    [mkA NP 4 0x42 None [v_; rg_; rm_a] OsV Nd1 NfNo None I_none];
  mkAE "cmovc/rro" [cGv; cGv; cEv] XNo (a_rro i_cmovc_rro)
    [mkA NP 4 0x42 None [v_; rg_; rm_a] OsV Nd1 NfNo None I_none];
  mkAE "cmovnae/rro" [cGv; cGv; cEv] XNo (a_rro i_cmovnae_rro)
    [mkA NP 4 0x42 None [v_; rg_; rm_a] OsV Nd1 NfNo None I_none];
  mkAE "cmovae/rro" [cGv; cGv; cEv] XNo (a_rro i_cmovae_rro)
    [mkA NP 4 0x43 None [v_; rg_; rm_a] OsV Nd1 NfNo None I_none];
  mkAE "cmovnb/rro" [cGv; cGv; cEv] XNo (a_rro i_cmovnb_rro)
    [mkA NP 4 0x43 None [v_; rg_; rm_a] OsV Nd1 NfNo None I_none];
  mkAE "cmovnc/rro" [cGv; cGv; cEv] XNo (a_rro i_cmovnc_rro)
    [mkA NP 4 0x43 None [v_; rg_; rm_a] OsV Nd1 NfNo None I_none];
  mkAE "cmove/rro" [cGv; cGv; cEv] XNo (a_rro i_cmove_rro)
    [mkA NP 4 0x44 None [v_; rg_; rm_a] OsV Nd1 NfNo None I_none];
  mkAE "cmovz/rro" [cGv; cGv; cEv] XNo (a_rro i_cmovz_rro)
    [mkA NP 4 0x44 None [v_; rg_; rm_a] OsV Nd1 NfNo None I_none];
  mkAE "cmovne/rro" [cGv; cGv; cEv] XNo (a_rro i_cmovne_rro)
    [mkA NP 4 0x45 None [v_; rg_; rm_a] OsV Nd1 NfNo None I_none];
  mkAE "cmovnz/rro" [cGv; cGv; cEv] XNo (a_rro i_cmovnz_rro)
    [mkA NP 4 0x45 None [v_; rg_; rm_a] OsV Nd1 NfNo None I_none];
  mkAE "cmovbe/rro" [cGv; cGv; cEv] XNo (a_rro i_cmovbe_rro)
    [mkA NP 4 0x46 None [v_; rg_; rm_a] OsV Nd1 NfNo None I_none];
  mkAE "cmovna/rro" [cGv; cGv; cEv] XNo (a_rro i_cmovna_rro)
    [mkA NP 4 0x46 None [v_; rg_; rm_a] OsV Nd1 NfNo None I_none];
  mkAE "cmova/rro" [cGv; cGv; cEv] XNo (a_rro i_cmova_rro)
    [mkA NP 4 0x47 None [v_; rg_; rm_a] OsV Nd1 NfNo None I_none];
  mkAE "cmovnbe/rro" [cGv; cGv; cEv] XNo (a_rro i_cmovnbe_rro)
    [mkA NP 4 0x47 None [v_; rg_; rm_a] OsV Nd1 NfNo None I_none];
  mkAE "cmovs/rro" [cGv; cGv; cEv] XNo (a_rro i_cmovs_rro)
    [mkA NP 4 0x48 None [v_; rg_; rm_a] OsV Nd1 NfNo None I_none];
  mkAE "cmovns/rro" [cGv; cGv; cEv] XNo (a_rro i_cmovns_rro)
    [mkA NP 4 0x49 None [v_; rg_; rm_a] OsV Nd1 NfNo None I_none];
  mkAE "cmovp/rro" [cGv; cGv; cEv] XNo (a_rro i_cmovp_rro)
    [mkA NP 4 0x4A None [v_; rg_; rm_a] OsV Nd1 NfNo None I_none];
  mkAE "cmovpe/rro" [cGv; cGv; cEv] XNo (a_rro i_cmovpe_rro)
    [mkA NP 4 0x4A None [v_; rg_; rm_a] OsV Nd1 NfNo None I_none];
  mkAE "cmovnp/rro" [cGv; cGv; cEv] XNo (a_rro i_cmovnp_rro)
    [mkA NP 4 0x4B None [v_; rg_; rm_a] OsV Nd1 NfNo None I_none];
  mkAE "cmovpo/rro" [cGv; cGv; cEv] XNo (a_rro i_cmovpo_rro)
    [mkA NP 4 0x4B None [v_; rg_; rm_a] OsV Nd1 NfNo None I_none];
  mkAE "cmovl/rro" [cGv; cGv; cEv] XNo (a_rro i_cmovl_rro)
    [mkA NP 4 0x4C None [v_; rg_; rm_a] OsV Nd1 NfNo None I_none];
  mkAE "cmovnge/rro" [cGv; cGv; cEv] XNo (a_rro i_cmovnge_rro)
    [mkA NP 4 0x4C None [v_; rg_; rm_a] OsV Nd1 NfNo None I_none];
  mkAE "cmovge/rro" [cGv; cGv; cEv] XNo (a_rro i_cmovge_rro)
    [mkA NP 4 0x4D None [v_; rg_; rm_a] OsV Nd1 NfNo None I_none];
  mkAE "cmovnl/rro" [cGv; cGv; cEv] XNo (a_rro i_cmovnl_rro)
    [mkA NP 4 0x4D None [v_; rg_; rm_a] OsV Nd1 NfNo None I_none];
  mkAE "cmovle/rro" [cGv; cGv; cEv] XNo (a_rro i_cmovle_rro)
    [mkA NP 4 0x4E None [v_; rg_; rm_a] OsV Nd1 NfNo None I_none];
  mkAE "cmovng/rro" [cGv; cGv; cEv] XNo (a_rro i_cmovng_rro)
    [mkA NP 4 0x4E None [v_; rg_; rm_a] OsV Nd1 NfNo None I_none];
  mkAE "cmovg/rro" [cGv; cGv; cEv] XNo (a_rro i_cmovg_rro)
    [mkA NP 4 0x4F None [v_; rg_; rm_a] OsV Nd1 NfNo None I_none];
  mkAE "cmovnle/rro" [cGv; cGv; cEv] XNo (a_rro i_cmovnle_rro)
    [mkA NP 4 0x4F None [v_; rg_; rm_a] OsV Nd1 NfNo None I_none];
  mkAE "cfcmovo/oo" [cEv; cEv] XNo (a_oo i_cfcmovo_oo)
    [mkA NP 4 0x40 None [rg_; mm_a] OsV Nd0 NfNo None I_none; mkA NP 4 0x40 None [rm_a; rg_] OsV Nd0 Nf1 None I_none];
  mkAE "cfcmovo/rro" [cGv; cGv; cEv] XNo (a_rro i_cfcmovo_rro)
    [mkA NP 4 0x40 None [v_; rg_; rm_a] OsV Nd1 Nf1 None I_none];
  mkAE "cfcmovno/oo" [cEv; cEv] XNo (a_oo i_cfcmovno_oo)
    [mkA NP 4 0x41 None [rg_; mm_a] OsV Nd0 NfNo None I_none; mkA NP 4 0x41 None [rm_a; rg_] OsV Nd0 Nf1 None I_none];
  mkAE "cfcmovno/rro" [cGv; cGv; cEv] XNo (a_rro i_cfcmovno_rro)
    [mkA NP 4 0x41 None [v_; rg_; rm_a] OsV Nd1 Nf1 None I_none];
  mkAE "cfcmovb/oo" [cEv; cEv] XNo (a_oo i_cfcmovb_oo)
    [mkA NP 4 0x42 None [rg_; mm_a] OsV Nd0 NfNo None I_none; mkA NP 4 0x42 None [rm_a; rg_] OsV Nd0 Nf1 None I_none];
  mkAE "cfcmovb/rro" [cGv; cGv; cEv] XNo (a_rro i_cfcmovb_rro)
    [mkA NP 4 0x42 None [v_; rg_; rm_a] OsV Nd1 Nf1 None I_none];
  mkAE "cfcmovnb/oo" [cEv; cEv] XNo (a_oo i_cfcmovnb_oo)
    [mkA NP 4 0x43 None [rg_; mm_a] OsV Nd0 NfNo None I_none; mkA NP 4 0x43 None [rm_a; rg_] OsV Nd0 Nf1 None I_none];
  mkAE "cfcmovnb/rro" [cGv; cGv; cEv] XNo (a_rro i_cfcmovnb_rro)
    [mkA NP 4 0x43 None [v_; rg_; rm_a] OsV Nd1 Nf1 None I_none];
  mkAE "cfcmovz/oo" [cEv; cEv] XNo (a_oo i_cfcmovz_oo)
    [mkA NP 4 0x44 None [rg_; mm_a] OsV Nd0 NfNo None I_none; mkA NP 4 0x44 None [rm_a; rg_] OsV Nd0 Nf1 None I_none];
  mkAE "cfcmovz/rro" [cGv; cGv; cEv] XNo (a_rro i_cfcmovz_rro)
    [mkA NP 4 0x44 None [v_; rg_; rm_a] OsV Nd1 Nf1 None I_none];
  mkAE "cfcmovnz/oo" [cEv; cEv] XNo (a_oo i_cfcmovnz_oo)
    [mkA NP 4 0x45 None [rg_; mm_a] OsV Nd0 NfNo None I_none; mkA NP 4 0x45 None [rm_a; rg_] OsV Nd0 Nf1 None I_none];
  mkAE "cfcmovnz/rro" [cGv; cGv; cEv] XNo (a_rro i_cfcmovnz_rro)
    [mkA NP 4 0x45 None [v_; rg_; rm_a] OsV Nd1 Nf1 None I_none];
  mkAE "cfcmovbe/oo" [cEv; cEv] XNo (a_oo i_cfcmovbe_oo)
    [mkA NP 4 0x46 None [rg_; mm_a] OsV Nd0 NfNo None I_none; mkA NP 4 0x46 None [rm_a; rg_] OsV Nd0 Nf1 None I_none];
  mkAE "cfcmovbe/rro" [cGv; cGv; cEv] XNo (a_rro i_cfcmovbe_rro)
    [mkA NP 4 0x46 None [v_; rg_; rm_a] OsV Nd1 Nf1 None I_none];
  mkAE "cfcmovnbe/oo" [cEv; cEv] XNo (a_oo i_cfcmovnbe_oo)
    [mkA NP 4 0x47 None [rg_; mm_a] OsV Nd0 NfNo None I_none; mkA NP 4 0x47 None [rm_a; rg_] OsV Nd0 Nf1 None I_none];
  mkAE "cfcmovnbe/rro" [cGv; cGv; cEv] XNo (a_rro i_cfcmovnbe_rro)
    [mkA NP 4 0x47 None [v_; rg_; rm_a] OsV Nd1 Nf1 None I_none];
  mkAE "cfcmovs/oo" [cEv; cEv] XNo (a_oo i_cfcmovs_oo)
    [mkA NP 4 0x48 None [rg_; mm_a] OsV Nd0 NfNo None I_none; mkA NP 4 0x48 None [rm_a; rg_] OsV Nd0 Nf1 None I_none];
  mkAE "cfcmovs/rro" [cGv; cGv; cEv] XNo (a_rro i_cfcmovs_rro)
    [mkA NP 4 0x48 None [v_; rg_; rm_a] OsV Nd1 Nf1 None I_none];
  mkAE "cfcmovns/oo" [cEv; cEv] XNo (a_oo i_cfcmovns_oo)
    [mkA NP 4 0x49 None [rg_; mm_a] OsV Nd0 NfNo None I_none; mkA NP 4 0x49 None [rm_a; rg_] OsV Nd0 Nf1 None I_none];
  mkAE "cfcmovns/rro" [cGv; cGv; cEv] XNo (a_rro i_cfcmovns_rro)
    [mkA NP 4 0x49 None [v_; rg_; rm_a] OsV Nd1 Nf1 None I_none];
  mkAE "cfcmovp/oo" [cEv; cEv] XNo (a_oo i_cfcmovp_oo)
    [mkA NP 4 0x4A None [rg_; mm_a] OsV Nd0 NfNo None I_none; mkA NP 4 0x4A None [rm_a; rg_] OsV Nd0 Nf1 None I_none];
  mkAE "cfcmovp/rro" [cGv; cGv; cEv] XNo (a_rro i_cfcmovp_rro)
    [mkA NP 4 0x4A None [v_; rg_; rm_a] OsV Nd1 Nf1 None I_none];
  mkAE "cfcmovnp/oo" [cEv; cEv] XNo (a_oo i_cfcmovnp_oo)
    [mkA NP 4 0x4B None [rg_; mm_a] OsV Nd0 NfNo None I_none; mkA NP 4 0x4B None [rm_a; rg_] OsV Nd0 Nf1 None I_none];
  mkAE "cfcmovnp/rro" [cGv; cGv; cEv] XNo (a_rro i_cfcmovnp_rro)
    [mkA NP 4 0x4B None [v_; rg_; rm_a] OsV Nd1 Nf1 None I_none];
  mkAE "cfcmovl/oo" [cEv; cEv] XNo (a_oo i_cfcmovl_oo)
    [mkA NP 4 0x4C None [rg_; mm_a] OsV Nd0 NfNo None I_none; mkA NP 4 0x4C None [rm_a; rg_] OsV Nd0 Nf1 None I_none];
  mkAE "cfcmovl/rro" [cGv; cGv; cEv] XNo (a_rro i_cfcmovl_rro)
    [mkA NP 4 0x4C None [v_; rg_; rm_a] OsV Nd1 Nf1 None I_none];
  mkAE "cfcmovnl/oo" [cEv; cEv] XNo (a_oo i_cfcmovnl_oo)
    [mkA NP 4 0x4D None [rg_; mm_a] OsV Nd0 NfNo None I_none; mkA NP 4 0x4D None [rm_a; rg_] OsV Nd0 Nf1 None I_none];
  mkAE "cfcmovnl/rro" [cGv; cGv; cEv] XNo (a_rro i_cfcmovnl_rro)
    [mkA NP 4 0x4D None [v_; rg_; rm_a] OsV Nd1 Nf1 None I_none];
  mkAE "cfcmovle/oo" [cEv; cEv] XNo (a_oo i_cfcmovle_oo)
    [mkA NP 4 0x4E None [rg_; mm_a] OsV Nd0 NfNo None I_none; mkA NP 4 0x4E None [rm_a; rg_] OsV Nd0 Nf1 None I_none];
  mkAE "cfcmovle/rro" [cGv; cGv; cEv] XNo (a_rro i_cfcmovle_rro)
    [mkA NP 4 0x4E None [v_; rg_; rm_a] OsV Nd1 Nf1 None I_none];
  mkAE "cfcmovnle/oo" [cEv; cEv] XNo (a_oo i_cfcmovnle_oo)
    [mkA NP 4 0x4F None [rg_; mm_a] OsV Nd0 NfNo None I_none; mkA NP 4 0x4F None [rm_a; rg_] OsV Nd0 Nf1 None I_none];
  mkAE "cfcmovnle/rro" [cGv; cGv; cEv] XNo (a_rro i_cfcmovnle_rro)
    [mkA NP 4 0x4F None [v_; rg_; rm_a] OsV Nd1 Nf1 None I_none];
  mkAE "seto" [cEn 8] XAny (a_o i_seto)
    [mkA PF2 4 0x40 (Some 0) [rmn_a 8] Os0 NdZU NfNo None I_none];
  mkAE "setno" [cEn 8] XAny (a_o i_setno)
    [mkA PF2 4 0x41 (Some 0) [rmn_a 8] Os0 NdZU NfNo None I_none];
  mkAE "setb" [cEn 8] XAny (a_o i_setb)
    [mkA PF2 4 0x42 (Some 0) [rmn_a 8] Os0 NdZU NfNo None I_none];
  mkAE "setc" [cEn 8] XAny (a_o i_setc)
    [mkA PF2 4 0x42 (Some 0) [rmn_a 8] Os0 NdZU NfNo None I_none];
  mkAE "setnae" [cEn 8] XAny (a_o i_setnae)
    [mkA PF2 4 0x42 (Some 0) [rmn_a 8] Os0 NdZU NfNo None I_none];
  mkAE "setae" [cEn 8] XAny (a_o i_setae)
    [mkA PF2 4 0x43 (Some 0) [rmn_a 8] Os0 NdZU NfNo None I_none];
  mkAE "setnb" [cEn 8] XAny (a_o i_setnb)
    [mkA PF2 4 0x43 (Some 0) [rmn_a 8] Os0 NdZU NfNo None I_none];
  mkAE "setnc" [cEn 8] XAny (a_o i_setnc)
    [mkA PF2 4 0x43 (Some 0) [rmn_a 8] Os0 NdZU NfNo None I_none];
  mkAE "sete" [cEn 8] XAny (a_o i_sete)
    [mkA PF2 4 0x44 (Some 0) [rmn_a 8] Os0 NdZU NfNo None I_none];
  mkAE "setz" [cEn 8] XAny (a_o i_setz)
    [mkA PF2 4 0x44 (Some 0) [rmn_a 8] Os0 NdZU NfNo None I_none];
  mkAE "setne" [cEn 8] XAny (a_o i_setne)
    [mkA PF2 4 0x45 (Some 0) [rmn_a 8] Os0 NdZU NfNo None I_none];
  mkAE "setnz" [cEn 8] XAny (a_o i_setnz)
    [mkA PF2 4 0x45 (Some 0) [rmn_a 8] Os0 NdZU NfNo None I_none];
  mkAE "setbe" [cEn 8] XAny (a_o i_setbe)
    [mkA PF2 4 0x46 (Some 0) [rmn_a 8] Os0 NdZU NfNo None I_none];
  mkAE "setna" [cEn 8] XAny (a_o i_setna)
    [mkA PF2 4 0x46 (Some 0) [rmn_a 8] Os0 NdZU NfNo None I_none];
  mkAE "seta" [cEn 8] XAny (a_o i_seta)
    [mkA PF2 4 0x47 (Some 0) [rmn_a 8] Os0 NdZU NfNo None I_none];
  mkAE "setnbe" [cEn 8] XAny (a_o i_setnbe)
    [mkA PF2 4 0x47 (Some 0) [rmn_a 8] Os0 NdZU NfNo None I_none];
  mkAE "sets" [cEn 8] XAny (a_o i_sets)
    [mkA PF2 4 0x48 (Some 0) [rmn_a 8] Os0 NdZU NfNo None I_none];
  mkAE "setns" [cEn 8] XAny (a_o i_setns)
    [mkA PF2 4 0x49 (Some 0) [rmn_a 8] Os0 NdZU NfNo None I_none];
  mkAE "setp" [cEn 8] XAny (a_o i_setp)
    [mkA PF2 4 0x4A (Some 0) [rmn_a 8] Os0 NdZU NfNo None I_none];
  mkAE "setpe" [cEn 8] XAny (a_o i_setpe)
    [mkA PF2 4 0x4A (Some 0) [rmn_a 8] Os0 NdZU NfNo None I_none];
  mkAE "setnp" [cEn 8] XAny (a_o i_setnp)
    [mkA PF2 4 0x4B (Some 0) [rmn_a 8] Os0 NdZU NfNo None I_none];
  mkAE "setpo" [cEn 8] XAny (a_o i_setpo)
    [mkA PF2 4 0x4B (Some 0) [rmn_a 8] Os0 NdZU NfNo None I_none];
  mkAE "setl" [cEn 8] XAny (a_o i_setl)
    [mkA PF2 4 0x4C (Some 0) [rmn_a 8] Os0 NdZU NfNo None I_none];
  mkAE "setnge" [cEn 8] XAny (a_o i_setnge)
    [mkA PF2 4 0x4C (Some 0) [rmn_a 8] Os0 NdZU NfNo None I_none];
  mkAE "setge" [cEn 8] XAny (a_o i_setge)
    [mkA PF2 4 0x4D (Some 0) [rmn_a 8] Os0 NdZU NfNo None I_none];
  mkAE "setnl" [cEn 8] XAny (a_o i_setnl)
    [mkA PF2 4 0x4D (Some 0) [rmn_a 8] Os0 NdZU NfNo None I_none];
  mkAE "setle" [cEn 8] XAny (a_o i_setle)
    [mkA PF2 4 0x4E (Some 0) [rmn_a 8] Os0 NdZU NfNo None I_none];
  mkAE "setng" [cEn 8] XAny (a_o i_setng)
    [mkA PF2 4 0x4E (Some 0) [rmn_a 8] Os0 NdZU NfNo None I_none];
  mkAE "setg" [cEn 8] XAny (a_o i_setg)
    [mkA PF2 4 0x4F (Some 0) [rmn_a 8] Os0 NdZU NfNo None I_none];
  mkAE "setnle" [cEn 8] XAny (a_o i_setnle)
    [mkA PF2 4 0x4F (Some 0) [rmn_a 8] Os0 NdZU NfNo None I_none];
  mkAE "ccmpo/oo" [cE; cE] XNo (a_oof i_ccmpo_ooi)
    [mkA NP 4 0x38 None [rm_a; rg_] OsB Nd0 NfNo (Some 0) I_none; mkA NP 4 0x3A None [rg_; mm_a] OsB Nd0 NfNo (Some 0) I_none];
  mkAE "ccmpo/oi" [cE] XNo (a_oif i_ccmpo_oii)
    [mkA NP 4 0x80 (Some 7) [rm_a] OsB Nd0 NfNo (Some 0) I_z; mkA NP 4 0x83 (Some 7) [rm_a] OsV Nd0 NfNo (Some 0) I_8s];
  mkAE "ctesto/or" [cE; cG] XNo (a_orf i_ctesto_ori)
    [mkA NP 4 0x84 None [rm_a; rg_] OsB Nd0 NfNo (Some 0) I_none];
  mkAE "ctesto/oi" [cE] XNo (a_oif i_ctesto_oii)
    [mkA NP 4 0xF6 (Some 0) [rm_a] OsB Nd0 NfNo (Some 0) I_z];
  mkAE "ccmpno/oo" [cE; cE] XNo (a_oof i_ccmpno_ooi)
    [mkA NP 4 0x38 None [rm_a; rg_] OsB Nd0 NfNo (Some 1) I_none; mkA NP 4 0x3A None [rg_; mm_a] OsB Nd0 NfNo (Some 1) I_none];
  mkAE "ccmpno/oi" [cE] XNo (a_oif i_ccmpno_oii)
    [mkA NP 4 0x80 (Some 7) [rm_a] OsB Nd0 NfNo (Some 1) I_z; mkA NP 4 0x83 (Some 7) [rm_a] OsV Nd0 NfNo (Some 1) I_8s];
  mkAE "ctestno/or" [cE; cG] XNo (a_orf i_ctestno_ori)
    [mkA NP 4 0x84 None [rm_a; rg_] OsB Nd0 NfNo (Some 1) I_none];
  mkAE "ctestno/oi" [cE] XNo (a_oif i_ctestno_oii)
    [mkA NP 4 0xF6 (Some 0) [rm_a] OsB Nd0 NfNo (Some 1) I_z];
  mkAE "ccmpb/oo" [cE; cE] XNo (a_oof i_ccmpb_ooi)
    [mkA NP 4 0x38 None [rm_a; rg_] OsB Nd0 NfNo (Some 2) I_none; mkA NP 4 0x3A None [rg_; mm_a] OsB Nd0 NfNo (Some 2) I_none];
  mkAE "ccmpb/oi" [cE] XNo (a_oif i_ccmpb_oii)
    [mkA NP 4 0x80 (Some 7) [rm_a] OsB Nd0 NfNo (Some 2) I_z; mkA NP 4 0x83 (Some 7) [rm_a] OsV Nd0 NfNo (Some 2) I_8s];
  mkAE "ctestb/or" [cE; cG] XNo (a_orf i_ctestb_ori)
    [mkA NP 4 0x84 None [rm_a; rg_] OsB Nd0 NfNo (Some 2) I_none];
  mkAE "ctestb/oi" [cE] XNo (a_oif i_ctestb_oii)
    [mkA NP 4 0xF6 (Some 0) [rm_a] OsB Nd0 NfNo (Some 2) I_z];
  mkAE "ccmpc/oo" [cE; cE] XNo (a_oof i_ccmpc_ooi)
    [mkA NP 4 0x38 None [rm_a; rg_] OsB Nd0 NfNo (Some 2) I_none; mkA NP 4 0x3A None [rg_; mm_a] OsB Nd0 NfNo (Some 2) I_none];
  mkAE "ccmpc/oi" [cE] XNo (a_oif i_ccmpc_oii)
    [mkA NP 4 0x80 (Some 7) [rm_a] OsB Nd0 NfNo (Some 2) I_z; mkA NP 4 0x83 (Some 7) [rm_a] OsV Nd0 NfNo (Some 2) I_8s];
  mkAE "ctestc/or" [cE; cG] XNo (a_orf i_ctestc_ori)
    [mkA NP 4 0x84 None [rm_a; rg_] OsB Nd0 NfNo (Some 2) I_none];
  mkAE "ctestc/oi" [cE] XNo (a_oif i_ctestc_oii)
    [mkA NP 4 0xF6 (Some 0) [rm_a] OsB Nd0 NfNo (Some 2) I_z];
  mkAE "ccmpnae/oo" [cE; cE] XNo (a_oof i_ccmpnae_ooi)
    [mkA NP 4 0x38 None [rm_a; rg_] OsB Nd0 NfNo (Some 2) I_none; mkA NP 4 0x3A None [rg_; mm_a] OsB Nd0 NfNo (Some 2) I_none];
  mkAE "ccmpnae/oi" [cE] XNo (a_oif i_ccmpnae_oii)
    [mkA NP 4 0x80 (Some 7) [rm_a] OsB Nd0 NfNo (Some 2) I_z; mkA NP 4 0x83 (Some 7) [rm_a] OsV Nd0 NfNo (Some 2) I_8s];
  mkAE "ctestnae/or" [cE; cG] XNo (a_orf i_ctestnae_ori)
    [mkA NP 4 0x84 None [rm_a; rg_] OsB Nd0 NfNo (Some 2) I_none];
  mkAE "ctestnae/oi" [cE] XNo (a_oif i_ctestnae_oii)
    [mkA NP 4 0xF6 (Some 0) [rm_a] OsB Nd0 NfNo (Some 2) I_z];
  mkAE "ccmpae/oo" [cE; cE] XNo (a_oof i_ccmpae_ooi)
    [mkA NP 4 0x38 None [rm_a; rg_] OsB Nd0 NfNo (Some 3) I_none; mkA NP 4 0x3A None [rg_; mm_a] OsB Nd0 NfNo (Some 3) I_none];
  mkAE "ccmpae/oi" [cE] XNo (a_oif i_ccmpae_oii)
    [mkA NP 4 0x80 (Some 7) [rm_a] OsB Nd0 NfNo (Some 3) I_z; mkA NP 4 0x83 (Some 7) [rm_a] OsV Nd0 NfNo (Some 3) I_8s];
  mkAE "ctestae/or" [cE; cG] XNo (a_orf i_ctestae_ori)
    [mkA NP 4 0x84 None [rm_a; rg_] OsB Nd0 NfNo (Some 3) I_none];
  mkAE "ctestae/oi" [cE] XNo (a_oif i_ctestae_oii)
    [mkA NP 4 0xF6 (Some 0) [rm_a] OsB Nd0 NfNo (Some 3) I_z];
  mkAE "ccmpnb/oo" [cE; cE] XNo (a_oof i_ccmpnb_ooi)
    [mkA NP 4 0x38 None [rm_a; rg_] OsB Nd0 NfNo (Some 3) I_none; mkA NP 4 0x3A None [rg_; mm_a] OsB Nd0 NfNo (Some 3) I_none];
  mkAE "ccmpnb/oi" [cE] XNo (a_oif i_ccmpnb_oii)
    [mkA NP 4 0x80 (Some 7) [rm_a] OsB Nd0 NfNo (Some 3) I_z; mkA NP 4 0x83 (Some 7) [rm_a] OsV Nd0 NfNo (Some 3) I_8s];
  mkAE "ctestnb/or" [cE; cG] XNo (a_orf i_ctestnb_ori)
    [mkA NP 4 0x84 None [rm_a; rg_] OsB Nd0 NfNo (Some 3) I_none];
  mkAE "ctestnb/oi" [cE] XNo (a_oif i_ctestnb_oii)
    [mkA NP 4 0xF6 (Some 0) [rm_a] OsB Nd0 NfNo (Some 3) I_z];
  mkAE "ccmpnc/oo" [cE; cE] XNo (a_oof i_ccmpnc_ooi)
    [mkA NP 4 0x38 None [rm_a; rg_] OsB Nd0 NfNo (Some 3) I_none; mkA NP 4 0x3A None [rg_; mm_a] OsB Nd0 NfNo (Some 3) I_none];
  mkAE "ccmpnc/oi" [cE] XNo (a_oif i_ccmpnc_oii)
    [mkA NP 4 0x80 (Some 7) [rm_a] OsB Nd0 NfNo (Some 3) I_z; mkA NP 4 0x83 (Some 7) [rm_a] OsV Nd0 NfNo (Some 3) I_8s];
  mkAE "ctestnc/or" [cE; cG] XNo (a_orf i_ctestnc_ori)
    [mkA NP 4 0x84 None [rm_a; rg_] OsB Nd0 NfNo (Some 3) I_none];
  mkAE "ctestnc/oi" [cE] XNo (a_oif i_ctestnc_oii)
    [mkA NP 4 0xF6 (Some 0) [rm_a] OsB Nd0 NfNo (Some 3) I_z];
  mkAE "ccmpe/oo" [cE; cE] XNo (a_oof i_ccmpe_ooi)
    [mkA NP 4 0x38 None [rm_a; rg_] OsB Nd0 NfNo (Some 4) I_none; mkA NP 4 0x3A None [rg_; mm_a] OsB Nd0 NfNo (Some 4) I_none];
  mkAE "ccmpe/oi" [cE] XNo (a_oif i_ccmpe_oii)
    [mkA NP 4 0x80 (Some 7) [rm_a] OsB Nd0 NfNo (Some 4) I_z; mkA NP 4 0x83 (Some 7) [rm_a] OsV Nd0 NfNo (Some 4) I_8s];
  mkAE "cteste/or" [cE; cG] XNo (a_orf i_cteste_ori)
    [mkA NP 4 0x84 None [rm_a; rg_] OsB Nd0 NfNo (Some 4) I_none];
  mkAE "cteste/oi" [cE] XNo (a_oif i_cteste_oii)
    [mkA NP 4 0xF6 (Some 0) [rm_a] OsB Nd0 NfNo (Some 4) I_z];
  mkAE "ccmpz/oo" [cE; cE] XNo (a_oof i_ccmpz_ooi)
    [mkA NP 4 0x38 None [rm_a; rg_] OsB Nd0 NfNo (Some 4) I_none; mkA NP 4 0x3A None [rg_; mm_a] OsB Nd0 NfNo (Some 4) I_none];
  mkAE "ccmpz/oi" [cE] XNo (a_oif i_ccmpz_oii)
    [mkA NP 4 0x80 (Some 7) [rm_a] OsB Nd0 NfNo (Some 4) I_z; mkA NP 4 0x83 (Some 7) [rm_a] OsV Nd0 NfNo (Some 4) I_8s];
  mkAE "ctestz/or" [cE; cG] XNo (a_orf i_ctestz_ori)
    [mkA NP 4 0x84 None [rm_a; rg_] OsB Nd0 NfNo (Some 4) I_none];
  mkAE "ctestz/oi" [cE] XNo (a_oif i_ctestz_oii)
    [mkA NP 4 0xF6 (Some 0) [rm_a] OsB Nd0 NfNo (Some 4) I_z];
  mkAE "ccmpne/oo" [cE; cE] XNo (a_oof i_ccmpne_ooi)
    [mkA NP 4 0x38 None [rm_a; rg_] OsB Nd0 NfNo (Some 5) I_none; mkA NP 4 0x3A None [rg_; mm_a] OsB Nd0 NfNo (Some 5) I_none];
  mkAE "ccmpne/oi" [cE] XNo (a_oif i_ccmpne_oii)
    [mkA NP 4 0x80 (Some 7) [rm_a] OsB Nd0 NfNo (Some 5) I_z; mkA NP 4 0x83 (Some 7) [rm_a] OsV Nd0 NfNo (Some 5) I_8s];
  mkAE "ctestne/or" [cE; cG] XNo (a_orf i_ctestne_ori)
    [mkA NP 4 0x84 None [rm_a; rg_] OsB Nd0 NfNo (Some 5) I_none];
  mkAE "ctestne/oi" [cE] XNo (a_oif i_ctestne_oii)
    [mkA NP 4 0xF6 (Some 0) [rm_a] OsB Nd0 NfNo (Some 5) I_z];
  mkAE "ccmpnz/oo" [cE; cE] XNo (a_oof i_ccmpnz_ooi)
    [mkA NP 4 0x38 None [rm_a; rg_] OsB Nd0 NfNo (Some 5) I_none; mkA NP 4 0x3A None [rg_; mm_a] OsB Nd0 NfNo (Some 5) I_none];
  mkAE "ccmpnz/oi" [cE] XNo (a_oif i_ccmpnz_oii)
    [mkA NP 4 0x80 (Some 7) [rm_a] OsB Nd0 NfNo (Some 5) I_z; mkA NP 4 0x83 (Some 7) [rm_a] OsV Nd0 NfNo (Some 5) I_8s];
  mkAE "ctestnz/or" [cE; cG] XNo (a_orf i_ctestnz_ori)
    [mkA NP 4 0x84 None [rm_a; rg_] OsB Nd0 NfNo (Some 5) I_none];
  mkAE "ctestnz/oi" [cE] XNo (a_oif i_ctestnz_oii)
    [mkA NP 4 0xF6 (Some 0) [rm_a] OsB Nd0 NfNo (Some 5) I_z];
  mkAE "ccmpbe/oo" [cE; cE] XNo (a_oof i_ccmpbe_ooi)
    [mkA NP 4 0x38 None [rm_a; rg_] OsB Nd0 NfNo (Some 6) I_none; mkA NP 4 0x3A None [rg_; mm_a] OsB Nd0 NfNo (Some 6) I_none];
  mkAE "ccmpbe/oi" [cE] XNo (a_oif i_ccmpbe_oii)
    [mkA NP 4 0x80 (Some 7) [rm_a] OsB Nd0 NfNo (Some 6) I_z; mkA NP 4 0x83 (Some 7) [rm_a] OsV Nd0 NfNo (Some 6) I_8s];
  mkAE "ctestbe/or" [cE; cG] XNo (a_orf i_ctestbe_ori)
    [mkA NP 4 0x84 None [rm_a; rg_] OsB Nd0 NfNo (Some 6) I_none];
  mkAE "ctestbe/oi" [cE] XNo (a_oif i_ctestbe_oii)
    [mkA NP 4 0xF6 (Some 0) [rm_a] OsB Nd0 NfNo (Some 6) I_z];
  mkAE "ccmpna/oo" [cE; cE] XNo (a_oof i_ccmpna_ooi)
    [mkA NP 4 0x38 None [rm_a; rg_] OsB Nd0 NfNo (Some 6) I_none; mkA NP 4 0x3A None [rg_; mm_a] OsB Nd0 NfNo (Some 6) I_none];
  mkAE "ccmpna/oi" [cE] XNo (a_oif i_ccmpna_oii)
    [mkA NP 4 0x80 (Some 7) [rm_a] OsB Nd0 NfNo (Some 6) I_z; mkA NP 4 0x83 (Some 7) [rm_a] OsV Nd0 NfNo (Some 6) I_8s];
  mkAE "ctestna/or" [cE; cG] XNo (a_orf i_ctestna_ori)
    [mkA NP 4 0x84 None [rm_a; rg_] OsB Nd0 NfNo (Some 6) I_none];
  mkAE "ctestna/oi" [cE] XNo (a_oif i_ctestna_oii)
    [mkA NP 4 0xF6 (Some 0) [rm_a] OsB Nd0 NfNo (Some 6) I_z];
  mkAE "ccmpa/oo" [cE; cE] XNo (a_oof i_ccmpa_ooi)
    [mkA NP 4 0x38 None [rm_a; rg_] OsB Nd0 NfNo (Some 7) I_none; mkA NP 4 0x3A None [rg_; mm_a] OsB Nd0 NfNo (Some 7) I_none];
  mkAE "ccmpa/oi" [cE] XNo (a_oif i_ccmpa_oii)
    [mkA NP 4 0x80 (Some 7) [rm_a] OsB Nd0 NfNo (Some 7) I_z; mkA NP 4 0x83 (Some 7) [rm_a] OsV Nd0 NfNo (Some 7) I_8s];
  mkAE "ctesta/or" [cE; cG] XNo (a_orf i_ctesta_ori)
    [mkA NP 4 0x84 None [rm_a; rg_] OsB Nd0 NfNo (Some 7) I_none];
  mkAE "ctesta/oi" [cE] XNo (a_oif i_ctesta_oii)
    [mkA NP 4 0xF6 (Some 0) [rm_a] OsB Nd0 NfNo (Some 7) I_z];
  mkAE "ccmpnbe/oo" [cE; cE] XNo (a_oof i_ccmpnbe_ooi)
    [mkA NP 4 0x38 None [rm_a; rg_] OsB Nd0 NfNo (Some 7) I_none; mkA NP 4 0x3A None [rg_; mm_a] OsB Nd0 NfNo (Some 7) I_none];
  mkAE "ccmpnbe/oi" [cE] XNo (a_oif i_ccmpnbe_oii)
    [mkA NP 4 0x80 (Some 7) [rm_a] OsB Nd0 NfNo (Some 7) I_z; mkA NP 4 0x83 (Some 7) [rm_a] OsV Nd0 NfNo (Some 7) I_8s];
  mkAE "ctestnbe/or" [cE; cG] XNo (a_orf i_ctestnbe_ori)
    [mkA NP 4 0x84 None [rm_a; rg_] OsB Nd0 NfNo (Some 7) I_none];
  mkAE "ctestnbe/oi" [cE] XNo (a_oif i_ctestnbe_oii)
    [mkA NP 4 0xF6 (Some 0) [rm_a] OsB Nd0 NfNo (Some 7) I_z];
  mkAE "ccmps/oo" [cE; cE] XNo (a_oof i_ccmps_ooi)
    [mkA NP 4 0x38 None [rm_a; rg_] OsB Nd0 NfNo (Some 8) I_none; mkA NP 4 0x3A None [rg_; mm_a] OsB Nd0 NfNo (Some 8) I_none];
  mkAE "ccmps/oi" [cE] XNo (a_oif i_ccmps_oii)
    [mkA NP 4 0x80 (Some 7) [rm_a] OsB Nd0 NfNo (Some 8) I_z; mkA NP 4 0x83 (Some 7) [rm_a] OsV Nd0 NfNo (Some 8) I_8s];
  mkAE "ctests/or" [cE; cG] XNo (a_orf i_ctests_ori)
    [mkA NP 4 0x84 None [rm_a; rg_] OsB Nd0 NfNo (Some 8) I_none];
  mkAE "ctests/oi" [cE] XNo (a_oif i_ctests_oii)
    [mkA NP 4 0xF6 (Some 0) [rm_a] OsB Nd0 NfNo (Some 8) I_z];
  mkAE "ccmpns/oo" [cE; cE] XNo (a_oof i_ccmpns_ooi)
    [mkA NP 4 0x38 None [rm_a; rg_] OsB Nd0 NfNo (Some 9) I_none; mkA NP 4 0x3A None [rg_; mm_a] OsB Nd0 NfNo (Some 9) I_none];
  mkAE "ccmpns/oi" [cE] XNo (a_oif i_ccmpns_oii)
    [mkA NP 4 0x80 (Some 7) [rm_a] OsB Nd0 NfNo (Some 9) I_z; mkA NP 4 0x83 (Some 7) [rm_a] OsV Nd0 NfNo (Some 9) I_8s];
  mkAE "ctestns/or" [cE; cG] XNo (a_orf i_ctestns_ori)
    [mkA NP 4 0x84 None [rm_a; rg_] OsB Nd0 NfNo (Some 9) I_none];
  mkAE "ctestns/oi" [cE] XNo (a_oif i_ctestns_oii)
    [mkA NP 4 0xF6 (Some 0) [rm_a] OsB Nd0 NfNo (Some 9) I_z];
  mkAE "ccmpt/oo" [cE; cE] XNo (a_oof i_ccmpt_ooi)
    [mkA NP 4 0x38 None [rm_a; rg_] OsB Nd0 NfNo (Some 10) I_none; mkA NP 4 0x3A None [rg_; mm_a] OsB Nd0 NfNo (Some 10) I_none];
  mkAE "ccmpt/oi" [cE] XNo (a_oif i_ccmpt_oii)
    [mkA NP 4 0x80 (Some 7) [rm_a] OsB Nd0 NfNo (Some 10) I_z; mkA NP 4 0x83 (Some 7) [rm_a] OsV Nd0 NfNo (Some 10) I_8s];
  mkAE "ctestt/or" [cE; cG] XNo (a_orf i_ctestt_ori)
    [mkA NP 4 0x84 None [rm_a; rg_] OsB Nd0 NfNo (Some 10) I_none];
  mkAE "ctestt/oi" [cE] XNo (a_oif i_ctestt_oii)
    [mkA NP 4 0xF6 (Some 0) [rm_a] OsB Nd0 NfNo (Some 10) I_z];
  mkAE "ccmpf/oo" [cE; cE] XNo (a_oof i_ccmpf_ooi)
    [mkA NP 4 0x38 None [rm_a; rg_] OsB Nd0 NfNo (Some 11) I_none; mkA NP 4 0x3A None [rg_; mm_a] OsB Nd0 NfNo (Some 11) I_none];
  mkAE "ccmpf/oi" [cE] XNo (a_oif i_ccmpf_oii)
    [mkA NP 4 0x80 (Some 7) [rm_a] OsB Nd0 NfNo (Some 11) I_z; mkA NP 4 0x83 (Some 7) [rm_a] OsV Nd0 NfNo (Some 11) I_8s];
  mkAE "ctestf/or" [cE; cG] XNo (a_orf i_ctestf_ori)
    [mkA NP 4 0x84 None [rm_a; rg_] OsB Nd0 NfNo (Some 11) I_none];
  mkAE "ctestf/oi" [cE] XNo (a_oif i_ctestf_oii)
    [mkA NP 4 0xF6 (Some 0) [rm_a] OsB Nd0 NfNo (Some 11) I_z];
  mkAE "ccmpl/oo" [cE; cE] XNo (a_oof i_ccmpl_ooi)
    [mkA NP 4 0x38 None [rm_a; rg_] OsB Nd0 NfNo (Some 12) I_none; mkA NP 4 0x3A None [rg_; mm_a] OsB Nd0 NfNo (Some 12) I_none];
  mkAE "ccmpl/oi" [cE] XNo (a_oif i_ccmpl_oii)
    [mkA NP 4 0x80 (Some 7) [rm_a] OsB Nd0 NfNo (Some 12) I_z; mkA NP 4 0x83 (Some 7) [rm_a] OsV Nd0 NfNo (Some 12) I_8s];
  mkAE "ctestl/or" [cE; cG] XNo (a_orf i_ctestl_ori)
    [mkA NP 4 0x84 None [rm_a; rg_] OsB Nd0 NfNo (Some 12) I_none];
  mkAE "ctestl/oi" [cE] XNo (a_oif i_ctestl_oii)
    [mkA NP 4 0xF6 (Some 0) [rm_a] OsB Nd0 NfNo (Some 12) I_z];
  mkAE "ccmpnge/oo" [cE; cE] XNo (a_oof i_ccmpnge_ooi)
    [mkA NP 4 0x38 None [rm_a; rg_] OsB Nd0 NfNo (Some 12) I_none; mkA NP 4 0x3A None [rg_; mm_a] OsB Nd0 NfNo (Some 12) I_none];
  mkAE "ccmpnge/oi" [cE] XNo (a_oif i_ccmpnge_oii)
    [mkA NP 4 0x80 (Some 7) [rm_a] OsB Nd0 NfNo (Some 12) I_z; mkA NP 4 0x83 (Some 7) [rm_a] OsV Nd0 NfNo (Some 12) I_8s];
  mkAE "ctestnge/or" [cE; cG] XNo (a_orf i_ctestnge_ori)
    [mkA NP 4 0x84 None [rm_a; rg_] OsB Nd0 NfNo (Some 12) I_none];
  mkAE "ctestnge/oi" [cE] XNo (a_oif i_ctestnge_oii)
    [mkA NP 4 0xF6 (Some 0) [rm_a] OsB Nd0 NfNo (Some 12) I_z];
  mkAE "ccmpge/oo" [cE; cE] XNo (a_oof i_ccmpge_ooi)
    [mkA NP 4 0x38 None [rm_a; rg_] OsB Nd0 NfNo (Some 13) I_none; mkA NP 4 0x3A None [rg_; mm_a] OsB Nd0 NfNo (Some 13) I_none];
  mkAE "ccmpge/oi" [cE] XNo (a_oif i_ccmpge_oii)
    [mkA NP 4 0x80 (Some 7) [rm_a] OsB Nd0 NfNo (Some 13) I_z; mkA NP 4 0x83 (Some 7) [rm_a] OsV Nd0 NfNo (Some 13) I_8s];
  mkAE "ctestge/or" [cE; cG] XNo (a_orf i_ctestge_ori)
    [mkA NP 4 0x84 None [rm_a; rg_] OsB Nd0 NfNo (Some 13) I_none];
  mkAE "ctestge/oi" [cE] XNo (a_oif i_ctestge_oii)
    [mkA NP 4 0xF6 (Some 0) [rm_a] OsB Nd0 NfNo (Some 13) I_z];
  mkAE "ccmpnl/oo" [cE; cE] XNo (a_oof i_ccmpnl_ooi)
    [mkA NP 4 0x38 None [rm_a; rg_] OsB Nd0 NfNo (Some 13) I_none; mkA NP 4 0x3A None [rg_; mm_a] OsB Nd0 NfNo (Some 13) I_none];
  mkAE "ccmpnl/oi" [cE] XNo (a_oif i_ccmpnl_oii)
    [mkA NP 4 0x80 (Some 7) [rm_a] OsB Nd0 NfNo (Some 13) I_z; mkA NP 4 0x83 (Some 7) [rm_a] OsV Nd0 NfNo (Some 13) I_8s];
  mkAE "ctestnl/or" [cE; cG] XNo (a_orf i_ctestnl_ori)
    [mkA NP 4 0x84 None [rm_a; rg_] OsB Nd0 NfNo (Some 13) I_none];
  mkAE "ctestnl/oi" [cE] XNo (a_oif i_ctestnl_oii)
    [mkA NP 4 0xF6 (Some 0) [rm_a] OsB Nd0 NfNo (Some 13) I_z];
  mkAE "ccmple/oo" [cE; cE] XNo (a_oof i_ccmple_ooi)
    [mkA NP 4 0x38 None [rm_a; rg_] OsB Nd0 NfNo (Some 14) I_none; mkA NP 4 0x3A None [rg_; mm_a] OsB Nd0 NfNo (Some 14) I_none];
  mkAE "ccmple/oi" [cE] XNo (a_oif i_ccmple_oii)
    [mkA NP 4 0x80 (Some 7) [rm_a] OsB Nd0 NfNo (Some 14) I_z; mkA NP 4 0x83 (Some 7) [rm_a] OsV Nd0 NfNo (Some 14) I_8s];
  mkAE "ctestle/or" [cE; cG] XNo (a_orf i_ctestle_ori)
    [mkA NP 4 0x84 None [rm_a; rg_] OsB Nd0 NfNo (Some 14) I_none];
  mkAE "ctestle/oi" [cE] XNo (a_oif i_ctestle_oii)
    [mkA NP 4 0xF6 (Some 0) [rm_a] OsB Nd0 NfNo (Some 14) I_z];
  mkAE "ccmpng/oo" [cE; cE] XNo (a_oof i_ccmpng_ooi)
    [mkA NP 4 0x38 None [rm_a; rg_] OsB Nd0 NfNo (Some 14) I_none; mkA NP 4 0x3A None [rg_; mm_a] OsB Nd0 NfNo (Some 14) I_none];
  mkAE "ccmpng/oi" [cE] XNo (a_oif i_ccmpng_oii)
    [mkA NP 4 0x80 (Some 7) [rm_a] OsB Nd0 NfNo (Some 14) I_z; mkA NP 4 0x83 (Some 7) [rm_a] OsV Nd0 NfNo (Some 14) I_8s];
  mkAE "ctestng/or" [cE; cG] XNo (a_orf i_ctestng_ori)
    [mkA NP 4 0x84 None [rm_a; rg_] OsB Nd0 NfNo (Some 14) I_none];
  mkAE "ctestng/oi" [cE] XNo (a_oif i_ctestng_oii)
    [mkA NP 4 0xF6 (Some 0) [rm_a] OsB Nd0 NfNo (Some 14) I_z];
  mkAE "ccmpg/oo" [cE; cE] XNo (a_oof i_ccmpg_ooi)
    [mkA NP 4 0x38 None [rm_a; rg_] OsB Nd0 NfNo (Some 15) I_none; mkA NP 4 0x3A None [rg_; mm_a] OsB Nd0 NfNo (Some 15) I_none];
  mkAE "ccmpg/oi" [cE] XNo (a_oif i_ccmpg_oii)
    [mkA NP 4 0x80 (Some 7) [rm_a] OsB Nd0 NfNo (Some 15) I_z; mkA NP 4 0x83 (Some 7) [rm_a] OsV Nd0 NfNo (Some 15) I_8s];
  mkAE "ctestg/or" [cE; cG] XNo (a_orf i_ctestg_ori)
    [mkA NP 4 0x84 None [rm_a; rg_] OsB Nd0 NfNo (Some 15) I_none];
  mkAE "ctestg/oi" [cE] XNo (a_oif i_ctestg_oii)
    [mkA NP 4 0xF6 (Some 0) [rm_a] OsB Nd0 NfNo (Some 15) I_z];
  mkAE "ccmpnle/oo" [cE; cE] XNo (a_oof i_ccmpnle_ooi)
    [mkA NP 4 0x38 None [rm_a; rg_] OsB Nd0 NfNo (Some 15) I_none; mkA NP 4 0x3A None [rg_; mm_a] OsB Nd0 NfNo (Some 15) I_none];
  mkAE "ccmpnle/oi" [cE] XNo (a_oif i_ccmpnle_oii)
    [mkA NP 4 0x80 (Some 7) [rm_a] OsB Nd0 NfNo (Some 15) I_z; mkA NP 4 0x83 (Some 7) [rm_a] OsV Nd0 NfNo (Some 15) I_8s];
  mkAE "ctestnle/or" [cE; cG] XNo (a_orf i_ctestnle_ori)
    [mkA NP 4 0x84 None [rm_a; rg_] OsB Nd0 NfNo (Some 15) I_none];
  mkAE "ctestnle/oi" [cE] XNo (a_oif i_ctestnle_oii)
    [mkA NP 4 0xF6 (Some 0) [rm_a] OsB Nd0 NfNo (Some 15) I_z];
  mkAE "cmpoxadd" [cA; cGy; cGy] XRegs (a_mrr i_cmpoxadd)
    [mkA P66 2 0xE0 None [mm_a; rg_; v_] OsY Nd0 NfNo None I_none];
  mkAE "cmpnoxadd" [cA; cGy; cGy] XRegs (a_mrr i_cmpnoxadd)
    [mkA P66 2 0xE1 None [mm_a; rg_; v_] OsY Nd0 NfNo None I_none];
  mkAE "cmpbxadd" [cA; cGy; cGy] XRegs (a_mrr i_cmpbxadd)
    [mkA P66 2 0xE2 None [mm_a; rg_; v_] OsY Nd0 NfNo None I_none];
  mkAE "cmpnbxadd" [cA; cGy; cGy] XRegs (a_mrr i_cmpnbxadd)
    [mkA P66 2 0xE3 None [mm_a; rg_; v_] OsY Nd0 NfNo None I_none];
  mkAE "cmpzxadd" [cA; cGy; cGy] XRegs (a_mrr i_cmpzxadd)
    [mkA P66 2 0xE4 None [mm_a; rg_; v_] OsY Nd0 NfNo None I_none];
  mkAE "cmpnzxadd" [cA; cGy; cGy] XRegs (a_mrr i_cmpnzxadd)
    [mkA P66 2 0xE5 None [mm_a; rg_; v_] OsY Nd0 NfNo None I_none];
  mkAE "cmpbexadd" [cA; cGy; cGy] XRegs (a_mrr i_cmpbexadd)
    [mkA P66 2 0xE6 None [mm_a; rg_; v_] OsY Nd0 NfNo None I_none];
  mkAE "cmpnbexadd" [cA; cGy; cGy] XRegs (a_mrr i_cmpnbexadd)
    [mkA P66 2 0xE7 None [mm_a; rg_; v_] OsY Nd0 NfNo None I_none];
  mkAE "cmpsxadd" [cA; cGy; cGy] XRegs (a_mrr i_cmpsxadd)
    [mkA P66 2 0xE8 None [mm_a; rg_; v_] OsY Nd0 NfNo None I_none];
  mkAE "cmpnsxadd" [cA; cGy; cGy] XRegs (a_mrr i_cmpnsxadd)
    [mkA P66 2 0xE9 None [mm_a; rg_; v_] OsY Nd0 NfNo None I_none];
  mkAE "cmppxadd" [cA; cGy; cGy] XRegs (a_mrr i_cmppxadd)
    [mkA P66 2 0xEA None [mm_a; rg_; v_] OsY Nd0 NfNo None I_none];
  mkAE "cmpnpxadd" [cA; cGy; cGy] XRegs (a_mrr i_cmpnpxadd)
    [mkA P66 2 0xEB None [mm_a; rg_; v_] OsY Nd0 NfNo None I_none];
  mkAE "cmplxadd" [cA; cGy; cGy] XRegs (a_mrr i_cmplxadd)
    [mkA P66 2 0xEC None [mm_a; rg_; v_] OsY Nd0 NfNo None I_none];
  mkAE "cmpnlxadd" [cA; cGy; cGy] XRegs (a_mrr i_cmpnlxadd)
    [mkA P66 2 0xED None [mm_a; rg_; v_] OsY Nd0 NfNo None I_none];
  mkAE "cmplexadd" [cA; cGy; cGy] XRegs (a_mrr i_cmplexadd)
    [mkA P66 2 0xEE None [mm_a; rg_; v_] OsY Nd0 NfNo None I_none];
  mkAE "cmpnlexadd" [cA; cGy; cGy] XRegs (a_mrr i_cmpnlexadd)
    [mkA P66 2 0xEF None [mm_a; rg_; v_] OsY Nd0 NfNo None I_none]
].
Lemma apx_cond_ok : Forall aimplements apx_cond.
Proof.
  unfold apx_cond.
  apply Forall_cons. { refine (rro_entry _ _ (mkA NP 4 0x40 None [v_; rg_; rm_a] OsV Nd1 NfNo None I_none) (T_APX ||| T_ND1) (0x40 ||| 0) cGv cGv cEv (fun _ _ _ => eq_refl) eq_refl eq_refl eq_refl eq_refl eq_refl eq_refl eq_refl _ eq_refl eq_refl eq_refl); discriminate. }
  apply Forall_cons. { refine (rro_entry _ _ (mkA NP 4 0x41 None [v_; rg_; rm_a] OsV Nd1 NfNo None I_none) (T_APX ||| T_ND1) (0x40 ||| 1) cGv cGv cEv (fun _ _ _ => eq_refl) eq_refl eq_refl eq_refl eq_refl eq_refl eq_refl eq_refl _ eq_refl eq_refl eq_refl); discriminate. }
  apply Forall_cons. { refine (rro_entry _ _ (mkA NP 4 0x42 None [v_; rg_; rm_a] OsV Nd1 NfNo None I_none) (T_APX ||| T_ND1) (0x40 ||| 2) cGv cGv cEv (fun _ _ _ => eq_refl) eq_refl eq_refl eq_refl eq_refl eq_refl eq_refl eq_refl _ eq_refl eq_refl eq_refl); discriminate. }
  apply Forall_cons. { refine (rro_entry _ _ (mkA NP 4 0x42 None [v_; rg_; rm_a] OsV Nd1 NfNo None I_none) (T_APX ||| T_ND1) (0x40 ||| 2) cGv cGv cEv (fun _ _ _ => eq_refl) eq_refl eq_refl eq_refl eq_refl eq_refl eq_refl eq_refl _ eq_refl eq_refl eq_refl); discriminate. }
  apply Forall_cons. { refine (rro_entry _ _ (mkA NP 4 0x42 None [v_; rg_; rm_a] OsV Nd1 NfNo None I_none) (T_APX ||| T_ND1) (0x40 ||| 2) cGv cGv cEv (fun _ _ _ => eq_refl) eq_refl eq_refl eq_refl eq_refl eq_refl eq_refl eq_refl _ eq_refl eq_refl eq_refl); discriminate. }
  apply Forall_cons. { refine (rro_entry _ _ (mkA NP 4 0x43 None [v_; rg_; rm_a] OsV Nd1 NfNo None I_none) (T_APX ||| T_ND1) (0x40 ||| 3) cGv cGv cEv (fun _ _ _ => eq_refl) eq_refl eq_refl eq_refl eq_refl eq_refl eq_refl eq_refl _ eq_refl eq_refl eq_refl); discriminate. }
  apply Forall_cons. { refine (rro_entry _ _ (mkA NP 4 0x43 None [v_; rg_; rm_a] OsV Nd1 NfNo None I_none) (T_APX ||| T_ND1) (0x40 ||| 3) cGv cGv cEv (fun _ _ _ => eq_refl) eq_refl eq_refl eq_refl eq_refl eq_refl eq_refl eq_refl _ eq_refl eq_refl eq_refl); discriminate. }
  apply Forall_cons. { refine (rro_entry _ _ (mkA NP 4 0x43 None [v_; rg_; rm_a] OsV Nd1 NfNo None I_none) (T_APX ||| T_ND1) (0x40 ||| 3) cGv cGv cEv (fun _ _ _ => eq_refl) eq_refl eq_refl eq_refl eq_refl eq_refl eq_refl eq_refl _ eq_refl eq_refl eq_refl); discriminate. }
  apply Forall_cons. { refine (rro_entry _ _ (mkA NP 4 0x44 None [v_; rg_; rm_a] OsV Nd1 NfNo None I_none) (T_APX ||| T_ND1) (0x40 ||| 4) cGv cGv cEv (fun _ _ _ => eq_refl) eq_refl eq_refl eq_refl eq_refl eq_refl eq_refl eq_refl _ eq_refl eq_refl eq_refl); discriminate. }
  apply Forall_cons. { refine (rro_entry _ _ (mkA NP 4 0x44 None [v_; rg_; rm_a] OsV Nd1 NfNo None I_none) (T_APX ||| T_ND1) (0x40 ||| 4) cGv cGv cEv (fun _ _ _ => eq_refl) eq_refl eq_refl eq_refl eq_refl eq_refl eq_refl eq_refl _ eq_refl eq_refl eq_refl); discriminate. }
  apply Forall_cons. { refine (rro_entry _ _ (mkA NP 4 0x45 None [v_; rg_; rm_a] OsV Nd1 NfNo None I_none) (T_APX ||| T_ND1) (0x40 ||| 5) cGv cGv cEv (fun _ _ _ => eq_refl) eq_refl eq_refl eq_refl eq_refl eq_refl eq_refl eq_refl _ eq_refl eq_refl eq_refl); discriminate. }
  apply Forall_cons. { refine (rro_entry _ _ (mkA NP 4 0x45 None [v_; rg_; rm_a] OsV Nd1 NfNo None I_none) (T_APX ||| T_ND1) (0x40 ||| 5) cGv cGv cEv (fun _ _ _ => eq_refl) eq_refl eq_refl eq_refl eq_refl eq_refl eq_refl eq_refl _ eq_refl eq_refl eq_refl); discriminate. }
  apply Forall_cons. { refine (rro_entry _ _ (mkA NP 4 0x46 None [v_; rg_; rm_a] OsV Nd1 NfNo None I_none) (T_APX ||| T_ND1) (0x40 ||| 6) cGv cGv cEv (fun _ _ _ => eq_refl) eq_refl eq_refl eq_refl eq_refl eq_refl eq_refl eq_refl _ eq_refl eq_refl eq_refl); discriminate. }
  apply Forall_cons. { refine (rro_entry _ _ (mkA NP 4 0x46 None [v_; rg_; rm_a] OsV Nd1 NfNo None I_none) (T_APX ||| T_ND1) (0x40 ||| 6) cGv cGv cEv (fun _ _ _ => eq_refl) eq_refl eq_refl eq_refl eq_refl eq_refl eq_refl eq_refl _ eq_refl eq_refl eq_refl); discriminate. }
  apply Forall_cons. { refine (rro_entry _ _ (mkA NP 4 0x47 None [v_; rg_; rm_a] OsV Nd1 NfNo None I_none) (T_APX ||| T_ND1) (0x40 ||| 7) cGv cGv cEv (fun _ _ _ => eq_refl) eq_refl eq_refl eq_refl eq_refl eq_refl eq_refl eq_refl _ eq_refl eq_refl eq_refl); discriminate. }
  apply Forall_cons. { refine (rro_entry _ _ (mkA NP 4 0x47 None [v_; rg_; rm_a] OsV Nd1 NfNo None I_none) (T_APX ||| T_ND1) (0x40 ||| 7) cGv cGv cEv (fun _ _ _ => eq_refl) eq_refl eq_refl eq_refl eq_refl eq_refl eq_refl eq_refl _ eq_refl eq_refl eq_refl); discriminate. }
  apply Forall_cons. { refine (rro_entry _ _ (mkA NP 4 0x48 None [v_; rg_; rm_a] OsV Nd1 NfNo None I_none) (T_APX ||| T_ND1) (0x40 ||| 8) cGv cGv cEv (fun _ _ _ => eq_refl) eq_refl eq_refl eq_refl eq_refl eq_refl eq_refl eq_refl _ eq_refl eq_refl eq_refl); discriminate. }
  apply Forall_cons. { refine (rro_entry _ _ (mkA NP 4 0x49 None [v_; rg_; rm_a] OsV Nd1 NfNo None I_none) (T_APX ||| T_ND1) (0x40 ||| 9) cGv cGv cEv (fun _ _ _ => eq_refl) eq_refl eq_refl eq_refl eq_refl eq_refl eq_refl eq_refl _ eq_refl eq_refl eq_refl); discriminate. }
  apply Forall_cons. { refine (rro_entry _ _ (mkA NP 4 0x4A None [v_; rg_; rm_a] OsV Nd1 NfNo None I_none) (T_APX ||| T_ND1) (0x40 ||| 10) cGv cGv cEv (fun _ _ _ => eq_refl) eq_refl eq_refl eq_refl eq_refl eq_refl eq_refl eq_refl _ eq_refl eq_refl eq_refl); discriminate. }
  apply Forall_cons. { refine (rro_entry _ _ (mkA NP 4 0x4A None [v_; rg_; rm_a] OsV Nd1 NfNo None I_none) (T_APX ||| T_ND1) (0x40 ||| 10) cGv cGv cEv (fun _ _ _ => eq_refl) eq_refl eq_refl eq_refl eq_refl eq_refl eq_refl eq_refl _ eq_refl eq_refl eq_refl); discriminate. }
  apply Forall_cons. { refine (rro_entry _ _ (mkA NP 4 0x4B None [v_; rg_; rm_a] OsV Nd1 NfNo None I_none) (T_APX ||| T_ND1) (0x40 ||| 11) cGv cGv cEv (fun _ _ _ => eq_refl) eq_refl eq_refl eq_refl eq_refl eq_refl eq_refl eq_refl _ eq_refl eq_refl eq_refl); discriminate. }
  apply Forall_cons. { refine (rro_entry _ _ (mkA NP 4 0x4B None [v_; rg_; rm_a] OsV Nd1 NfNo None I_none) (T_APX ||| T_ND1) (0x40 ||| 11) cGv cGv cEv (fun _ _ _ => eq_refl) eq_refl eq_refl eq_refl eq_refl eq_refl eq_refl eq_refl _ eq_refl eq_refl eq_refl); discriminate. }
  apply Forall_cons. { refine (rro_entry _ _ (mkA NP 4 0x4C None [v_; rg_; rm_a] OsV Nd1 NfNo None I_none) (T_APX ||| T_ND1) (0x40 ||| 12) cGv cGv cEv (fun _ _ _ => eq_refl) eq_refl eq_refl eq_refl eq_refl eq_refl eq_refl eq_refl _ eq_refl eq_refl eq_refl); discriminate. }
  apply Forall_cons. { refine (rro_entry _ _ (mkA NP 4 0x4C None [v_; rg_; rm_a] OsV Nd1 NfNo None I_none) (T_APX ||| T_ND1) (0x40 ||| 12) cGv cGv cEv (fun _ _ _ => eq_refl) eq_refl eq_refl eq_refl eq_refl eq_refl eq_refl eq_refl _ eq_refl eq_refl eq_refl); discriminate. }
  apply Forall_cons. { refine (rro_entry _ _ (mkA NP 4 0x4D None [v_; rg_; rm_a] OsV Nd1 NfNo None I_none) (T_APX ||| T_ND1) (0x40 ||| 13) cGv cGv cEv (fun _ _ _ => eq_refl) eq_refl eq_refl eq_refl eq_refl eq_refl eq_refl eq_refl _ eq_refl eq_refl eq_refl); discriminate. }
  apply Forall_cons. { refine (rro_entry _ _ (mkA NP 4 0x4D None [v_; rg_; rm_a] OsV Nd1 NfNo None I_none) (T_APX ||| T_ND1) (0x40 ||| 13) cGv cGv cEv (fun _ _ _ => eq_refl) eq_refl eq_refl eq_refl eq_refl eq_refl eq_refl eq_refl _ eq_refl eq_refl eq_refl); discriminate. }
  apply Forall_cons. { refine (rro_entry _ _ (mkA NP 4 0x4E None [v_; rg_; rm_a] OsV Nd1 NfNo None I_none) (T_APX ||| T_ND1) (0x40 ||| 14) cGv cGv cEv (fun _ _ _ => eq_refl) eq_refl eq_refl eq_refl eq_refl eq_refl eq_refl eq_refl _ eq_refl eq_refl eq_refl); discriminate. }
  apply Forall_cons. { refine (rro_entry _ _ (mkA NP 4 0x4E None [v_; rg_; rm_a] OsV Nd1 NfNo None I_none) (T_APX ||| T_ND1) (0x40 ||| 14) cGv cGv cEv (fun _ _ _ => eq_refl) eq_refl eq_refl eq_refl eq_refl eq_refl eq_refl eq_refl _ eq_refl eq_refl eq_refl); discriminate. }
  apply Forall_cons. { refine (rro_entry _ _ (mkA NP 4 0x4F None [v_; rg_; rm_a] OsV Nd1 NfNo None I_none) (T_APX ||| T_ND1) (0x40 ||| 15) cGv cGv cEv (fun _ _ _ => eq_refl) eq_refl eq_refl eq_refl eq_refl eq_refl eq_refl eq_refl _ eq_refl eq_refl eq_refl); discriminate. }
  apply Forall_cons. { refine (rro_entry _ _ (mkA NP 4 0x4F None [v_; rg_; rm_a] OsV Nd1 NfNo None I_none) (T_APX ||| T_ND1) (0x40 ||| 15) cGv cGv cEv (fun _ _ _ => eq_refl) eq_refl eq_refl eq_refl eq_refl eq_refl eq_refl eq_refl _ eq_refl eq_refl eq_refl); discriminate. }
  apply Forall_cons. { exact (cfcmov_oo_entry _ _ 0x40 (fun _ _ => eq_refl) eq_refl eq_refl). }
  apply Forall_cons. { exact (cfcmov_rro_entry _ _ 0x40 (fun _ _ _ => eq_refl) eq_refl). }
  apply Forall_cons. { exact (cfcmov_oo_entry _ _ 0x41 (fun _ _ => eq_refl) eq_refl eq_refl). }
  apply Forall_cons. { exact (cfcmov_rro_entry _ _ 0x41 (fun _ _ _ => eq_refl) eq_refl). }
  apply Forall_cons. { exact (cfcmov_oo_entry _ _ 0x42 (fun _ _ => eq_refl) eq_refl eq_refl). }
  apply Forall_cons. { exact (cfcmov_rro_entry _ _ 0x42 (fun _ _ _ => eq_refl) eq_refl). }
  apply Forall_cons. { exact (cfcmov_oo_entry _ _ 0x43 (fun _ _ => eq_refl) eq_refl eq_refl). }
  apply Forall_cons. { exact (cfcmov_rro_entry _ _ 0x43 (fun _ _ _ => eq_refl) eq_refl). }
  apply Forall_cons. { exact (cfcmov_oo_entry _ _ 0x44 (fun _ _ => eq_refl) eq_refl eq_refl). }
  apply Forall_cons. { exact (cfcmov_rro_entry _ _ 0x44 (fun _ _ _ => eq_refl) eq_refl). }
  apply Forall_cons. { exact (cfcmov_oo_entry _ _ 0x45 (fun _ _ => eq_refl) eq_refl eq_refl). }
  apply Forall_cons. { exact (cfcmov_rro_entry _ _ 0x45 (fun _ _ _ => eq_refl) eq_refl). }
  apply Forall_cons. { exact (cfcmov_oo_entry _ _ 0x46 (fun _ _ => eq_refl) eq_refl eq_refl). }
  apply Forall_cons. { exact (cfcmov_rro_entry _ _ 0x46 (fun _ _ _ => eq_refl) eq_refl). }
  apply Forall_cons. { exact (cfcmov_oo_entry _ _ 0x47 (fun _ _ => eq_refl) eq_refl eq_refl). }
  apply Forall_cons. { exact (cfcmov_rro_entry _ _ 0x47 (fun _ _ _ => eq_refl) eq_refl). }
  apply Forall_cons. { exact (cfcmov_oo_entry _ _ 0x48 (fun _ _ => eq_refl) eq_refl eq_refl). }
  apply Forall_cons. { exact (cfcmov_rro_entry _ _ 0x48 (fun _ _ _ => eq_refl) eq_refl). }
  apply Forall_cons. { exact (cfcmov_oo_entry _ _ 0x49 (fun _ _ => eq_refl) eq_refl eq_refl). }
  apply Forall_cons. { exact (cfcmov_rro_entry _ _ 0x49 (fun _ _ _ => eq_refl) eq_refl). }
  apply Forall_cons. { exact (cfcmov_oo_entry _ _ 0x4A (fun _ _ => eq_refl) eq_refl eq_refl). }
  apply Forall_cons. { exact (cfcmov_rro_entry _ _ 0x4A (fun _ _ _ => eq_refl) eq_refl). }
  apply Forall_cons. { exact (cfcmov_oo_entry _ _ 0x4B (fun _ _ => eq_refl) eq_refl eq_refl). }
  apply Forall_cons. { exact (cfcmov_rro_entry _ _ 0x4B (fun _ _ _ => eq_refl) eq_refl). }
  apply Forall_cons. { exact (cfcmov_oo_entry _ _ 0x4C (fun _ _ => eq_refl) eq_refl eq_refl). }
  apply Forall_cons. { exact (cfcmov_rro_entry _ _ 0x4C (fun _ _ _ => eq_refl) eq_refl). }
  apply Forall_cons. { exact (cfcmov_oo_entry _ _ 0x4D (fun _ _ => eq_refl) eq_refl eq_refl). }
  apply Forall_cons. { exact (cfcmov_rro_entry _ _ 0x4D (fun _ _ _ => eq_refl) eq_refl). }
  apply Forall_cons. { exact (cfcmov_oo_entry _ _ 0x4E (fun _ _ => eq_refl) eq_refl eq_refl). }
  apply Forall_cons. { exact (cfcmov_rro_entry _ _ 0x4E (fun _ _ _ => eq_refl) eq_refl). }
  apply Forall_cons. { exact (cfcmov_oo_entry _ _ 0x4F (fun _ _ => eq_refl) eq_refl eq_refl). }
  apply Forall_cons. { exact (cfcmov_rro_entry _ _ 0x4F (fun _ _ _ => eq_refl) eq_refl). }
  apply Forall_cons. { exact (setcc_entry _ _ 0 (fun _ => eq_refl) eq_refl). }
  apply Forall_cons. { exact (setcc_entry _ _ 1 (fun _ => eq_refl) eq_refl). }
  apply Forall_cons. { exact (setcc_entry _ _ 2 (fun _ => eq_refl) eq_refl). }
  apply Forall_cons. { exact (setcc_entry _ _ 2 (fun _ => eq_refl) eq_refl). }
  apply Forall_cons. { exact (setcc_entry _ _ 2 (fun _ => eq_refl) eq_refl). }
  apply Forall_cons. { exact (setcc_entry _ _ 3 (fun _ => eq_refl) eq_refl). }
  apply Forall_cons. { exact (setcc_entry _ _ 3 (fun _ => eq_refl) eq_refl). }
  apply Forall_cons. { exact (setcc_entry _ _ 3 (fun _ => eq_refl) eq_refl). }
  apply Forall_cons. { exact (setcc_entry _ _ 4 (fun _ => eq_refl) eq_refl). }
  apply Forall_cons. { exact (setcc_entry _ _ 4 (fun _ => eq_refl) eq_refl). }
  apply Forall_cons. { exact (setcc_entry _ _ 5 (fun _ => eq_refl) eq_refl). }
  apply Forall_cons. { exact (setcc_entry _ _ 5 (fun _ => eq_refl) eq_refl). }
  apply Forall_cons. { exact (setcc_entry _ _ 6 (fun _ => eq_refl) eq_refl). }
  apply Forall_cons. { exact (setcc_entry _ _ 6 (fun _ => eq_refl) eq_refl). }
  apply Forall_cons. { exact (setcc_entry _ _ 7 (fun _ => eq_refl) eq_refl). }
  apply Forall_cons. { exact (setcc_entry _ _ 7 (fun _ => eq_refl) eq_refl). }
  apply Forall_cons. { exact (setcc_entry _ _ 8 (fun _ => eq_refl) eq_refl). }
  apply Forall_cons. { exact (setcc_entry _ _ 9 (fun _ => eq_refl) eq_refl). }
  apply Forall_cons. { exact (setcc_entry _ _ 10 (fun _ => eq_refl) eq_refl). }
  apply Forall_cons. { exact (setcc_entry _ _ 10 (fun _ => eq_refl) eq_refl). }
  apply Forall_cons. { exact (setcc_entry _ _ 11 (fun _ => eq_refl) eq_refl). }
  apply Forall_cons. { exact (setcc_entry _ _ 11 (fun _ => eq_refl) eq_refl). }
  apply Forall_cons. { exact (setcc_entry _ _ 12 (fun _ => eq_refl) eq_refl). }
  apply Forall_cons. { exact (setcc_entry _ _ 12 (fun _ => eq_refl) eq_refl). }
  apply Forall_cons. { exact (setcc_entry _ _ 13 (fun _ => eq_refl) eq_refl). }
  apply Forall_cons. { exact (setcc_entry _ _ 13 (fun _ => eq_refl) eq_refl). }
  apply Forall_cons. { exact (setcc_entry _ _ 14 (fun _ => eq_refl) eq_refl). }
  apply Forall_cons. { exact (setcc_entry _ _ 14 (fun _ => eq_refl) eq_refl). }
  apply Forall_cons. { exact (setcc_entry _ _ 15 (fun _ => eq_refl) eq_refl). }
  apply Forall_cons. { exact (setcc_entry _ _ 15 (fun _ => eq_refl) eq_refl). }
  apply Forall_cons. { refine (ccmp_entry _ _ 0x38 0 (fun _ _ _ => eq_refl) _ eq_refl eq_refl); lia. }
  apply Forall_cons. { refine (ccmpi_entry _ _ 0 (fun _ _ _ => eq_refl) _ eq_refl eq_refl); lia. }
  apply Forall_cons. { refine (ctest_entry _ _ 0x84 0 (fun _ _ _ => eq_refl) _ eq_refl); lia. }
  apply Forall_cons. { refine (ctesti_entry _ _ 0 (fun _ _ _ => eq_refl) _ eq_refl); lia. }
  apply Forall_cons. { refine (ccmp_entry _ _ 0x38 1 (fun _ _ _ => eq_refl) _ eq_refl eq_refl); lia. }
  apply Forall_cons. { refine (ccmpi_entry _ _ 1 (fun _ _ _ => eq_refl) _ eq_refl eq_refl); lia. }
  apply Forall_cons. { refine (ctest_entry _ _ 0x84 1 (fun _ _ _ => eq_refl) _ eq_refl); lia. }
  apply Forall_cons. { refine (ctesti_entry _ _ 1 (fun _ _ _ => eq_refl) _ eq_refl); lia. }
  apply Forall_cons. { refine (ccmp_entry _ _ 0x38 2 (fun _ _ _ => eq_refl) _ eq_refl eq_refl); lia. }
  apply Forall_cons. { refine (ccmpi_entry _ _ 2 (fun _ _ _ => eq_refl) _ eq_refl eq_refl); lia. }
  apply Forall_cons. { refine (ctest_entry _ _ 0x84 2 (fun _ _ _ => eq_refl) _ eq_refl); lia. }
  apply Forall_cons. { refine (ctesti_entry _ _ 2 (fun _ _ _ => eq_refl) _ eq_refl); lia. }
  apply Forall_cons. { refine (ccmp_entry _ _ 0x38 2 (fun _ _ _ => eq_refl) _ eq_refl eq_refl); lia. }
  apply Forall_cons. { refine (ccmpi_entry _ _ 2 (fun _ _ _ => eq_refl) _ eq_refl eq_refl); lia. }
  apply Forall_cons. { refine (ctest_entry _ _ 0x84 2 (fun _ _ _ => eq_refl) _ eq_refl); lia. }
  apply Forall_cons. { refine (ctesti_entry _ _ 2 (fun _ _ _ => eq_refl) _ eq_refl); lia. }
  apply Forall_cons. { refine (ccmp_entry _ _ 0x38 2 (fun _ _ _ => eq_refl) _ eq_refl eq_refl); lia. }
  apply Forall_cons. { refine (ccmpi_entry _ _ 2 (fun _ _ _ => eq_refl) _ eq_refl eq_refl); lia. }
  apply Forall_cons. { refine (ctest_entry _ _ 0x84 2 (fun _ _ _ => eq_refl) _ eq_refl); lia. }
  apply Forall_cons. { refine (ctesti_entry _ _ 2 (fun _ _ _ => eq_refl) _ eq_refl); lia. }
  apply Forall_cons. { refine (ccmp_entry _ _ 0x38 3 (fun _ _ _ => eq_refl) _ eq_refl eq_refl); lia. }
  apply Forall_cons. { refine (ccmpi_entry _ _ 3 (fun _ _ _ => eq_refl) _ eq_refl eq_refl); lia. }
  apply Forall_cons. { refine (ctest_entry _ _ 0x84 3 (fun _ _ _ => eq_refl) _ eq_refl); lia. }
  apply Forall_cons. { refine (ctesti_entry _ _ 3 (fun _ _ _ => eq_refl) _ eq_refl); lia. }
  apply Forall_cons. { refine (ccmp_entry _ _ 0x38 3 (fun _ _ _ => eq_refl) _ eq_refl eq_refl); lia. }
  apply Forall_cons. { refine (ccmpi_entry _ _ 3 (fun _ _ _ => eq_refl) _ eq_refl eq_refl); lia. }
  apply Forall_cons. { refine (ctest_entry _ _ 0x84 3 (fun _ _ _ => eq_refl) _ eq_refl); lia. }
  apply Forall_cons. { refine (ctesti_entry _ _ 3 (fun _ _ _ => eq_refl) _ eq_refl); lia. }
  apply Forall_cons. { refine (ccmp_entry _ _ 0x38 3 (fun _ _ _ => eq_refl) _ eq_refl eq_refl); lia. }
  apply Forall_cons. { refine (ccmpi_entry _ _ 3 (fun _ _ _ => eq_refl) _ eq_refl eq_refl); lia. }
  apply Forall_cons. { refine (ctest_entry _ _ 0x84 3 (fun _ _ _ => eq_refl) _ eq_refl); lia. }
  apply Forall_cons. { refine (ctesti_entry _ _ 3 (fun _ _ _ => eq_refl) _ eq_refl); lia. }
  apply Forall_cons. { refine (ccmp_entry _ _ 0x38 4 (fun _ _ _ => eq_refl) _ eq_refl eq_refl); lia. }
  apply Forall_cons. { refine (ccmpi_entry _ _ 4 (fun _ _ _ => eq_refl) _ eq_refl eq_refl); lia. }
  apply Forall_cons. { refine (ctest_entry _ _ 0x84 4 (fun _ _ _ => eq_refl) _ eq_refl); lia. }
  apply Forall_cons. { refine (ctesti_entry _ _ 4 (fun _ _ _ => eq_refl) _ eq_refl); lia. }
  apply Forall_cons. { refine (ccmp_entry _ _ 0x38 4 (fun _ _ _ => eq_refl) _ eq_refl eq_refl); lia. }
  apply Forall_cons. { refine (ccmpi_entry _ _ 4 (fun _ _ _ => eq_refl) _ eq_refl eq_refl); lia. }
  apply Forall_cons. { refine (ctest_entry _ _ 0x84 4 (fun _ _ _ => eq_refl) _ eq_refl); lia. }
  apply Forall_cons. { refine (ctesti_entry _ _ 4 (fun _ _ _ => eq_refl) _ eq_refl); lia. }
  apply Forall_cons. { refine (ccmp_entry _ _ 0x38 5 (fun _ _ _ => eq_refl) _ eq_refl eq_refl); lia. }
  apply Forall_cons. { refine (ccmpi_entry _ _ 5 (fun _ _ _ => eq_refl) _ eq_refl eq_refl); lia. }
  apply Forall_cons. { refine (ctest_entry _ _ 0x84 5 (fun _ _ _ => eq_refl) _ eq_refl); lia. }
  apply Forall_cons. { refine (ctesti_entry _ _ 5 (fun _ _ _ => eq_refl) _ eq_refl); lia. }
  apply Forall_cons. { refine (ccmp_entry _ _ 0x38 5 (fun _ _ _ => eq_refl) _ eq_refl eq_refl); lia. }
  apply Forall_cons. { refine (ccmpi_entry _ _ 5 (fun _ _ _ => eq_refl) _ eq_refl eq_refl); lia. }
  apply Forall_cons. { refine (ctest_entry _ _ 0x84 5 (fun _ _ _ => eq_refl) _ eq_refl); lia. }
  apply Forall_cons. { refine (ctesti_entry _ _ 5 (fun _ _ _ => eq_refl) _ eq_refl); lia. }
  apply Forall_cons. { refine (ccmp_entry _ _ 0x38 6 (fun _ _ _ => eq_refl) _ eq_refl eq_refl); lia. }
  apply Forall_cons. { refine (ccmpi_entry _ _ 6 (fun _ _ _ => eq_refl) _ eq_refl eq_refl); lia. }
  apply Forall_cons. { refine (ctest_entry _ _ 0x84 6 (fun _ _ _ => eq_refl) _ eq_refl); lia. }
  apply Forall_cons. { refine (ctesti_entry _ _ 6 (fun _ _ _ => eq_refl) _ eq_refl); lia. }
  apply Forall_cons. { refine (ccmp_entry _ _ 0x38 6 (fun _ _ _ => eq_refl) _ eq_refl eq_refl); lia. }
  apply Forall_cons. { refine (ccmpi_entry _ _ 6 (fun _ _ _ => eq_refl) _ eq_refl eq_refl); lia. }
  apply Forall_cons. { refine (ctest_entry _ _ 0x84 6 (fun _ _ _ => eq_refl) _ eq_refl); lia. }
  apply Forall_cons. { refine (ctesti_entry _ _ 6 (fun _ _ _ => eq_refl) _ eq_refl); lia. }
  apply Forall_cons. { refine (ccmp_entry _ _ 0x38 7 (fun _ _ _ => eq_refl) _ eq_refl eq_refl); lia. }
  apply Forall_cons. { refine (ccmpi_entry _ _ 7 (fun _ _ _ => eq_refl) _ eq_refl eq_refl); lia. }
  apply Forall_cons. { refine (ctest_entry _ _ 0x84 7 (fun _ _ _ => eq_refl) _ eq_refl); lia. }
  apply Forall_cons. { refine (ctesti_entry _ _ 7 (fun _ _ _ => eq_refl) _ eq_refl); lia. }
  apply Forall_cons. { refine (ccmp_entry _ _ 0x38 7 (fun _ _ _ => eq_refl) _ eq_refl eq_refl); lia. }
  apply Forall_cons. { refine (ccmpi_entry _ _ 7 (fun _ _ _ => eq_refl) _ eq_refl eq_refl); lia. }
  apply Forall_cons. { refine (ctest_entry _ _ 0x84 7 (fun _ _ _ => eq_refl) _ eq_refl); lia. }
  apply Forall_cons. { refine (ctesti_entry _ _ 7 (fun _ _ _ => eq_refl) _ eq_refl); lia. }
  apply Forall_cons. { refine (ccmp_entry _ _ 0x38 8 (fun _ _ _ => eq_refl) _ eq_refl eq_refl); lia. }
  apply Forall_cons. { refine (ccmpi_entry _ _ 8 (fun _ _ _ => eq_refl) _ eq_refl eq_refl); lia. }
  apply Forall_cons. { refine (ctest_entry _ _ 0x84 8 (fun _ _ _ => eq_refl) _ eq_refl); lia. }
  apply Forall_cons. { refine (ctesti_entry _ _ 8 (fun _ _ _ => eq_refl) _ eq_refl); lia. }
  apply Forall_cons. { refine (ccmp_entry _ _ 0x38 9 (fun _ _ _ => eq_refl) _ eq_refl eq_refl); lia. }
  apply Forall_cons. { refine (ccmpi_entry _ _ 9 (fun _ _ _ => eq_refl) _ eq_refl eq_refl); lia. }
  apply Forall_cons. { refine (ctest_entry _ _ 0x84 9 (fun _ _ _ => eq_refl) _ eq_refl); lia. }
  apply Forall_cons. { refine (ctesti_entry _ _ 9 (fun _ _ _ => eq_refl) _ eq_refl); lia. }
  apply Forall_cons. { refine (ccmp_entry _ _ 0x38 10 (fun _ _ _ => eq_refl) _ eq_refl eq_refl); lia. }
  apply Forall_cons. { refine (ccmpi_entry _ _ 10 (fun _ _ _ => eq_refl) _ eq_refl eq_refl); lia. }
  apply Forall_cons. { refine (ctest_entry _ _ 0x84 10 (fun _ _ _ => eq_refl) _ eq_refl); lia. }
  apply Forall_cons. { refine (ctesti_entry _ _ 10 (fun _ _ _ => eq_refl) _ eq_refl); lia. }
  apply Forall_cons. { refine (ccmp_entry _ _ 0x38 11 (fun _ _ _ => eq_refl) _ eq_refl eq_refl); lia. }
  apply Forall_cons. { refine (ccmpi_entry _ _ 11 (fun _ _ _ => eq_refl) _ eq_refl eq_refl); lia. }
  apply Forall_cons. { refine (ctest_entry _ _ 0x84 11 (fun _ _ _ => eq_refl) _ eq_refl); lia. }
  apply Forall_cons. { refine (ctesti_entry _ _ 11 (fun _ _ _ => eq_refl) _ eq_refl); lia. }
  apply Forall_cons. { refine (ccmp_entry _ _ 0x38 12 (fun _ _ _ => eq_refl) _ eq_refl eq_refl); lia. }
  apply Forall_cons. { refine (ccmpi_entry _ _ 12 (fun _ _ _ => eq_refl) _ eq_refl eq_refl); lia. }
  apply Forall_cons. { refine (ctest_entry _ _ 0x84 12 (fun _ _ _ => eq_refl) _ eq_refl); lia. }
  apply Forall_cons. { refine (ctesti_entry _ _ 12 (fun _ _ _ => eq_refl) _ eq_refl); lia. }
  apply Forall_cons. { refine (ccmp_entry _ _ 0x38 12 (fun _ _ _ => eq_refl) _ eq_refl eq_refl); lia. }
  apply Forall_cons. { refine (ccmpi_entry _ _ 12 (fun _ _ _ => eq_refl) _ eq_refl eq_refl); lia. }
  apply Forall_cons. { refine (ctest_entry _ _ 0x84 12 (fun _ _ _ => eq_refl) _ eq_refl); lia. }
  apply Forall_cons. { refine (ctesti_entry _ _ 12 (fun _ _ _ => eq_refl) _ eq_refl); lia. }
  apply Forall_cons. { refine (ccmp_entry _ _ 0x38 13 (fun _ _ _ => eq_refl) _ eq_refl eq_refl); lia. }
  apply Forall_cons. { refine (ccmpi_entry _ _ 13 (fun _ _ _ => eq_refl) _ eq_refl eq_refl); lia. }
  apply Forall_cons. { refine (ctest_entry _ _ 0x84 13 (fun _ _ _ => eq_refl) _ eq_refl); lia. }
  apply Forall_cons. { refine (ctesti_entry _ _ 13 (fun _ _ _ => eq_refl) _ eq_refl); lia. }
  apply Forall_cons. { refine (ccmp_entry _ _ 0x38 13 (fun _ _ _ => eq_refl) _ eq_refl eq_refl); lia. }
  apply Forall_cons. { refine (ccmpi_entry _ _ 13 (fun _ _ _ => eq_refl) _ eq_refl eq_refl); lia. }
  apply Forall_cons. { refine (ctest_entry _ _ 0x84 13 (fun _ _ _ => eq_refl) _ eq_refl); lia. }
  apply Forall_cons. { refine (ctesti_entry _ _ 13 (fun _ _ _ => eq_refl) _ eq_refl); lia. }
  apply Forall_cons. { refine (ccmp_entry _ _ 0x38 14 (fun _ _ _ => eq_refl) _ eq_refl eq_refl); lia. }
  apply Forall_cons. { refine (ccmpi_entry _ _ 14 (fun _ _ _ => eq_refl) _ eq_refl eq_refl); lia. }
  apply Forall_cons. { refine (ctest_entry _ _ 0x84 14 (fun _ _ _ => eq_refl) _ eq_refl); lia. }
  apply Forall_cons. { refine (ctesti_entry _ _ 14 (fun _ _ _ => eq_refl) _ eq_refl); lia. }
  apply Forall_cons. { refine (ccmp_entry _ _ 0x38 14 (fun _ _ _ => eq_refl) _ eq_refl eq_refl); lia. }
  apply Forall_cons. { refine (ccmpi_entry _ _ 14 (fun _ _ _ => eq_refl) _ eq_refl eq_refl); lia. }
  apply Forall_cons. { refine (ctest_entry _ _ 0x84 14 (fun _ _ _ => eq_refl) _ eq_refl); lia. }
  apply Forall_cons. { refine (ctesti_entry _ _ 14 (fun _ _ _ => eq_refl) _ eq_refl); lia. }
  apply Forall_cons. { refine (ccmp_entry _ _ 0x38 15 (fun _ _ _ => eq_refl) _ eq_refl eq_refl); lia. }
  apply Forall_cons. { refine (ccmpi_entry _ _ 15 (fun _ _ _ => eq_refl) _ eq_refl eq_refl); lia. }
  apply Forall_cons. { refine (ctest_entry _ _ 0x84 15 (fun _ _ _ => eq_refl) _ eq_refl); lia. }
  apply Forall_cons. { refine (ctesti_entry _ _ 15 (fun _ _ _ => eq_refl) _ eq_refl); lia. }
  apply Forall_cons. { refine (ccmp_entry _ _ 0x38 15 (fun _ _ _ => eq_refl) _ eq_refl eq_refl); lia. }
  apply Forall_cons. { refine (ccmpi_entry _ _ 15 (fun _ _ _ => eq_refl) _ eq_refl eq_refl); lia. }
  apply Forall_cons. { refine (ctest_entry _ _ 0x84 15 (fun _ _ _ => eq_refl) _ eq_refl); lia. }
  apply Forall_cons. { refine (ctesti_entry _ _ 15 (fun _ _ _ => eq_refl) _ eq_refl); lia. }
  apply Forall_cons. { refine (mrr_v_entry _ _ (mkA P66 2 0xE0 None [mm_a; rg_; v_] OsY Nd0 NfNo None I_none) (T_APX ||| T_66 ||| T_0F38) 0xE0 (fun _ _ _ => eq_refl) eq_refl eq_refl eq_refl eq_refl _ eq_refl eq_refl eq_refl); discriminate. }
  apply Forall_cons. { refine (mrr_v_entry _ _ (mkA P66 2 0xE1 None [mm_a; rg_; v_] OsY Nd0 NfNo None I_none) (T_APX ||| T_66 ||| T_0F38) 0xE1 (fun _ _ _ => eq_refl) eq_refl eq_refl eq_refl eq_refl _ eq_refl eq_refl eq_refl); discriminate. }
  apply Forall_cons. { refine (mrr_v_entry _ _ (mkA P66 2 0xE2 None [mm_a; rg_; v_] OsY Nd0 NfNo None I_none) (T_APX ||| T_66 ||| T_0F38) 0xE2 (fun _ _ _ => eq_refl) eq_refl eq_refl eq_refl eq_refl _ eq_refl eq_refl eq_refl); discriminate. }
  apply Forall_cons. { refine (mrr_v_entry _ _ (mkA P66 2 0xE3 None [mm_a; rg_; v_] OsY Nd0 NfNo None I_none) (T_APX ||| T_66 ||| T_0F38) 0xE3 (fun _ _ _ => eq_refl) eq_refl eq_refl eq_refl eq_refl _ eq_refl eq_refl eq_refl); discriminate. }
  apply Forall_cons. { refine (mrr_v_entry _ _ (mkA P66 2 0xE4 None [mm_a; rg_; v_] OsY Nd0 NfNo None I_none) (T_APX ||| T_66 ||| T_0F38) 0xE4 (fun _ _ _ => eq_refl) eq_refl eq_refl eq_refl eq_refl _ eq_refl eq_refl eq_refl); discriminate. }
  apply Forall_cons. { refine (mrr_v_entry _ _ (mkA P66 2 0xE5 None [mm_a; rg_; v_] OsY Nd0 NfNo None I_none) (T_APX ||| T_66 ||| T_0F38) 0xE5 (fun _ _ _ => eq_refl) eq_refl eq_refl eq_refl eq_refl _ eq_refl eq_refl eq_refl); discriminate. }
  apply Forall_cons. { refine (mrr_v_entry _ _ (mkA P66 2 0xE6 None [mm_a; rg_; v_] OsY Nd0 NfNo None I_none) (T_APX ||| T_66 ||| T_0F38) 0xE6 (fun _ _ _ => eq_refl) eq_refl eq_refl eq_refl eq_refl _ eq_refl eq_refl eq_refl); discriminate. }
  apply Forall_cons. { refine (mrr_v_entry _ _ (mkA P66 2 0xE7 None [mm_a; rg_; v_] OsY Nd0 NfNo None I_none) (T_APX ||| T_66 ||| T_0F38) 0xE7 (fun _ _ _ => eq_refl) eq_refl eq_refl eq_refl eq_refl _ eq_refl eq_refl eq_refl); discriminate. }
  apply Forall_cons. { refine (mrr_v_entry _ _ (mkA P66 2 0xE8 None [mm_a; rg_; v_] OsY Nd0 NfNo None I_none) (T_APX ||| T_66 ||| T_0F38) 0xE8 (fun _ _ _ => eq_refl) eq_refl eq_refl eq_refl eq_refl _ eq_refl eq_refl eq_refl); discriminate. }
  apply Forall_cons. { refine (mrr_v_entry _ _ (mkA P66 2 0xE9 None [mm_a; rg_; v_] OsY Nd0 NfNo None I_none) (T_APX ||| T_66 ||| T_0F38) 0xE9 (fun _ _ _ => eq_refl) eq_refl eq_refl eq_refl eq_refl _ eq_refl eq_refl eq_refl); discriminate. }
  apply Forall_cons. { refine (mrr_v_entry _ _ (mkA P66 2 0xEA None [mm_a; rg_; v_] OsY Nd0 NfNo None I_none) (T_APX ||| T_66 ||| T_0F38) 0xEA (fun _ _ _ => eq_refl) eq_refl eq_refl eq_refl eq_refl _ eq_refl eq_refl eq_refl); discriminate. }
  apply Forall_cons. { refine (mrr_v_entry _ _ (mkA P66 2 0xEB None [mm_a; rg_; v_] OsY Nd0 NfNo None I_none) (T_APX ||| T_66 ||| T_0F38) 0xEB (fun _ _ _ => eq_refl) eq_refl eq_refl eq_refl eq_refl _ eq_refl eq_refl eq_refl); discriminate. }
  apply Forall_cons. { refine (mrr_v_entry _ _ (mkA P66 2 0xEC None [mm_a; rg_; v_] OsY Nd0 NfNo None I_none) (T_APX ||| T_66 ||| T_0F38) 0xEC (fun _ _ _ => eq_refl) eq_refl eq_refl eq_refl eq_refl _ eq_refl eq_refl eq_refl); discriminate. }
  apply Forall_cons. { refine (mrr_v_entry _ _ (mkA P66 2 0xED None [mm_a; rg_; v_] OsY Nd0 NfNo None I_none) (T_APX ||| T_66 ||| T_0F38) 0xED (fun _ _ _ => eq_refl) eq_refl eq_refl eq_refl eq_refl _ eq_refl eq_refl eq_refl); discriminate. }
  apply Forall_cons. { refine (mrr_v_entry _ _ (mkA P66 2 0xEE None [mm_a; rg_; v_] OsY Nd0 NfNo None I_none) (T_APX ||| T_66 ||| T_0F38) 0xEE (fun _ _ _ => eq_refl) eq_refl eq_refl eq_refl eq_refl _ eq_refl eq_refl eq_refl); discriminate. }
  apply Forall_cons. { refine (mrr_v_entry _ _ (mkA P66 2 0xEF None [mm_a; rg_; v_] OsY Nd0 NfNo None I_none) (T_APX ||| T_66 ||| T_0F38) 0xEF (fun _ _ _ => eq_refl) eq_refl eq_refl eq_refl eq_refl _ eq_refl eq_refl eq_refl); discriminate. }
  constructor.
Qed.

Definition apx_table : list aentry := apx_arith ++ apx_cond.
Lemma apx_table_ok : Forall aimplements apx_table.
Proof. apply Forall_app. split; [apply apx_arith_ok | apply apx_cond_ok]. Qed.
