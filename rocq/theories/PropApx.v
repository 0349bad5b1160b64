(* Property theorems C41: the Intel APX forms.  [asays] and [aimplements] are in SpecApx.v, the rows in ApxTables.v. *)
From Coq Require Import ZArith List Bool String Lia.
From Verif Require Import Base Types Emit Encode SpecX86 SpecAddr SpecIsa SpecInsn SpecLeg Wf EmitFacts ArgCheck Mnemonic
  LegGpr SpecApx ApxFacts ApxTables.
Import ListNotations.
Open Scope Z_scope.

(* C41: whatever a method of the table emits is the APX instruction of one of its rows: new data destination, NF, ZU,
   source condition and default flags, every register number up to 31, effective address, operand size, immediate *)
Theorem C41_apx_methods : Forall aimplements apx_table.
Proof. exact apx_table_ok. Qed.
Print Assumptions C41_apx_methods.

Definition apx_env := mkEnv false 0x400000 false false VexEncoding PreAVX10v2Encoding.
Definition bytes_of (act : E unit) : option (list Z) :=
  match act apx_env 0 with (its, Ok _) => Some (render (fun _ _ _ => 0) its) | _ => None end.
Definition ptr0 b i s d := OMem (address0 0 false (mkRegExp b i s d)).

(* adc rax, r18, [rbx + rcx * 4 + 0x123] *)
Example C41_hypotheses :
  let ops := [OReg (Reg64 0); OReg (Reg64 18); ptr0 (Reg64 3) (Reg64 1) 4 0x123] in
  exists e, In e apx_table /\ ae_name e = "adc/roo"%string
  /\ Forall2 aarg_ok (ae_sig e) ops /\ same_size (ae_sig e) ops /\ Forall lbare ops /\ ext_ok (ae_ext e) ops = true
  /\ wants_zu ops = false /\ Forall (fun row => imm_in (a_immk row) 0) (ae_rows e)
  /\ exists act its, ae_fun e ops 0 0 = Some act /\ emits act apx_env 0 its tt
     /\ render (fun _ _ _ => 0) its = [0x62; 0xE4; 0xFC; 0x18; 0x13; 0x94; 0x8B; 0x23; 0x01; 0x00; 0x00].
Proof.
  cbv zeta. eexists (mkAE "adc/roo" _ _ _ _). split; [|split; [reflexivity|]].
  { apply in_or_app. left. cbv delta [apx_arith]. repeat (first [left; reflexivity|right]). }
  cbn [ae_sig ae_ext ae_rows ae_fun]. split; [|split; [|split; [|split; [|split; [|split]]]]].
  - assert (G : forall n, 0 <= n < 32 -> gpr (Reg64 n)).
    { intros n N. split; [reflexivity|]. left. split; [right; right; right; reflexivity|]. assert (idx_ (Reg64 n) = n) as ->; [|exact N]. unfold Reg64, Reg32e, regOf, idx_. rewrite Z.lor_0_r. apply Z.mod_small; lia. }
    constructor; [split; [apply G; lia|discriminate]|]. constructor; [split; [apply G; lia|discriminate]|]. constructor; [|constructor].
    split; [apply mem_okb_ok; reflexivity|]. split; [split; [reflexivity|intros [[[X _]|[[X _]|[X _]]] _]; discriminate X]|]. repeat split.
  - right. exists 64. split; [right; right; right; left; reflexivity|]. split.
    + repeat constructor; cbn; auto.
    + left. split; reflexivity.
  - repeat constructor.
  - reflexivity.
  - reflexivity.
  - repeat constructor.
  - eexists; eexists; split; [reflexivity|]. split; [split; reflexivity|reflexivity].
Qed.
(* the byte sequences of test/apx.cpp *)
Example C41_test_vectors :
  map bytes_of [
    i_adc_roo (Reg64 20) (OReg (Reg64 21)) (OReg (Reg64 23));
    i_add_roi (setNF (Reg64 0)) (OReg (Reg64 1)) 3;
    i_andn (setNF (Reg64 29)) (Reg64 30) (OReg (Reg64 31));
    i_blsi (setNF (Reg64 30)) (OReg (Reg64 31));
    i_rorx (Reg64 30) (ptr0 (Reg64 31) (Reg64 20) 4 0) 4;
    i_adcx_eo (Reg32 1) (ptr0 (Reg64 31) (Reg64 29) 4 0);
    i_ccmpb_ooi (OReg (Reg64 0)) (OReg (Reg64 3)) 0;
    i_ccmpb_ooi (OReg (Reg8 30)) (OReg (Reg8 31)) 1;
    i_ccmpb_ooi (OReg (Reg16 31)) (ptr0 (Reg64 30) noReg 0 0) 10;
    i_ccmpb_oii (OReg (Reg16 20)) 0x1234 9;
    i_ccmpnle_ooi (OReg (Reg64 0)) (OReg (Reg64 1)) 15;
    i_cfcmovb_oo (OReg (Reg16 30)) (OReg (Reg16 31));
    i_cfcmovb_oo (ptr0 (Reg64 8) (Reg64 20) 4 3) (OReg (Reg64 19));
    i_cfcmovb_oo (OReg (Reg32 30)) (ptr0 (Reg64 9) noReg 0 0);
    i_cfcmovb_rro (Reg64 20) (Reg64 30) (ptr0 (Reg64 9) noReg 0 0);
    i_cfcmovb_rro (Reg64 20) (Reg64 30) (OReg (Reg64 31))]
  = map Some [
    [0x62; 0xEC; 0xDC; 0x10; 0x11; 0xFD];
    [0x62; 0xF4; 0xFC; 0x1C; 0x83; 0xC1; 0x03];
    [0x62; 0x4A; 0x8C; 0x04; 0xF2; 0xEF];
    [0x62; 0xDA; 0x8C; 0x04; 0xF3; 0xDF];
    [0x62; 0x4B; 0xFB; 0x08; 0xF0; 0x34; 0xA7; 0x04];
    [0x62; 0x9C; 0x79; 0x08; 0x66; 0x0C; 0xAF];
    [0x62; 0xF4; 0x84; 0x02; 0x39; 0xD8];
    [0x62; 0x4C; 0x0C; 0x02; 0x38; 0xFE];
    [0x62; 0x4C; 0x55; 0x02; 0x3B; 0x3E];
    [0x62; 0x7C; 0x4D; 0x02; 0x81; 0xFC; 0x34; 0x12];
    [0x62; 0xF4; 0xFC; 0x0F; 0x39; 0xC8];
    [0x62; 0x4C; 0x7D; 0x0C; 0x42; 0xFE];
    [0x62; 0xC4; 0xF8; 0x0C; 0x42; 0x5C; 0xA0; 0x03];
    [0x62; 0x44; 0x7C; 0x08; 0x42; 0x31];
    [0x62; 0x44; 0xDC; 0x14; 0x42; 0x31];
    [0x62; 0x4C; 0xDC; 0x14; 0x42; 0xF7]].
Proof. vm_compute. reflexivity. Qed.

(* the forms with a REX or REX2 prefix, which have neither modifier, refuse both *)
Theorem C41_rex_refuses_nf_zu : forall op1 op2 type env pos its b, emits (rex op1 op2 type) env pos its b ->
  wants_nf [op1; op2] = false /\ wants_zu [op1; op2] = false.
Proof. exact rex_no_nf. Qed.
Print Assumptions C41_rex_refuses_nf_zu.
Example C41_rex_hypotheses : emits (rex (OReg (Reg64 9)) (OReg (Reg64 20)) 0) apx_env 0 [IDb 0xD5; IDb 0x49] true.
Proof. split; reflexivity. Qed.

(* Where the code does not keep C41. *)
(* blsi, blsmsk and blsr look at the modifier of the /digit register instead of the destination *)
Theorem C41_bls_drops_nf_refuted : forall r op env pos, hasRex2 (OReg r) = false -> hasRex2 op = false ->
  i_blsi (setNF r) op env pos = i_blsi r op env pos /\ i_blsmsk (setNF r) op env pos = i_blsmsk r op env pos
  /\ i_blsr (setNF r) op env pos = i_blsr r op env pos.
Proof.
  intros r op env pos A B. unfold i_blsi, i_blsmsk, i_blsr, opRRO, fn. cbv zeta. change (hasRex2 (OReg (setNF r))) with (hasRex2 (OReg r)).
  rewrite A, B. cbn [orb]. change (NF_ (Reg32e 3 (getBit (setNF r)))) with false. change (NF_ (Reg32e 2 (getBit (setNF r)))) with false.
  repeat split.
Qed.
Print Assumptions C41_bls_drops_nf_refuted.

Example C41_bls_hypotheses : hasRex2 (OReg (Reg64 1)) = false /\ bytes_of (i_blsi (setNF (Reg64 1)) (OReg (Reg64 2))) <> None.
Proof. split; [reflexivity|vm_compute; discriminate]. Qed.
(* andn takes T_nf from the destination only *)
Theorem C41_andn_drops_nf_refuted : forall r1 r2 op env pos,
  hasRex2 (OReg r1) = false -> hasRex2 (OReg r2) = false -> hasRex2 op = false -> NF_ r1 = false ->
  i_andn r1 (setNF r2) op env pos = i_andn r1 r2 op env pos.
Proof.
  intros r1 r2 op env pos A B C D. unfold i_andn, opRRO, fn. cbv zeta. change (hasRex2 (OReg (setNF r2))) with (hasRex2 (OReg r2)).
  rewrite A, B, C, D. reflexivity.
Qed.
Print Assumptions C41_andn_drops_nf_refuted.
Example C41_andn_hypotheses : bytes_of (i_andn (Reg64 0) (setNF (Reg64 1)) (OReg (Reg64 2))) = Some [0xC4; 0xE2; 0xF0; 0xF2; 0xC2].
Proof. reflexivity. Qed.
(* mul has no zero-upper form, but mul(rax | T_zu) is accepted and T_zu ignored: mul rax *)
Theorem C41_mul_drops_zu_refuted : bytes_of (i_mul (OReg (setZU (Reg64 0)))) = Some [0x62; 0xF4; 0xFC; 0x08; 0xF7; 0xE0].
Proof. reflexivity. Qed.
Print Assumptions C41_mul_drops_zu_refuted.
(* a 32-bit base or index is encoded without the address size prefix: the same bytes as with the 64-bit registers *)
Theorem C41_address32_refuted : Forall (fun n =>
  bytes_of (i_add_roo (Reg64 0) (OReg (Reg64 1)) (ptr0 (Reg32 n) (Reg32 1) 2 8)) =
  bytes_of (i_add_roo (Reg64 0) (OReg (Reg64 1)) (ptr0 (Reg64 n) (Reg64 1) 2 8))
  /\ bytes_of (i_add_roo (Reg64 0) (OReg (Reg64 1)) (ptr0 (Reg32 n) (Reg32 1) 2 8)) <> None) (map Z.of_nat (seq 0 32)).
Proof. cbn [map seq]. repeat (apply Forall_cons; [split; vm_compute; [reflexivity|discriminate]|]). apply Forall_nil. Qed.
Print Assumptions C41_address32_refuted.
(* operands of different sizes are accepted, unlike in the two operand forms: add(eax, rbx, rcx) writes rax, and
   ccmpb(eax, bl, 0) compares bytes *)
Theorem C41_mixed_sizes_refuted :
  bytes_of (i_add_roo (Reg32 0) (OReg (Reg64 3)) (OReg (Reg64 1))) = bytes_of (i_add_roo (Reg64 0) (OReg (Reg64 3)) (OReg (Reg64 1)))
  /\ bytes_of (i_add_roo (Reg32 0) (OReg (Reg64 3)) (OReg (Reg64 1))) = Some [0x62; 0xF4; 0xFC; 0x18; 0x01; 0xCB]
  /\ bytes_of (i_ccmpb_ooi (OReg (Reg32 0)) (OReg (Reg8 3)) 0) = bytes_of (i_ccmpb_ooi (OReg (Reg8 0)) (OReg (Reg8 3)) 0)
  /\ bytes_of (i_ccmpb_ooi (OReg (Reg32 0)) (OReg (Reg8 3)) 0) = Some [0x62; 0xF4; 0x04; 0x02; 0x38; 0xD8]
  /\ bytes_of (i_add_oo (OReg (Reg32 0)) (OReg (Reg64 3))) = None.
Proof. repeat split. Qed.
Print Assumptions C41_mixed_sizes_refuted.
(* ah, ch, dh and bh do not exist with an EVEX prefix: add(ah, bl, cl) is encoded as add(spl, bl, cl) *)
Theorem C41_high_byte_refuted :
  bytes_of (i_add_roo (Reg8 4) (OReg (Reg8 3)) (OReg (Reg8 1))) = bytes_of (i_add_roo (Reg8e 4) (OReg (Reg8 3)) (OReg (Reg8 1)))
  /\ bytes_of (i_add_roo (Reg8 4) (OReg (Reg8 3)) (OReg (Reg8 1))) = Some [0x62; 0xF4; 0x5C; 0x18; 0x00; 0xCB].
Proof. split; reflexivity. Qed.
Print Assumptions C41_high_byte_refuted.
(* cmovcc has no byte form: cmovb(al, bl, cl) is encoded as cmovb(eax, ebx, ecx) *)
Theorem C41_cmov_byte_refuted :
  bytes_of (i_cmovb_rro (Reg8 0) (Reg8 3) (OReg (Reg8 1))) = bytes_of (i_cmovb_rro (Reg32 0) (Reg32 3) (OReg (Reg32 1)))
  /\ bytes_of (i_cmovb_rro (Reg8 0) (Reg8 3) (OReg (Reg8 1))) = Some [0x62; 0xF4; 0x7C; 0x18; 0x42; 0xD9].
Proof. split; reflexivity. Qed.
Print Assumptions C41_cmov_byte_refuted.
(* setcc with r16 .. r31 takes any register size: seta(r20) is seta(r20b) *)
Theorem C41_setcc_size_refuted :
  bytes_of (i_seta (OReg (Reg64 20))) = bytes_of (i_seta (OReg (Reg8 20)))
  /\ bytes_of (i_seta (OReg (Reg64 20))) = Some [0x62; 0xFC; 0x7F; 0x08; 0x47; 0xC4].
Proof. split; reflexivity. Qed.
Print Assumptions C41_setcc_size_refuted.
