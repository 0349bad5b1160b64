(* C50: register conversions and address expressions of the 32-bit build. *)
From Coq Require Import ZArith List Bool Lia Permutation.
From Verif Require Import Base Types Emit Encode SpecX86 SpecAddr Wf EmitFacts SpecFixed SpecReg RegFacts SpecExpr ExprProofs Spec32 Expr32.
From Verif Require Encode32 Mnemonic32.
Import ListNotations.
Open Scope Z_scope.

(* C50: conversions are those of the 64-bit build (C34), but only al .. bl are low bytes *)
Theorem C50_convert r b env pos : obj32 r -> In b [16; 32; 128; 256; 512] -> Encode32.changeBit r b env pos = Emit.changeBit r b env pos.
Proof. exact (change32 r b env pos). Qed.
Print Assumptions C50_convert.
Theorem C50_convert_byte r env pos : obj32 r -> env_noexc env = false ->
  (idx_ r < 4 -> Encode32.changeBit r 8 env pos = Emit.changeBit r 8 env pos)
  /\ (4 <= idx_ r -> bit_ r <> 8 -> fails (Encode32.changeBit r 8) env pos ERR_CANT_CONVERT).
Proof. exact (change8 r env pos). Qed.
Print Assumptions C50_convert_byte.
Theorem C50_cvt r env pos : obj32 r ->
  Encode32.cvt16 r env pos = Emit.cvt16 r env pos /\ Encode32.cvt32 r env pos = Emit.cvt32 r env pos
  /\ Encode32.cvt128 r env pos = Emit.cvt128 r env pos /\ Encode32.cvt256 r env pos = Emit.cvt256 r env pos /\ Encode32.cvt512 r env pos = Emit.cvt512 r env pos.
Proof. exact (cvts32 r env pos). Qed.
Print Assumptions C50_cvt.
Theorem C50_cvt8 r env pos : obj32 r -> env_noexc env = false ->
  (idx_ r < 4 -> Encode32.cvt8 r env pos = Emit.cvt8 r env pos)
  /\ (4 <= idx_ r -> bit_ r <> 8 -> fails (Encode32.cvt8 r) env pos ERR_CANT_CONVERT).
Proof. exact (cvt8_32 r env pos). Qed.
Print Assumptions C50_cvt8.
Example C50_convert_hypotheses : obj32 (Reg32 6) /\ returns (Encode32.cvt16 (Reg32 6)) env0 0 (Reg16 6) /\ fails (Encode32.cvt8 (Reg32 6)) env0 0 ERR_CANT_CONVERT
  /\ returns (Encode32.cvt8 (Reg32 3)) env0 0 (Reg8 3).
Proof. split; [|repeat split]. split; [cbn; lia|]. left. split; [reflexivity|]. cbn. auto. Qed.
(* eax.changeBit(64) is accepted and gives a register that 32-bit mode does not have: with it add(r, r) is REX.W 03 C0, in
   32-bit mode dec eax; add eax, eax *)
Theorem C50_changeBit64_refuted : exists q, returns (Encode32.changeBit (Reg32 0) 64) env0 0 q /\ bit_ q = 64 /\ kind_ q = REG
  /\ emits_bytes (Mnemonic32.i_add_oo (OReg q) (OReg q)) [0x48; 0x01; 0xC0]
  /\ exists h t, dec_header32 [0x48; 0x01; 0xC0] = Some (h, t) /\ h_opc h = 0x48 /\ t = [0x01; 0xC0].
Proof. exact change64. Qed.
Print Assumptions C50_changeBit64_refuted.
(* xmm9 and r9d, which the 32-bit build does not declare, are converted like the others *)
Theorem C50_extended_refuted : returns (Encode32.changeBit (Xmm 9) 32) env0 0 (Reg32 9).
Proof. reflexivity. Qed.
Print Assumptions C50_extended_refuted.

(* C50: ptr[e] is accepted exactly if its registers and scales are legal and its terms fit base + index * scale *)
Theorem C50_address_accepted e bit bc env pos : smalls e -> env_noexc env = false ->
  (typed e /\ encodable (terms e) <-> exists a, at_frame32 bit bc e env pos = ([], Ok a)).
Proof. exact (frame_iff32 e bit bc env pos). Qed.
Print Assumptions C50_address_accepted.
(* and is the sum of its terms modulo 2^32; C48 and C49 apply to it *)
Theorem C50_address_value e bit bc env pos its a : smalls e -> In bit frame_bits -> emits (at_frame32 bit bc e) env pos its a ->
  its = [] /\ addr32 a /\ a_broadcast a = bc /\ getBit (a_op a) = bit /\ forall regs, written32 regs (a_e a) = value regs e mod 2 ^ 32.
Proof. exact (frame_value32 e bit bc env pos its a). Qed.
Print Assumptions C50_address_value.
(* 5 + ecx*4 + esp - 7 *)
Example C50_address_hypotheses :
  let e := XSub (XAdd (XAdd (XDisp 5) (XScale (Reg32 1) 4)) (XReg (Reg32 4))) 7 in
  smalls e /\ In 32 frame_bits /\ emits (at_frame32 32 false e) env0 0 [] (address0 32 false (mkRegExp (Reg32 4) (Reg32 1) 4 (2 ^ 32 - 2))).
Proof.
  cbv zeta. split; [|split; [cbn; auto 10|split; [reflexivity|vm_compute; reflexivity]]].
  assert (Q : forall i, 0 <= i < 8 -> small (Reg32 i)).
  { intros i I. unfold small, obj, gpr, Reg32, Reg32e, regOf. cbn [idx_ kind_ bit_]. rewrite Z.lor_0_r, (Z.mod_small i 64) by lia. split; [|split; [lia|intros _; cbn; discriminate]].
    left. split; [reflexivity|]. left. split; [cbn; auto|lia]. }
  cbn [smalls]. repeat split; apply Q; lia.
Qed.
