(* Property theorems C24 (address expressions). *)
From Coq Require Import ZArith List Bool Lia Permutation.
From Verif Require Import Base Types Emit Encode SpecX86 SpecAddr Wf EmitFacts BitFacts LegacyFacts EncThms SpecExpr ExprProofs.
Import ListNotations.
Open Scope Z_scope.

(* ptr[e] is accepted exactly if its registers and scales are legal and its terms fit base + index * scale *)
Theorem C24_accepted : forall e bit bc env pos, objs e -> env_noexc env = false ->
  (typed e /\ encodable (terms e) <-> exists a, at_frame bit bc e env pos = ([], Ok a)).
Proof. exact frame_iff. Qed.
Print Assumptions C24_accepted.
(* whatever is decoded as the expression held by the Address object is at the address that ordinary arithmetic
   gives for e, modulo 2^64 (2^32 with 32-bit registers) *)
Theorem C24_value : forall e bit bc env pos its a, objs e -> emits (at_frame bit bc e) env pos its a ->
  its = [] /\ wf_modrm a /\ a_broadcast a = bc /\ bit_ (a_op a) = bit mod 16384
  /\ forall h m, denotes (a_e a) h m -> forall regs rip, eff_addr regs rip (h_67 h) m = value regs e mod addr_size (any32 (terms e)).
Proof. exact frame_value. Qed.
Print Assumptions C24_value.
(* end to end for the legacy encodings *)
Theorem C24_legacy_effective_address : forall s e bit bc r type code env pos its its0 a rest u,
  objs e -> emits (at_frame bit bc e) env pos its0 a ->
  (isREG r = false -> bit4 r = false) ->
  (has type T_APX = true -> getMap type = 0) ->
  opcode_ok (getMap type) (final_opc type r code) = true ->
  emits (opMR a r type code 0 NONE) env pos its u ->
  exists h m, decode false 1 (render s its ++ rest) = Some (h, regno r, RMem m, rest)
   /\ forall regs rip, eff_addr regs rip (h_67 h) m = value regs e mod addr_size (any32 (terms e)).
Proof. exact frame_legacy. Qed.
Print Assumptions C24_legacy_effective_address.
(* 5 + rcx*4 + rsp - 7; eax + esp (swapped); rcx*2 *)
Definition env_x := mkEnv false 0x400000 false false VexEncoding PreAVX10v2Encoding.
Example C24_instance :
  let e := XSub (XAdd (XAdd (XDisp 5) (XScale (Reg64 1) 4)) (XReg (Reg64 4))) 7 in
  objs e /\ emits (at_frame 32 false e) env_x 0 [] (address0 32 false (mkRegExp (Reg64 4) (Reg64 1) 4 (2 ^ 64 - 2)))
  /\ emits (at_frame 32 false (XAdd (XReg (Reg32 0)) (XReg (Reg32 4)))) env_x 0 [] (address0 32 false (mkRegExp (Reg32 4) (Reg32 0) 1 0)).
Proof.
  cbv zeta. split; [|split; split; [reflexivity|vm_compute; reflexivity|reflexivity|vm_compute; reflexivity]].
  cbn -[Reg64 obj]. repeat split; left; split; try reflexivity; left; cbn; lia.
Qed.
Example C24_rejected : ~ encodable (terms (XScale (Reg64 4) 2)) /\ ~ encodable (terms (XAdd (XReg (Reg64 0)) (XReg (Reg32 1))))
  /\ ~ encodable (terms (XAdd (XAdd (XReg (Reg64 0)) (XReg (Reg64 1))) (XReg (Reg64 2)))).
Proof.
  assert (Q : forall e, objs e -> typed e -> (exists er, at_frame 0 false e env_x 0 = ([], Err er)) -> ~ encodable (terms e)).
  { intros e O T [er H] C. destruct (frame_iff e 0 false env_x 0 O eq_refl) as [A _]. destruct (A (conj T C)) as [a Ha]. congruence. }
  assert (G : forall r, addr_gpr r -> obj r) by (intros r (K & B & I); left; split; auto; left; lia).
  assert (R : forall i, 0 <= i < 32 -> addr_gpr (Reg64 i) /\ addr_gpr (Reg32 i)).
  { intros i I. unfold Reg64, Reg32, regOf, addr_gpr. cbn [kind_ bit_ idx_]. rewrite Z.lor_0_r, (Z.mod_small i 64) by lia. split; (split; [reflexivity|split; [cbn; auto|exact I]]). }
  destruct (R 0 ltac:(lia)), (R 1 ltac:(lia)), (R 2 ltac:(lia)), (R 4 ltac:(lia)).
  split; [|split]; apply Q; cbn [objs typed]; unfold addr_reg; auto 10; try (split; [auto|cbn; auto 10]); eexists; vm_compute; reflexivity.
Qed.
(* a tile register is accepted as an index and encoded as the general register with its number:
   mov eax, [rax + tmm1] is mov eax, [rax + rcx] *)
Theorem C24_tile_index_refuted : exists a, emits (at_frame 32 false (XAdd (XReg (Reg64 0)) (XReg (Tmm 1)))) env_x 0 [] a
  /\ exists h rest, emits (mov_oo (OReg (Reg32 0)) (OMem a)) env_x 0 [IDb 0x8B; IDb 0x04; IDb 0x08] tt
  /\ decode false 1 [0x8B; 0x04; 0x08] = Some (h, 0, RMem (mkMem (BReg 0) (Some 1) 1 0), rest).
Proof. eexists. split; [split; reflexivity|]. eexists. eexists. split; [split; [reflexivity|vm_compute; reflexivity]|vm_compute; reflexivity]. Qed.
Print Assumptions C24_tile_index_refuted.
