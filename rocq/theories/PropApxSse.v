(* Property theorems C41: SHA, key locker and ENCODEKEY instructions with r16 .. r31. *)
From Coq Require Import ZArith List Bool String Lia.
From Verif Require Import Base Types Emit Encode Mnemonic SpecX86 SpecAddr EmitFacts Wf SpecIsa SpecInsn SpecLeg ArgCheck SpecApx ApxSse.
Import ListNotations.
Open Scope Z_scope.

Theorem C41_sha_and_key_locker : Forall sse_says sse_table.
Proof. exact sse_table_ok. Qed.
Print Assumptions C41_sha_and_key_locker.
Theorem C41_wide_key_locker : Forall wide_says wide_table.
Proof. exact wide_table_ok. Qed.
Print Assumptions C41_wide_key_locker.
Theorem C41_encodekey : Forall key_says key_table.
Proof. exact key_table_ok. Qed.
Print Assumptions C41_encodekey.
Definition env0 := mkEnv false 0x400000 false false VexEncoding PreAVX10v2Encoding.
Definition m17 : Address := address0 0 false (mkRegExp (Reg64 17) (Reg64 2) 4 8).
Definition out (m : E unit) : option (list Z) := match m env0 0 with (its, Ok _) => Some (render (fun _ _ _ => 0) its) | _ => None end.
Example C41_sse_ex : xmm_arg (Xmm 9) /\ amem m17 /\ ext_reg (OMem m17) = true
  /\ out (i_sha1rnds4 (Xmm 9) (OMem m17) 3) = Some [0x62; 0x7C; 0x7C; 0x08; 0xD4; 0x4C; 0x91; 0x08; 3].
Proof.
  split; [repeat split; cbn; lia|]. split; [|split; reflexivity].
  split; [apply mem_okb_ok; reflexivity|]. split; [split; [reflexivity|intros [[[X _]|[[X _]|[X _]]] _]; discriminate X]|]. repeat split.
Qed.
(* xbyak.h:2828: with r16 .. r31 the kind of the operand is not checked: sha1msg2(xmm1, r17) is accepted, sha1msg2(xmm1, rcx) is not *)
Theorem C41_sha_general_register_refuted :
  out (i_sha1msg2 (Xmm 1) (OReg (Reg64 17))) = Some [0x62; 0xFC; 0x7C; 0x08; 0xDA; 0xC9] /\ out (i_sha1msg2 (Xmm 1) (OReg (Reg64 1))) = None.
Proof. split; reflexivity. Qed.
Print Assumptions C41_sha_general_register_refuted.
(* xbyak.h:2818-2825: encodekey128 with r8d .. r15d uses the APX encoding although F3 REX 0F 38 FA exists: the code needs a
   processor with APX *)
Theorem C41_encodekey_r8_refuted : out (i_encodekey128 (Reg32 1) (Reg32 9)) = Some [0x62; 0xD4; 0x7E; 0x08; 0xDA; 0xC9].
Proof. reflexivity. Qed.
Print Assumptions C41_encodekey_r8_refuted.
