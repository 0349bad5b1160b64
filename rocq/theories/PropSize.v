(* Property theorems C40: the length of an instruction and the sizes of its operands. *)
From Coq Require Import ZArith List Bool String Lia.
From Verif Require Import Base Types Emit EmitFacts Encode Mnemonic MnemonicAvx MnemonicOmit SpecLen SpecSize LenFacts LenTables SizeFacts SizeTables.
Import ListNotations.
Open Scope Z_scope.

(* Every method (2520 entries), whatever its arguments: a call that succeeds occupies at most 15 bytes *)
Theorem C40_length : forall x v, In x len_methods -> args_ok v -> within max_length (ln_fun x v).
Proof. intros x v H. exact (proj1 (Forall_forall _ _) len_methods_ok x H v). Qed.
Print Assumptions C40_length.
(* the bound is reached: {nf} add ecx, [rbx + rsi + 0x12345], 0x12345 *)
Definition longest : E unit :=
  i_add_roi (setNF (Reg32 1)) (OMem (address0 32 false (mkRegExp (Reg64 3) (Reg64 6) 1 0x12345))) 0x12345.
Example C40_longest : exists its, emits longest env0 0 its tt /\ items_size its = 15.
Proof. eexists; split; [split; reflexivity|reflexivity]. Qed.
Example C40_args : args_ok (mkArgs (fun _ => OReg (Reg64 16)) (fun _ => address0 32 false (regExpDisp 0)) (fun _ => Reg32 9) (fun n => n)
  DefaultEncoding T_NEAR (LStr "x"%string) ES).
Proof. split; intros i _; vm_compute; discriminate. Qed.

(* add, adc, and, cmp, or, sbb, sub, xor: operands of different sizes are rejected *)
Theorem C40_sizes_oo : forall f o1 o2, In f sized_oo -> narrow o1 -> narrow o2 -> checks_sizes [o1; o2] (f o1 o2).
Proof. exact sized_oo_ok. Qed.
Print Assumptions C40_sizes_oo.
(* mov: except for the form with a 64-bit address.  Partial, see C40_sizes_refuted *)
Theorem C40_sizes_mov_partial : forall o1 o2, narrow o1 -> narrow o2 -> (forall a, In (OMem a) [o1; o2] -> is64bitDisp a = false) -> checks_sizes [o1; o2] (mov_oo o1 o2).
Proof. exact mov_oo_ok. Qed.
Print Assumptions C40_sizes_mov_partial.
(* test, xadd, cmpxchg, bt .. bts, bsf, bsr, popcnt, lzcnt, tzcnt, imul, cmovcc: unless they take an APX form.  Partial, see below *)
Theorem C40_sizes_ro_partial : forall f r o, In f sized_ro -> narrow (OReg r) -> plain (OReg r) -> plain o -> checks_sizes [OReg r; o] (f r o).
Proof. exact sized_ro_ok. Qed.
Print Assumptions C40_sizes_ro_partial.
Theorem C40_sizes_shxd_partial : forall f r o imm cl, In f (sized_shxd imm cl) -> narrow (OReg r) -> plain (OReg r) -> plain o -> checks_sizes [OReg r; o] (f r o).
Proof. exact sized_shxd_ok. Qed.
Print Assumptions C40_sizes_shxd_partial.
(* andn, bextr, bzhi, mulx, pdep, pext, sarx, shlx, shrx with three registers *)
Theorem C40_sizes_rrr : forall f a b c, In f sized_rrr -> checks_sizes [OReg a; OReg b; OReg c] (f a b c).
Proof. exact sized_rrr_ok. Qed.
Print Assumptions C40_sizes_rrr.
(* add .. xor, shifts, test, mov with an immediate, inc and dec reject memory without a size *)
Theorem C40_unsized_rejected : forall f o imm, In f (needs_size imm) -> unsized o -> rejects (f o).
Proof. exact needs_size_ok. Qed.
Print Assumptions C40_unsized_rejected.
Example C40_hypotheses : narrow (OReg (Reg32 1)) /\ plain (OReg (Reg32 1)) /\ plain (mem 32) /\ unsized (mem 0)
  /\ (exists its, emits (i_add_oo (OReg (Reg32 1)) (mem 32)) env0 0 its tt) /\ (exists its, emits (i_cmova_ro (Reg32 1) (mem 32)) env0 0 its tt)
  /\ (exists its, emits (i_add_oi (mem 32) 5) env0 0 its tt) /\ ~ checks_sizes [OReg (Reg32 1); OReg (Reg16 2)] (ret tt).
Proof.
  split; [intros _; vm_compute; discriminate|]. split; [reflexivity|]. split; [reflexivity|]. split; [split; reflexivity|].
  split; [apply accepted_emits; reflexivity|]. split; [apply accepted_emits; reflexivity|]. split; [apply accepted_emits; reflexivity|].
  intros K. specialize (K env0 0 [] tt (conj eq_refl eq_refl) _ _ (or_introl eq_refl) (or_intror (or_introl eq_refl)) _ _ eq_refl eq_refl). discriminate K.
Qed.

(* xchg(eax, cl), mov(eax, byte [0x1122334455667788]), add(eax, cl, rdx), imul(eax, r16w), ccmpa(rdx, ecx) ... are accepted *)
Theorem C40_sizes_refuted : forall ops m, In (ops, m) mismatched -> ~ checks_sizes ops m.
Proof. exact mismatched_ok. Qed.
Print Assumptions C40_sizes_refuted.
(* mul, imul, div, idiv, neg, not, shifts by cl, bt .. bts with an immediate, movzx, movsx guess the size of ptr [rcx] *)
Theorem C40_unsized_refuted : forall m, In m guessed -> ~ rejects m.
Proof. exact guessed_ok. Qed.
Print Assumptions C40_unsized_refuted.
