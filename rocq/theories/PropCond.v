(* Property theorems C38: condition codes.  The meaning of suffixes and codes is in SpecCond.v; what is said about
   one method (jcc_ok, setcc_ok, ...) in CondFacts.v; the methods by suffix in CondTables.v. *)
From Coq Require Import ZArith List Bool String Lia.
From Verif Require Import Base Types Emit Encode State Code Label Gen Wp CodeFacts Append LabelFacts LabelInv LabelEmit SpecMem SpecLabel LabelHist
  LabelThms LabelThms2 LabelThms3 LabelThms4 Stable LabelThms5 Grow LabelThms6 LabelThms7 LabelThms8 RunCheck
  Mnemonic MnemonicJmp SpecX86 SpecLeg SpecApx SpecCond CondFacts CondTables CondProofs CountJmp.
Import ListNotations.
Open Scope Z_scope.

(* every method encodes the condition code of its suffix; [limplements]/[aimplements] carry this to the emitted bytes *)
Theorem C38_set_and_cmov : Forall setcc_ok setcc_methods /\ Forall cmovcc_ok cmovcc_methods.
Proof. exact (conj setcc_all cmovcc_all). Qed.
Print Assumptions C38_set_and_cmov.
Theorem C38_apx_conditions :
  Forall setcc_apx_ok setcc_apx_methods /\ Forall cmovcc_apx_ok cmovcc_apx_methods /\
  Forall cfcmovcc_ok cfcmovcc_methods /\ Forall cfcmovcc3_ok cfcmovcc3_methods /\ Forall cmpccxadd_ok cmpccxadd_methods /\
  Forall ccmpscc_ok ccmpscc_methods /\ Forall ccmpscci_ok ccmpscci_methods /\ Forall ctestscc_ok ctestscc_methods /\ Forall ctestscci_ok ctestscci_methods.
Proof.
  exact (conj setcc_apx_all (conj cmovcc_apx_all (conj cfcmovcc_all (conj cfcmovcc3_all (conj cmpccxadd_all
    (conj ccmpscc_all (conj ccmpscci_all (conj ctestscc_all ctestscci_all)))))))).
Qed.
Print Assumptions C38_apx_conditions.
Theorem C38_jumps : Forall jcc_ok jcc_methods.
Proof. exact jcc_all. Qed.
Print Assumptions C38_jumps.
(* the opcode bytes in the buffer: jcc to a label, jcc to an address *)
Theorem C38_label_jump_bytes : forall p l ty s a t s1, In p jcc_methods ->
  run s a -> isAutoGrowC (g_code s) && sp_ready a = false -> alive_ref a l -> lm_nextId (g_lm s) < 2147483647 ->
  tid_of a l = Some t -> c_size (g_code s) <= maxCode -> fst (snd p) l ty s = Done s1 tt ->
  exists k, encodes (fst p) k /\
  if takes_short (sp_defs a t) (g_jmpNear s) ty (c_size (g_code s))
  then c_size (g_code s1) = c_size (g_code s) + 2 /\ mem_has (c_mem (g_code s1)) (c_size (g_code s)) [0x70 + k]
  else c_size (g_code s1) = c_size (g_code s) + 6 /\ mem_has (c_mem (g_code s1)) (c_size (g_code s)) [0x0F; 0x80 + k].
Proof. intros p l ty s a t s1 H. exact (jcc_label_bytes p l ty s a t s1 (proj1 (Forall_forall _ _) jcc_all p H)). Qed.
Print Assumptions C38_label_jump_bytes.
Theorem C38_address_jump_bytes : forall p addr s a s1, In p jcc_methods -> run s a -> snd (snd p) addr s = Done s1 tt ->
  exists k, encodes (fst p) k /\
  c_size (g_code s1) = c_size (g_code s) + 6 /\ mem_has (c_mem (g_code s1)) (c_size (g_code s)) [0x0F; 0x80 + k].
Proof. intros p addr s a s1 H. exact (jcc_abs_bytes p addr s a s1 (proj1 (Forall_forall _ _) jcc_all p H)). Qed.
Print Assumptions C38_address_jump_bytes.
(* loop, loope, loopne, jrcxz and jecxz: the opcode of SDM and a one-byte displacement, or an error *)
Theorem C38_count_jump_bytes : forall p l s a t s1, In p count_table ->
  run s a -> isAutoGrowC (g_code s) && sp_ready a = false -> alive_ref a l -> lm_nextId (g_lm s) < 2147483647 ->
  tid_of a l = Some t -> c_size (g_code s) < maxCode -> snd p l s = Done s1 tt ->
  let n := Z.of_nat (List.length (fst p)) in
  c_size (g_code s1) = c_size (g_code s) + n + 1
  /\ mem_has (c_mem (g_code s1)) (c_size (g_code s)) (fst p)
  /\ out_of_short (sp_defs a t) (c_size (g_code s) + n - 1) = false.
Proof. exact count_bytes. Qed.
Print Assumptions C38_count_jump_bytes.
(* two suffixes with the same meaning have the same code; with opposite meanings, codes that differ in bit 0 only *)
Theorem C38_aliases_agree : forall n n' k k', encodes n k -> encodes n' k' -> cond_of n = cond_of n' -> k = k'.
Proof. exact alias_code. Qed.
Print Assumptions C38_aliases_agree.
Theorem C38_negation_flips_bit0 : forall n n' k k', encodes n k -> encodes n' k' ->
  (forall m m', cond_of n = Some m -> cond_of n' = Some m' -> forall f, m f = negb (m' f)) -> k = Z.lxor k' 1.
Proof. exact negated_code. Qed.
Print Assumptions C38_negation_flips_bit0.
(* what the suffixes mean after cmp a, b *)
Theorem C38_suffix_after_cmp : forall n w a b pf m r, 1 <= w -> 0 <= a < 2 ^ w -> 0 <= b < 2 ^ w ->
  cond_of n = Some m -> relation_of n w a b = Some r -> m (cmp_flags w a b pf) = r.
Proof. exact cmp_relation. Qed.
Print Assumptions C38_suffix_after_cmp.

Example C38_meanings : encodes "nge" 12 /\ encodes "l" 12 /\ encodes "ge" 13 /\ cond_of "nge" = cond_of "l" /\ sencodes "t" 10
  /\ (forall m m', cond_of "l" = Some m -> cond_of "ge" = Some m' -> forall f, m f = negb (m' f)).
Proof.
  repeat split; try discriminate; try (eexists; split; [reflexivity|]; intros [[] [] [] [] []]; reflexivity).
  intros m m' M M' f. injection M as <-. injection M' as <-. now rewrite negb_involutive.
Qed.
(* cmp 0x80, 1 on bytes: below is false, less is true *)
Example C38_cmp_hypotheses : relation_of "b" 8 0x80 1 = Some false /\ relation_of "l" 8 0x80 1 = Some true /\ cond_of "l" = Some less
  /\ less (cmp_flags 8 0x80 1 false) = true.
Proof. repeat split. Qed.
(* at the start of a 100 byte buffer: jl to the address 0x12345678, and jnge to a label defined there *)
Definition c0 : St * Spec * list outcome := fin (runb (gen0 100 UNull) spec0 []).
Definition X : LabelRef := LObj 5%nat.
Definition c1 := fin (runb (stOf c0) (spOf c0) [OpNewLabel 5%nat; OpL X]).
Lemma c1_run : run (stOf c1) (spOf c1).
Proof. apply (run_fin 100 UNull [OpNewLabel 5%nat; OpL X]); vm_compute; reflexivity. Qed.
Lemma done_ex (r : out unit) : match r with Done _ _ => true | _ => false end = true -> exists s1, r = Done s1 tt.
Proof. destruct r as [s1 []| |]; try discriminate. intros _. now exists s1. Qed.
Example C38_jump_hypotheses : In ("l"%string, (i_jl_sj, i_jl_v)) jcc_methods /\ In ("nge"%string, (i_jnge_sj, i_jnge_v)) jcc_methods
  /\ run (stOf c1) (spOf c1) /\ isAutoGrowC (g_code (stOf c1)) && sp_ready (spOf c1) = false /\ alive_ref (spOf c1) X
  /\ lm_nextId (g_lm (stOf c1)) < 2147483647 /\ tid_of (spOf c1) X = Some (TObj (Fresh 0)) /\ c_size (g_code (stOf c1)) <= maxCode
  /\ (exists s1, i_jnge_sj X T_AUTO (stOf c1) = Done s1 tt) /\ (exists s1, i_jl_v 0x12345678 (stOf c1) = Done s1 tt)
  /\ (exists s1, i_jecxz X (stOf c1) = Done s1 tt).
Proof.
  split; [apply (nth_error_In _ 22); reflexivity|]. split; [apply (nth_error_In _ 23); reflexivity|]. split; [exact c1_run|].
  split; [vm_compute; reflexivity|]. split; [vm_compute; discriminate|]. split; [vm_compute; reflexivity|].
  split; [vm_compute; reflexivity|]. split; [vm_compute; discriminate|]. repeat split; apply done_ex; vm_compute; reflexivity.
Qed.
