(* Proofs for C29: the bits of the feature word. *)
From Coq Require Import ZArith List Bool String Ascii Lia Btauto.
From Verif Require Import Base Types Cpu SpecCpu.
Import ListNotations.
Open Scope Z_scope.

Definition mem (t : Ty) (i : Z) : bool := if i <? 64 then Z.testbit (t_L t) i else Z.testbit (t_H t) (i - 64).

Lemma bitof_test x n : 0 <= n -> bitof x n = Z.testbit x n.
Proof.
  intros N. unfold bitof. rewrite Z.shiftl_1_l. destruct (Z.testbit x n) eqn:T.
  - destruct (Z.eqb_spec (x &&& 2 ^ n) 0) as [E|]; auto.
    assert (H : Z.testbit (x &&& 2 ^ n) n = true) by (rewrite Z.land_spec, T, Z.pow2_bits_true; auto). rewrite E, Z.bits_0 in H. discriminate.
  - destruct (Z.eqb_spec (x &&& 2 ^ n) 0) as [|E]; auto. exfalso. apply E. apply Z.bits_inj'. intros k K.
    rewrite Z.land_spec, Z.bits_0, Z.pow2_bits_eqb by auto. destruct (Z.eqb_spec n k); subst; rewrite ?T, ?andb_false_r; auto.
Qed.
Lemma land_pow2 x n : 0 <= n -> ((2 ^ n &&& x) =? 2 ^ n) = Z.testbit x n.
Proof.
  intros N. destruct (Z.eqb_spec (2 ^ n &&& x) (2 ^ n)) as [E|E].
  - assert (H : Z.testbit (2 ^ n &&& x) n = true) by (rewrite E; apply Z.pow2_bits_true; auto).
    rewrite Z.land_spec, Z.pow2_bits_true in H; auto.
  - destruct (Z.testbit x n) eqn:T; auto. exfalso. apply E. apply Z.bits_inj'. intros k K.
    rewrite Z.land_spec, !Z.pow2_bits_eqb by auto. destruct (Z.eqb_spec n k); subst; rewrite ?T; auto.
Qed.
Lemma mem_or a b i : mem (ty_or a b) i = mem a i || mem b i.
Proof. unfold mem, ty_or. cbn. destruct (i <? 64); apply Z.lor_spec. Qed.
Lemma mem_and a b i : mem (ty_and a b) i = mem a i && mem b i.
Proof. unfold mem, ty_and. cbn. destruct (i <? 64); apply Z.land_spec. Qed.
Lemma ty_lo i : 0 <= i < 64 -> ty i = mkTy (2 ^ i) 0.
Proof.
  intros H. unfold ty. replace (0 <=? i) with true by lia. replace (i <? 64) with true by lia. replace (64 <=? i) with false by lia.
  cbn [andb]. rewrite Z.mod_small, Z.shiftl_1_l by lia. reflexivity.
Qed.
Lemma ty_hi i : 64 <= i < 128 -> ty i = mkTy 0 (2 ^ (i - 64)).
Proof.
  intros H. unfold ty. replace (0 <=? i) with true by lia. replace (i <? 64) with false by lia. replace (64 <=? i) with true by lia.
  cbn [andb]. replace (i mod 64) with (i - 64) by (apply (Z.mod_unique i 64 1); lia). rewrite Z.shiftl_1_l. reflexivity.
Qed.
Lemma mem_ty i j : 0 <= i < 128 -> 0 <= j < 128 -> mem (ty j) i = (j =? i).
Proof.
  intros I J. unfold mem. destruct (Z.ltb_spec j 64) as [LJ|LJ]; [rewrite ty_lo by lia|rewrite ty_hi by lia]; cbn [t_L t_H];
    destruct (Z.ltb_spec i 64); rewrite ?Z.bits_0, ?Z.pow2_bits_eqb by lia; lia.
Qed.
Lemma has_mem t i : 0 <= i < 128 -> cpu_has t (ty i) = mem t i.
Proof.
  intros I. unfold cpu_has, mem, ty_eqb, ty_and. destruct (Z.ltb_spec i 64) as [L|L]; [rewrite ty_lo by lia|rewrite ty_hi by lia];
    cbn [t_L t_H]; rewrite Z.land_0_l, land_pow2 by lia; cbn; rewrite ?andb_true_r; reflexivity.
Qed.
Lemma land_pow2_nz x n : 0 <= n -> negb ((x &&& 2 ^ n) =? 0) = Z.testbit x n.
Proof. intros N. rewrite <- Z.shiftl_1_l. apply bitof_test; auto. Qed.
Lemma tst_mem t i : 0 <= i < 128 -> tst t i = mem t i.
Proof.
  intros I. unfold tst, mem, ty_bool, ty_and. destruct (Z.ltb_spec i 64) as [L|L]; [rewrite ty_lo by lia|rewrite ty_hi by lia];
    cbn [t_L t_H]; rewrite Z.land_0_r, ?Z.lor_0_l, ?Z.lor_0_r; apply land_pow2_nz; lia.
Qed.
Lemma mem_add c j t i : 0 <= i < 128 -> 0 <= j < 128 -> mem (add c j t) i = if j =? i then c || mem t i else mem t i.
Proof.
  intros I J. unfold add. destruct c.
  - rewrite mem_or, mem_ty by auto. destruct (j =? i), (mem t i); reflexivity.
  - destruct (j =? i); reflexivity.
Qed.
Lemma mem_if (c : bool) a b i : mem (if c then a else b) i = if c then mem a i else mem b i.
Proof. destruct c; reflexivity. Qed.
Lemma mem_0 i : mem ty0 i = false.
Proof. unfold mem. cbn. rewrite !Z.bits_0. destruct (i <? 64); reflexivity. Qed.

(* the sets of features *)
Definition ids_ok (l : list Z) : Prop := forall i, In i l -> 0 <= i < 128.
Definition union (l : list Z) : Ty := fold_right (fun i t => ty_or (ty i) t) ty0 l.
Lemma has_or t a b : cpu_has t (ty_or a b) = cpu_has t a && cpu_has t b.
Proof.
  assert (Q : forall x y z, (((x ||| y) &&& z) =? (x ||| y)) = (((x &&& z) =? x) && ((y &&& z) =? y))).
  { intros x y z. assert (K : forall u, (u &&& z = u) <-> (forall k, 0 <= k -> Z.testbit u k = true -> Z.testbit z k = true)).
    { intros u. split.
      - intros E k K1 T. rewrite <- E, Z.land_spec in T. apply andb_true_iff in T. tauto.
      - intros F. apply Z.bits_inj'. intros k K1. rewrite Z.land_spec. destruct (Z.testbit u k) eqn:T; [exact (F k K1 T)|reflexivity]. }
    apply eq_iff_eq_true. rewrite andb_true_iff, !Z.eqb_eq, !K. split.
    - intros F. split; intros k K1 T; apply (F k K1); rewrite Z.lor_spec, T; auto using orb_true_r.
    - intros [F G] k K1 T. rewrite Z.lor_spec in T. apply orb_true_iff in T. destruct T; auto. }
  unfold cpu_has, ty_eqb, ty_and, ty_or. cbn [t_L t_H]. rewrite !Q.
  destruct ((t_L a &&& t_L t) =? t_L a), ((t_L b &&& t_L t) =? t_L b), ((t_H a &&& t_H t) =? t_H a), ((t_H b &&& t_H t) =? t_H b); reflexivity.
Qed.
Lemma has_union t l : ids_ok l -> cpu_has t (union l) = forallb (fun i => cpu_has t (ty i)) l.
Proof.
  induction l as [|i l IH]; intros H.
  - reflexivity.
  - cbn [union fold_right forallb]. fold (union l). rewrite has_or, IH; auto. intros j J. apply H. right; auto.
Qed.

Ltac consts := cbv delta [tMMX tMMX2 tCMOV tSSE tSSE2 tSSE3 tSSSE3 tSSE41 tSSE42 tPOPCNT tAESNI tAVX512_FP16 tOSXSAVE tPCLMULQDQ tAVX tFMA t3DN tE3DN tWAITPKG tRDTSCP tAVX2 tBMI1 tBMI2 tLZCNT tINTEL tAMD tENHANCED_REP tRDRAND tADX tRDSEED tSMAP tHLE tRTM tF16C tMOVBE tAVX512F tAVX512DQ tAVX512_IFMA tAVX512IFMA tAVX512PF tAVX512ER tAVX512CD tAVX512BW tAVX512VL tAVX512_VBMI tAVX512VBMI tAVX512_4VNNIW tAVX512_4FMAPS tPREFETCHWT1 tPREFETCHW tSHA tMPX tAVX512_VBMI2 tGFNI tVAES tVPCLMULQDQ tAVX512_VNNI tAVX512_BITALG tAVX512_VPOPCNTDQ tAVX512_BF16 tAVX512_VP2INTERSECT tAMX_TILE tAMX_INT8 tAMX_BF16 tAVX_VNNI tCLFLUSHOPT tCLDEMOTE tMOVDIRI tMOVDIR64B tCLZERO tAMX_FP16 tAVX_VNNI_INT8 tAVX_NE_CONVERT tAVX_IFMA tRAO_INT tCMPCCXADD tPREFETCHITI tSERIALIZE tUINTR tXSAVE tSHA512 tSM3 tSM4 tAVX_VNNI_INT16 tAPX_F tAVX10 tAESKLE tWIDE_KL tKEYLOCKER tKEYLOCKER_WIDE tSSE4a tCLWB tTSXLDTRK].

(* the word after each part of the constructor *)
Definition w1 (o : oracle) : Ty :=
  let d := cpuid o 0 0 in
  if isAMD d then
    let t := ty_or ty0 (ty tAMD) in
    let d := cpuid o 0x80000001 0 in
    let t := if bitof (EDX d) 31 then ty_or (ty_or t (ty t3DN)) (ty tPREFETCHW) else t in
    if bitof (EDX d) 29 then ty_or t (ty tPREFETCHW) else t
  else if isIntel d then ty_or ty0 (ty tINTEL) else ty0.
Definition w2 (o : oracle) (t : Ty) : Ty := if 0x80000001 <=? EAX (cpuid o 0x80000000 0) then s_ext1 (cpuid o 0x80000001 0) t else t.
Definition w3 (o : oracle) (t : Ty) : Ty := if 0x80000008 <=? EAX (cpuid o 0x80000000 0) then add (bitof (EBX (cpuid o 0x80000008 0)) 0) tCLZERO t else t.
Definition w4 (o : oracle) (t : Ty) : Ty :=
  let d := cpuid o 1 0 in
  if tst t tOSXSAVE then
    if (xfeature o &&& 6) =? 6 then
      let t := add (bitof (ECX d) 12) tFMA t in
      let t := add (bitof (ECX d) 28) tAVX t in
      if (Z.shiftr (xfeature o) 5 &&& 7) =? 7 then
        let d := cpuid o 7 0 in
        let t := add (bitof (EBX d) 16) tAVX512F t in
        if tst t tAVX512F then s_avx512 d t else t
      else t
    else t
  else t.
Definition w5 (o : oracle) (t : Ty) : Ty :=
  if 7 <=? EAX (cpuid o 0 0) then
    let d := cpuid o 7 0 in
    let t := s_leaf7 d t in
    if 1 <=? EAX d then
      let d := cpuid o 7 1 in
      let t := s_leaf71a d t in
      let t := if tst t tAVX512F then add (bitof (EAX d) 5) tAVX512_BF16 t else t in
      s_leaf71b d t
    else t
  else t.
Definition w6 (o : oracle) (t : Ty) : Ty :=
  if 0x19 <=? EAX (cpuid o 0 0) then
    let d := cpuid o 0x19 0 in
    let t := add (bitof (EBX d) 0) tAESKLE t in
    let t := add (bitof (EBX d) 2) tWIDE_KL t in
    add (ty_bool (ty_and t (ty_or (ty_or (ty tKEYLOCKER) (ty tAESKLE)) (ty tWIDE_KL)))) tKEYLOCKER_WIDE t
  else t.
Lemma cpu_type_parts o : cpu_type o = w6 o (w5 o (w4 o (s_leaf1 (cpuid o 1 0) (w3 o (w2 o (w1 o)))))).
Proof. reflexivity. Qed.

Lemma isAMD_amd o : isAMD (cpuid o 0 0) = amd o.
Proof. unfold isAMD, vendor, amd, vendor_is, answer. cbn -[Z.eqb]. rewrite (Z.eqb_sym (EBX _)), (Z.eqb_sym (EDX _)), (Z.eqb_sym (ECX _)). reflexivity. Qed.
Lemma isIntel_intel o : isIntel (cpuid o 0 0) = intel o.
Proof. unfold isIntel, vendor, intel, vendor_is, answer. cbn -[Z.eqb]. rewrite (Z.eqb_sym (EBX _)), (Z.eqb_sym (EDX _)), (Z.eqb_sym (ECX _)). reflexivity. Qed.
Lemma ymm_bits x : ((x &&& 6) =? 6) = Z.testbit x 1 && Z.testbit x 2.
Proof.
  rewrite Z.land_comm. change 6 with (2 ^ 1 ||| 2 ^ 2).
  destruct (Z.testbit x 1) eqn:A, (Z.testbit x 2) eqn:B; cbn [andb]; [|apply Z.eqb_neq; intros E..].
  - apply Z.eqb_eq. rewrite Z.land_lor_distr_l. f_equal; apply Z.eqb_eq; rewrite land_pow2; auto; lia.
  - assert (K : Z.testbit (2 ^ 1 ||| 2 ^ 2) 2 = true) by reflexivity. rewrite <- E, Z.land_spec, B, andb_false_r in K. discriminate.
  - assert (K : Z.testbit (2 ^ 1 ||| 2 ^ 2) 1 = true) by reflexivity. rewrite <- E, Z.land_spec, A, andb_false_r in K. discriminate.
  - assert (K : Z.testbit (2 ^ 1 ||| 2 ^ 2) 1 = true) by reflexivity. rewrite <- E, Z.land_spec, A, andb_false_r in K. discriminate.
Qed.
Lemma zmm_bits x : ((Z.shiftr x 5 &&& 7) =? 7) = Z.testbit x 5 && Z.testbit x 6 && Z.testbit x 7.
Proof.
  rewrite Z.land_comm.
  assert (P : Z.testbit x 5 = Z.testbit (Z.shiftr x 5) 0 /\ Z.testbit x 6 = Z.testbit (Z.shiftr x 5) 1 /\ Z.testbit x 7 = Z.testbit (Z.shiftr x 5) 2)
    by (rewrite !Z.shiftr_spec by lia; auto).
  destruct P as (-> & -> & ->). generalize (Z.shiftr x 5). clear x. intros x. change 7 with (2 ^ 0 ||| 2 ^ 1 ||| 2 ^ 2).
  apply eq_iff_eq_true. rewrite !andb_true_iff, Z.eqb_eq. split.
  - intros E. assert (F : forall k, 0 <= k < 3 -> Z.testbit x k = true).
    { intros k K. assert (T : Z.testbit (2 ^ 0 ||| 2 ^ 1 ||| 2 ^ 2) k = true) by (assert (k = 0 \/ k = 1 \/ k = 2) as [->|[->| ->]] by lia; reflexivity).
      rewrite <- E, Z.land_spec in T. apply andb_true_iff in T. tauto. }
    rewrite !F by lia. auto.
  - intros [[A B] C]. rewrite !Z.land_lor_distr_l. f_equal; [f_equal|]; apply Z.eqb_eq; rewrite land_pow2; auto; lia.
Qed.

(* the unconditional steps as lists *)
Definition addl (l : list (bool * Z)) (t : Ty) : Ty := fold_left (fun t p => add (fst p) (snd p) t) l t.
Definition hit (l : list (bool * Z)) (i : Z) : bool := fold_right (fun p b => if snd p =? i then fst p || b else b) false l.
Lemma mem_addl l : forallb (fun p => (0 <=? snd p) && (snd p <? 128)) l = true ->
  forall t i, 0 <= i < 128 -> mem (addl l t) i = hit l i || mem t i.
Proof.
  induction l as [|[c j] l IH]; intros H t i I.
  - reflexivity.
  - cbn [forallb snd] in H. apply andb_true_iff in H as [J H]. cbn [addl fold_left fst snd]. fold (addl l (add c j t)).
    rewrite IH, mem_add by (auto; lia). cbn [hit fold_right fst snd]. fold (hit l i). destruct (j =? i), c, (hit l i), (mem t i); reflexivity.
Qed.
Definition l_ext1 (d : regs4) : list (bool * Z) := [(bitof (ECX d) 5, tLZCNT); (bitof (ECX d) 6, tSSE4a); (bitof (ECX d) 8, tPREFETCHW); (bitof (EDX d) 15, tCMOV); (bitof (EDX d) 22, tMMX2); (bitof (EDX d) 27, tRDTSCP); (bitof (EDX d) 30, tE3DN); (bitof (EDX d) 31, t3DN)].
Lemma s_ext1_l d t : s_ext1 d t = addl (l_ext1 d) t.
Proof. reflexivity. Qed.
Definition l_leaf1 (d : regs4) : list (bool * Z) := [(bitof (ECX d) 0, tSSE3); (bitof (ECX d) 1, tPCLMULQDQ); (bitof (ECX d) 9, tSSSE3); (bitof (ECX d) 19, tSSE41); (bitof (ECX d) 20, tSSE42); (bitof (ECX d) 22, tMOVBE); (bitof (ECX d) 23, tPOPCNT); (bitof (ECX d) 25, tAESNI); (bitof (ECX d) 26, tXSAVE); (bitof (ECX d) 27, tOSXSAVE); (bitof (ECX d) 29, tF16C); (bitof (ECX d) 30, tRDRAND); (bitof (EDX d) 15, tCMOV); (bitof (EDX d) 23, tMMX); (bitof (EDX d) 25, tMMX2); (bitof (EDX d) 25, tSSE); (bitof (EDX d) 26, tSSE2)].
Lemma s_leaf1_l d t : s_leaf1 d t = addl (l_leaf1 d) t.
Proof. reflexivity. Qed.
Definition l_avx512 (d : regs4) : list (bool * Z) := [(bitof (EBX d) 17, tAVX512DQ); (bitof (EBX d) 21, tAVX512_IFMA); (bitof (EBX d) 26, tAVX512PF); (bitof (EBX d) 27, tAVX512ER); (bitof (EBX d) 28, tAVX512CD); (bitof (EBX d) 30, tAVX512BW); (bitof (EBX d) 31, tAVX512VL); (bitof (ECX d) 1, tAVX512_VBMI); (bitof (ECX d) 6, tAVX512_VBMI2); (bitof (ECX d) 11, tAVX512_VNNI); (bitof (ECX d) 12, tAVX512_BITALG); (bitof (ECX d) 14, tAVX512_VPOPCNTDQ); (bitof (EDX d) 2, tAVX512_4VNNIW); (bitof (EDX d) 3, tAVX512_4FMAPS); (bitof (EDX d) 8, tAVX512_VP2INTERSECT)].
Lemma s_avx512_l d t : s_avx512 d t = let t := addl (l_avx512 d) t in add (tst t tAVX512BW && bitof (EDX d) 23) tAVX512_FP16 t.
Proof. reflexivity. Qed.
Definition l_leaf7 (d : regs4) : list (bool * Z) := [(bitof (EBX d) 3, tBMI1); (bitof (EBX d) 4, tHLE); (bitof (EBX d) 8, tBMI2); (bitof (EBX d) 9, tENHANCED_REP); (bitof (EBX d) 11, tRTM); (bitof (EBX d) 14, tMPX); (bitof (EBX d) 18, tRDSEED); (bitof (EBX d) 19, tADX); (bitof (EBX d) 20, tSMAP); (bitof (EBX d) 23, tCLFLUSHOPT); (bitof (EBX d) 24, tCLWB); (bitof (EBX d) 29, tSHA); (bitof (ECX d) 0, tPREFETCHWT1); (bitof (ECX d) 5, tWAITPKG); (bitof (ECX d) 8, tGFNI); (bitof (ECX d) 9, tVAES); (bitof (ECX d) 10, tVPCLMULQDQ); (bitof (ECX d) 23, tKEYLOCKER); (bitof (ECX d) 25, tCLDEMOTE); (bitof (ECX d) 27, tMOVDIRI); (bitof (ECX d) 28, tMOVDIR64B); (bitof (EDX d) 5, tUINTR); (bitof (EDX d) 14, tSERIALIZE); (bitof (EDX d) 16, tTSXLDTRK); (bitof (EDX d) 22, tAMX_BF16); (bitof (EDX d) 24, tAMX_TILE); (bitof (EDX d) 25, tAMX_INT8)].
Lemma s_leaf7_l d t : s_leaf7 d t = addl (l_leaf7 d) (add (tst t tAVX && bitof (EBX d) 5) tAVX2 t).
Proof. reflexivity. Qed.
Definition l_leaf71a (d : regs4) : list (bool * Z) := [(bitof (EAX d) 0, tSHA512); (bitof (EAX d) 1, tSM3); (bitof (EAX d) 2, tSM4); (bitof (EAX d) 3, tRAO_INT); (bitof (EAX d) 4, tAVX_VNNI)].
Lemma s_leaf71a_l d t : s_leaf71a d t = addl (l_leaf71a d) t.
Proof. reflexivity. Qed.
Definition l_leaf71b (d : regs4) : list (bool * Z) := [(bitof (EAX d) 7, tCMPCCXADD); (bitof (EAX d) 21, tAMX_FP16); (bitof (EAX d) 23, tAVX_IFMA); (bitof (EDX d) 4, tAVX_VNNI_INT8); (bitof (EDX d) 5, tAVX_NE_CONVERT); (bitof (EDX d) 10, tAVX_VNNI_INT16); (bitof (EDX d) 14, tPREFETCHITI); (bitof (EDX d) 19, tAVX10); (bitof (EDX d) 21, tAPX_F)].
Lemma s_leaf71b_l d t : s_leaf71b d t = addl (l_leaf71b d) t.
Proof. reflexivity. Qed.

Lemma lists_ok d : forallb (fun l => forallb (fun p : bool * Z => (0 <=? snd p) && (snd p <? 128)) l)
  [l_ext1 d; l_leaf1 d; l_avx512 d; l_leaf7 d; l_leaf71a d; l_leaf71b d] = true.
Proof. reflexivity. Qed.
Ltac lok := intros; apply mem_addl; [reflexivity|assumption].
Lemma m_ext1 d t i : 0 <= i < 128 -> mem (addl (l_ext1 d) t) i = hit (l_ext1 d) i || mem t i. Proof. lok. Qed.
Lemma m_leaf1 d t i : 0 <= i < 128 -> mem (addl (l_leaf1 d) t) i = hit (l_leaf1 d) i || mem t i. Proof. lok. Qed.
Lemma m_avx512 d t i : 0 <= i < 128 -> mem (addl (l_avx512 d) t) i = hit (l_avx512 d) i || mem t i. Proof. lok. Qed.
Lemma m_leaf7 d t i : 0 <= i < 128 -> mem (addl (l_leaf7 d) t) i = hit (l_leaf7 d) i || mem t i. Proof. lok. Qed.
Lemma m_leaf71a d t i : 0 <= i < 128 -> mem (addl (l_leaf71a d) t) i = hit (l_leaf71a d) i || mem t i. Proof. lok. Qed.
Lemma m_leaf71b d t i : 0 <= i < 128 -> mem (addl (l_leaf71b d) t) i = hit (l_leaf71b d) i || mem t i. Proof. lok. Qed.

Lemma rg j : (0 <=? j) && (j <? 128) = true -> 0 <= j < 128.
Proof. lia. Qed.
Ltac rg_ := first [assumption|apply rg; reflexivity].
(* membership after each part as boolean formulas in i *)
Definition at_ (j i : Z) (c : bool) : bool := if j =? i then c else false.
Lemma mem_add' c j t i : 0 <= i < 128 -> 0 <= j < 128 -> mem (add c j t) i = at_ j i c || mem t i.
Proof. intros. rewrite mem_add by auto. unfold at_. destruct (j =? i); reflexivity. Qed.
Definition m1 (o : oracle) (i : Z) : bool :=
  let e := cpuid o 0x80000001 0 in
  if amd o then at_ tAMD i true || at_ t3DN i (Z.testbit (EDX e) 31) || at_ tPREFETCHW i (Z.testbit (EDX e) 31 || Z.testbit (EDX e) 29)
  else at_ tINTEL i (intel o).
Lemma w1_m o i : 0 <= i < 128 -> mem (w1 o) i = m1 o i.
Proof.
  intros I. unfold w1, m1. rewrite isAMD_amd, isIntel_intel, !bitof_test by lia. unfold at_.
  destruct (amd o); [|destruct (intel o)]; repeat (rewrite ?mem_if, ?mem_or, ?mem_0, ?mem_ty by rg_).
  - destruct (Z.testbit _ 31), (Z.testbit _ 29), (tAMD =? i), (t3DN =? i), (tPREFETCHW =? i); reflexivity.
  - destruct (tINTEL =? i); reflexivity.
  - destruct (tINTEL =? i); reflexivity.
Qed.
Definition m2 (o : oracle) (m : Z -> bool) (i : Z) : bool := (0x80000001 <=? max_ext o) && hit (l_ext1 (cpuid o 0x80000001 0)) i || m i.
Lemma w2_m o t i : 0 <= i < 128 -> mem (w2 o t) i = m2 o (mem t) i.
Proof. intros I. unfold w2, m2, max_ext, answer. destruct (_ <=? _); [rewrite s_ext1_l, m_ext1 by auto|]; reflexivity. Qed.
Definition m3 (o : oracle) (m : Z -> bool) (i : Z) : bool := at_ tCLZERO i (flag o 0x80000008 0 B 0) || m i.
Lemma w3_m o t i : 0 <= i < 128 -> mem (w3 o t) i = m3 o (mem t) i.
Proof.
  intros I. unfold w3, m3, flag, leaf_ok. change (0x80000000 <=? 0x80000008) with true. cbv iota. unfold max_ext, answer. rewrite bitof_test by lia.
  destruct (_ <=? EAX _); [rewrite mem_add' by rg_|]; [reflexivity|]. unfold at_. destruct (_ =? _); reflexivity.
Qed.
Definition m4 (o : oracle) (m : Z -> bool) (i : Z) : bool :=
  let d := cpuid o 7 0 in
  let os := m tOSXSAVE && Z.testbit (xfeature o) 1 && Z.testbit (xfeature o) 2 in
  let f := os && (Z.testbit (xfeature o) 5 && Z.testbit (xfeature o) 6 && Z.testbit (xfeature o) 7) && (Z.testbit (EBX d) 16 || m tAVX512F) in
  let f16 := f && (hit (l_avx512 d) tAVX512BW || m tAVX512BW) && Z.testbit (EDX d) 23 in
  at_ tFMA i (os && Z.testbit (answer o 1 0 C) 12) || at_ tAVX i (os && Z.testbit (answer o 1 0 C) 28) || at_ tAVX512F i f
  || f && hit (l_avx512 d) i || at_ tAVX512_FP16 i f16 || m i.
Lemma w4_m o t i : 0 <= i < 128 -> mem (w4 o t) i = m4 o (mem t) i.
Proof.
  intros I. unfold w4, m4. rewrite ymm_bits, zmm_bits, !bitof_test by lia.
  rewrite tst_mem by rg_. unfold answer.
  destruct (mem t tOSXSAVE); cbn [andb]; [|unfold at_; destruct (tFMA =? i), (tAVX =? i), (tAVX512F =? i), (tAVX512_FP16 =? i); reflexivity].
  destruct (Z.testbit (xfeature o) 1 && Z.testbit (xfeature o) 2); cbn [andb]; [|unfold at_; destruct (tFMA =? i), (tAVX =? i), (tAVX512F =? i), (tAVX512_FP16 =? i); reflexivity].
  cbv zeta.
  destruct (Z.testbit (xfeature o) 5 && Z.testbit (xfeature o) 6 && Z.testbit (xfeature o) 7); cbn [andb].
  2:{ rewrite !mem_add' by rg_. unfold at_.
      destruct (tFMA =? i), (tAVX =? i), (tAVX512F =? i), (tAVX512_FP16 =? i), (Z.testbit (ECX (cpuid o 1 0)) 12), (Z.testbit (ECX (cpuid o 1 0)) 28); reflexivity. }
  set (tt := add (Z.testbit (ECX (cpuid o 1 0)) 28) tAVX (add (Z.testbit (ECX (cpuid o 1 0)) 12) tFMA t)).
  assert (E : forall k, 0 <= k < 128 -> mem tt k = at_ tAVX k (Z.testbit (ECX (cpuid o 1 0)) 28) || (at_ tFMA k (Z.testbit (ECX (cpuid o 1 0)) 12) || mem t k)).
  { intros k K. unfold tt. rewrite !mem_add' by rg_. reflexivity. }
  clearbody tt.
  rewrite tst_mem, mem_add', E by rg_.
  change (at_ tAVX512F tAVX512F (Z.testbit (EBX (cpuid o 7 0)) 16)) with (Z.testbit (EBX (cpuid o 7 0)) 16).
  change (at_ tAVX tAVX512F (Z.testbit (ECX (cpuid o 1 0)) 28)) with false. change (at_ tFMA tAVX512F (Z.testbit (ECX (cpuid o 1 0)) 12)) with false. cbn [orb].
  destruct (Z.testbit (EBX (cpuid o 7 0)) 16 || mem t tAVX512F) eqn:F; cbn [andb].
  - rewrite s_avx512_l. cbv zeta. rewrite mem_add', tst_mem, !m_avx512, !mem_add', !E by rg_.
    rewrite bitof_test by lia.
    change (at_ tAVX512F tAVX512BW (Z.testbit (EBX (cpuid o 7 0)) 16)) with false. change (at_ tAVX tAVX512BW (Z.testbit (ECX (cpuid o 1 0)) 28)) with false.
    change (at_ tFMA tAVX512BW (Z.testbit (ECX (cpuid o 1 0)) 12)) with false. cbn [orb].
    generalize (hit (l_avx512 (cpuid o 7 0)) i) (hit (l_avx512 (cpuid o 7 0)) tAVX512BW). intros h1 h2.
    unfold at_. destruct (Z.eqb_spec tAVX512F i) as [<-|].
    + generalize dependent (mem t tAVX512F). intros b F.
      change (tAVX512_FP16 =? tAVX512F) with false. change (tAVX =? tAVX512F) with false. change (tFMA =? tAVX512F) with false. cbv iota. cbn [orb].
      destruct h1, b, (Z.testbit (EBX (cpuid o 7 0)) 16); try discriminate; reflexivity.
    + destruct h1, (mem t i), (tFMA =? i), (tAVX =? i), (tAVX512_FP16 =? i), (Z.testbit (ECX (cpuid o 1 0)) 12), (Z.testbit (ECX (cpuid o 1 0)) 28); cbn; rewrite ?orb_true_r, ?orb_false_r; reflexivity.
  - apply orb_false_iff in F as [F1 F2]. rewrite mem_add', E by rg_. rewrite F1. unfold at_.
    destruct (mem t i), (tFMA =? i), (tAVX =? i), (tAVX512F =? i), (tAVX512_FP16 =? i), (Z.testbit (ECX (cpuid o 1 0)) 12), (Z.testbit (ECX (cpuid o 1 0)) 28); reflexivity.
Qed.

Definition m5 (o : oracle) (m : Z -> bool) (i : Z) : bool :=
  let d := cpuid o 7 0 in
  let e := cpuid o 7 1 in
  if 7 <=? max_basic o then
    at_ tAVX2 i (m tAVX && Z.testbit (EBX d) 5) || hit (l_leaf7 d) i
    || (1 <=? EAX d) && (hit (l_leaf71a e) i || hit (l_leaf71b e) i || at_ tAVX512_BF16 i (m tAVX512F && Z.testbit (EAX e) 5)) || m i
  else m i.
Lemma w5_m o t i : 0 <= i < 128 -> mem (w5 o t) i = m5 o (mem t) i.
Proof.
  intros I. unfold w5, m5, max_basic, answer. destruct (7 <=? EAX _); [|reflexivity]. cbv zeta.
  rewrite s_leaf7_l, !bitof_test by lia.
  set (tt := addl (l_leaf7 (cpuid o 7 0)) _).
  assert (E : forall k, 0 <= k < 128 -> mem tt k = hit (l_leaf7 (cpuid o 7 0)) k || (at_ tAVX2 k (mem t tAVX && Z.testbit (EBX (cpuid o 7 0)) 5) || mem t k)).
  { intros k K. unfold tt. rewrite m_leaf7, mem_add', tst_mem by rg_. reflexivity. }
  clearbody tt. destruct (1 <=? EAX _); cbn [andb].
  - rewrite s_leaf71a_l, s_leaf71b_l.
    rewrite m_leaf71b, mem_if, mem_add', tst_mem, !m_leaf71a, !E by rg_.
    change (hit (l_leaf71a (cpuid o 7 1)) tAVX512F) with false. change (hit (l_leaf7 (cpuid o 7 0)) tAVX512F) with false.
    change (at_ tAVX2 tAVX512F (mem t tAVX && Z.testbit (EBX (cpuid o 7 0)) 5)) with false. cbn [orb].
    generalize (hit (l_leaf71a (cpuid o 7 1)) i) (hit (l_leaf71b (cpuid o 7 1)) i) (hit (l_leaf7 (cpuid o 7 0)) i). intros a b c.
    unfold at_. destruct (mem t i), a, b, c, (tAVX2 =? i), (tAVX512_BF16 =? i), (mem t tAVX && Z.testbit (EBX (cpuid o 7 0)) 5), (mem t tAVX512F), (Z.testbit (EAX (cpuid o 7 1)) 5); reflexivity.
  - rewrite E by rg_. generalize (hit (l_leaf7 (cpuid o 7 0)) i). intros c.
    destruct c, (at_ tAVX2 i (mem t tAVX && Z.testbit (EBX (cpuid o 7 0)) 5)), (mem t i); reflexivity.
Qed.
Definition m6 (o : oracle) (m : Z -> bool) (i : Z) : bool :=
  let d := cpuid o 0x19 0 in
  if 0x19 <=? max_basic o then
    at_ tAESKLE i (Z.testbit (EBX d) 0) || at_ tWIDE_KL i (Z.testbit (EBX d) 2)
    || at_ tKEYLOCKER_WIDE i (Z.testbit (EBX d) 0 || Z.testbit (EBX d) 2 || m tKEYLOCKER || m tAESKLE || m tWIDE_KL) || m i
  else m i.
Lemma bool_and3 t a b c : 0 <= a < 128 -> 0 <= b < 128 -> 0 <= c < 128 ->
  ty_bool (ty_and t (ty_or (ty_or (ty a) (ty b)) (ty c))) = mem t a || mem t b || mem t c.
Proof.
  assert (Q : forall u v, negb ((u ||| v) =? 0) = negb (u =? 0) || negb (v =? 0)).
  { intros u v. destruct (Z.eqb_spec (u ||| v) 0) as [E|E]; [apply Z.lor_eq_0_iff in E as [-> ->]; reflexivity|].
    destruct (Z.eqb_spec u 0), (Z.eqb_spec v 0); subst; cbn; try reflexivity; exfalso; apply E; reflexivity. }
  intros. rewrite <- !tst_mem by auto. unfold tst, ty_bool, ty_and, ty_or. cbn [t_L t_H]. rewrite !Z.land_lor_distr_r, !Q. btauto.
Qed.
Lemma w6_m o t i : 0 <= i < 128 -> mem (w6 o t) i = m6 o (mem t) i.
Proof.
  intros I. unfold w6, m6, max_basic, answer. destruct (0x19 <=? EAX _); [|reflexivity]. cbv zeta. rewrite !bitof_test by lia.
  rewrite mem_add', bool_and3 by rg_. repeat rewrite mem_add' by rg_.
  change (at_ tAESKLE tKEYLOCKER (Z.testbit (EBX (cpuid o 25 0)) 0)) with false. change (at_ tWIDE_KL tKEYLOCKER (Z.testbit (EBX (cpuid o 25 0)) 2)) with false.
  change (at_ tAESKLE tAESKLE (Z.testbit (EBX (cpuid o 25 0)) 0)) with (Z.testbit (EBX (cpuid o 25 0)) 0). change (at_ tWIDE_KL tAESKLE (Z.testbit (EBX (cpuid o 25 0)) 2)) with false.
  change (at_ tAESKLE tWIDE_KL (Z.testbit (EBX (cpuid o 25 0)) 0)) with false. change (at_ tWIDE_KL tWIDE_KL (Z.testbit (EBX (cpuid o 25 0)) 2)) with (Z.testbit (EBX (cpuid o 25 0)) 2).
  unfold at_. destruct (tKEYLOCKER_WIDE =? i), (tAESKLE =? i), (tWIDE_KL =? i); btauto.
Qed.
Definition m_leaf1' (o : oracle) (m : Z -> bool) (i : Z) : bool := hit (l_leaf1 (cpuid o 1 0)) i || m i.
Definition mm (o : oracle) (i : Z) : bool := m6 o (m5 o (m4 o (m_leaf1' o (m3 o (m2 o (m1 o)))))) i.
Definition range (m m' : Z -> bool) : Prop := forall i, 0 <= i < 128 -> m i = m' i.
Lemma r2 o m m' : range m m' -> range (m2 o m) (m2 o m').
Proof. intros R i I. unfold m2. rewrite R; auto. Qed.
Lemma r3 o m m' : range m m' -> range (m3 o m) (m3 o m').
Proof. intros R i I. unfold m3. rewrite R; auto. Qed.
Lemma rl o m m' : range m m' -> range (m_leaf1' o m) (m_leaf1' o m').
Proof. intros R i I. unfold m_leaf1'. rewrite R; auto. Qed.
Lemma r4 o m m' : range m m' -> range (m4 o m) (m4 o m').
Proof. intros R i I. unfold m4. rewrite (R i), (R tOSXSAVE), (R tAVX512F), (R tAVX512BW) by rg_. reflexivity. Qed.
Lemma r5 o m m' : range m m' -> range (m5 o m) (m5 o m').
Proof. intros R i I. unfold m5. rewrite (R i), (R tAVX), (R tAVX512F) by rg_. reflexivity. Qed.
Lemma r6 o m m' : range m m' -> range (m6 o m) (m6 o m').
Proof. intros R i I. unfold m6. rewrite (R i), (R tKEYLOCKER), (R tAESKLE), (R tWIDE_KL) by rg_. reflexivity. Qed.
Lemma rt m m' m'' : range m m' -> range m' m'' -> range m m''.
Proof. intros A B i I. rewrite A, B; auto. Qed.
Lemma has_mm o i : 0 <= i < 128 -> cpu_has (cpu_type o) (ty i) = mm o i.
Proof.
  revert i. intros i I. rewrite has_mem, cpu_type_parts by auto. revert i I.
  change (range (mem (w6 o (w5 o (w4 o (s_leaf1 (cpuid o 1 0) (w3 o (w2 o (w1 o)))))))) (mm o)).
  eapply rt; [intros i I; apply w6_m; auto|]. apply r6.
  eapply rt; [intros i I; apply w5_m; auto|]. apply r5.
  eapply rt; [intros i I; apply w4_m; auto|]. apply r4.
  eapply rt; [intros i I; rewrite s_leaf1_l; apply m_leaf1; auto|]. apply rl.
  eapply rt; [intros i I; apply w3_m; auto|]. apply r3.
  eapply rt; [intros i I; apply w2_m; auto|]. apply r2.
  intros i I. apply w1_m; auto.
Qed.

(* the rows *)
Definition reported (o : oracle) (i : Z) : bool := cpu_has (cpu_type o) (ty i).
Definition row_ok (o : oracle) (r : Z * (oracle -> bool)) : Prop := reported o (fst r) = snd r o.
Ltac rows := repeat match goal with |- Forall _ (_ :: _) => apply Forall_cons | |- Forall _ [] => apply Forall_nil end.
Ltac bits := repeat match goal with |- context [bitof ?x ?n] => rewrite (bitof_test x n) by lia end.
Lemma flag7 o r n : flag o 7 0 r n = (7 <=? max_basic o) && Z.testbit (answer o 7 0 r) n.
Proof. unfold flag, leaf_ok. cbn -[Z.leb Z.testbit max_basic answer]. change (7 <=? 1) with false. cbn [orb]. rewrite andb_true_r. reflexivity. Qed.
Lemma flag71 o r n : flag o 7 1 r n = (7 <=? max_basic o) && (1 <=? answer o 7 0 A) && Z.testbit (answer o 7 1 r) n.
Proof. reflexivity. Qed.
Lemma flag1 o r n : flag o 1 0 r n = Z.testbit (answer o 1 0 r) n.
Proof. reflexivity. Qed.
Lemma flagx o r n : flag o 0x80000001 0 r n = (0x80000001 <=? max_ext o) && Z.testbit (answer o 0x80000001 0 r) n.
Proof. reflexivity. Qed.
Lemma flag19 o r n : flag o 0x19 0 r n = (0x19 <=? max_basic o) && Z.testbit (answer o 0x19 0 r) n.
Proof. unfold flag, leaf_ok. cbn -[Z.leb Z.testbit max_basic answer]. change (0x19 <=? 1) with false. cbn [orb]. rewrite andb_true_r. reflexivity. Qed.
(* bit i of the word, computed for a numeral i *)
Ltac word := rewrite has_mm by rg_; cbv [mm m6 m5 m4 m_leaf1' m3 m2 m1 at_ l_ext1 l_leaf1 l_avx512 l_leaf7 l_leaf71a l_leaf71b hit fold_right fst snd Z.eqb Pos.eqb orb andb tMMX tMMX2 tCMOV tSSE tSSE2 tSSE3 tSSSE3 tSSE41 tSSE42 tPOPCNT tAESNI tAVX512_FP16 tOSXSAVE tPCLMULQDQ tAVX tFMA t3DN tE3DN tWAITPKG tRDTSCP tAVX2 tBMI1 tBMI2 tLZCNT tINTEL tAMD tENHANCED_REP tRDRAND tADX tRDSEED tSMAP tHLE tRTM tF16C tMOVBE tAVX512F tAVX512DQ tAVX512_IFMA tAVX512IFMA tAVX512PF tAVX512ER tAVX512CD tAVX512BW tAVX512VL tAVX512_VBMI tAVX512VBMI tAVX512_4VNNIW tAVX512_4FMAPS tPREFETCHWT1 tPREFETCHW tSHA tMPX tAVX512_VBMI2 tGFNI tVAES tVPCLMULQDQ tAVX512_VNNI tAVX512_BITALG tAVX512_VPOPCNTDQ tAVX512_BF16 tAVX512_VP2INTERSECT tAMX_TILE tAMX_INT8 tAMX_BF16 tAVX_VNNI tCLFLUSHOPT tCLDEMOTE tMOVDIRI tMOVDIR64B tCLZERO tAMX_FP16 tAVX_VNNI_INT8 tAVX_NE_CONVERT tAVX_IFMA tRAO_INT tCMPCCXADD tPREFETCHITI tSERIALIZE tUINTR tXSAVE tSHA512 tSM3 tSM4 tAVX_VNNI_INT16 tAPX_F tAVX10 tAESKLE tWIDE_KL tKEYLOCKER tKEYLOCKER_WIDE tSSE4a tCLWB tTSXLDTRK]; bits.
Ltac spec_ := cbv [avx512 avx512f avx os_zmm os_ymm xcr0 f7 f71 fx1]; rewrite ?flag7, ?flag71, ?flag1, ?flagx, ?flag19; cbv [answer andb orb negb].
Ltac cases := repeat (try reflexivity; match goal with |- context [if ?c then _ else _] =>
  match c with context [if _ then _ else _] => fail 1 | _ => destruct c; cbv iota end end).
Ltac row := unfold row_ok, reported; cbn [fst snd]; word; spec_; cases.
Lemma plain_ok o : Forall (row_ok o) plain_rows.
Proof. unfold plain_rows. rows; row. Qed.
Lemma ymm_ok o : Forall (row_ok o) ymm_rows.
Proof. unfold ymm_rows. rows; row. Qed.
Lemma ext_ok o : 0x80000001 <= max_ext o -> Forall (row_ok o) ext_rows.
Proof.
  intros H. assert (E : (0x80000001 <=? max_ext o) = true) by lia.
  unfold ext_rows. rows; unfold row_ok, reported; cbn [fst snd]; word; spec_; rewrite E; cases.
Qed.
Lemma zmm_ok o : 7 <= max_basic o -> Forall (row_ok o) zmm_rows.
Proof.
  intros H. assert (E : (7 <=? max_basic o) = true) by lia.
  unfold zmm_rows. rows; unfold row_ok, reported; cbn [fst snd]; word; spec_; rewrite E; cases.
Qed.
Lemma vex_flag_ok o : Forall (fun r => row_ok o (fst r)) vex_rows.
Proof. unfold vex_rows. rows; unfold row_ok, reported; cbn [fst snd]; word; spec_; cases. Qed.
Lemma row_state (st : oracle -> bool) o rows : Forall (row_ok o) rows ->
  forallb (fun r => implb (snd r o) (st o)) rows = true -> Forall (fun r => reported o (fst r) = true -> st o = true) rows.
Proof.
  intros F G. rewrite forallb_forall in G. rewrite Forall_forall in *. intros r H R. specialize (F r H). specialize (G r H). unfold row_ok in F.
  rewrite <- F, R in G. exact G.
Qed.
Lemma ymm_state o : Forall (fun r => reported o (fst r) = true -> os_ymm o = true) ymm_rows.
Proof.
  apply row_state; [apply ymm_ok|]. unfold ymm_rows. cbn [forallb snd]. cbv [avx f7].
  destruct (os_ymm o); cbv [andb implb]; cases.
Qed.
Lemma zmm_state o : Forall (fun r => reported o (fst r) = true -> os_zmm o = true) zmm_rows.
Proof.
  unfold zmm_rows. rows; unfold reported; cbn [fst snd]; word; cbv [os_zmm os_ymm xcr0]; rewrite !flag1; cbv [answer]; intros H;
    repeat match type of H with context [if ?c then _ else _] =>
      match c with context [if _ then _ else _] => fail 1 | _ => destruct c; cbv iota in H end end; try discriminate H; reflexivity.
Qed.
Lemma version_ok o : avx10_version o < 128 -> avx10version o = avx10_version o.
Proof.
  assert (E : reported o tAVX10 = f71 o D 19).
  { pose proof (vex_flag_ok o) as H. rewrite Forall_forall in H. specialize (H (tAVX10, (fun o => f71 o D 19), os_zmm)). cbn [fst] in H. apply H. unfold vex_rows. cbn. tauto. }
  unfold avx10version, avx10_version. fold (reported o tAVX10). rewrite E. unfold leaf_ok. change (0x80000000 <=? 0x24) with false. change (0x24 <=? 1) with false.
  cbn [orb]. change (0 =? 0) with true. cbn [orb]. rewrite andb_true_r. unfold max_basic. fold (answer o 0 0 A). change (EAX (cpuid o 0 0)) with (answer o 0 0 A).
  destruct (f71 o D 19); cbn [andb]; [|reflexivity]. destruct (36 <=? answer o 0 0 A); [|reflexivity].
  intros H. change 127 with (Z.ones 7). rewrite Z.land_ones by lia. change (EBX (cpuid o 36 0)) with (answer o 36 0 B).
  change (2 ^ 7) with 128. generalize dependent (answer o 36 0 B). intros x H. rewrite <- (Z.mod_small (x mod 256) 128).
  2:{ split; [apply Z.mod_pos_bound; lia|exact H]. }
  apply Znumtheory.Zmod_div_mod; try lia. exists 2. reflexivity.
Qed.
Lemma sets_ok a b i : 0 <= i < 128 ->
  cpu_has (ty_or a b) (ty i) = cpu_has a (ty i) || cpu_has b (ty i) /\ cpu_has (ty_and a b) (ty i) = cpu_has a (ty i) && cpu_has b (ty i).
Proof. intros I. rewrite !has_mem by auto. split; [apply mem_or|apply mem_and]. Qed.
Lemma feature_rows o : Forall (row_ok o) (plain_rows ++ ymm_rows).
Proof. apply Forall_app. split; [apply plain_ok|apply ymm_ok]. Qed.
Lemma os_state o : Forall (fun r => reported o (fst r) = true -> os_ymm o = true) ymm_rows
  /\ Forall (fun r => reported o (fst r) = true -> os_zmm o = true) zmm_rows.
Proof. split; [apply ymm_state|apply zmm_state]. Qed.
