(* Lists of methods for the size checks. *)
From Coq Require Import ZArith List Bool Lia.
From Verif Require Import Base Types Emit EmitFacts LegacyFacts Encode Mnemonic MnemonicOmit SpecLen SpecSize SizeFacts.
Import ListNotations.
Open Scope Z_scope.

(* method(op1, op2) *)
Definition sized_oo : list (Operand -> Operand -> E unit) :=
  [i_adc_oo; i_add_oo; i_and__oo; i_cmp_oo; i_or__oo; i_sbb_oo; i_sub_oo; i_xor__oo].
(* method(op, reg) or method(reg, op) *)
Definition sized_ro : list (Reg -> Operand -> E unit) :=
  [(fun r o => test_ o r); (fun r o => i_xadd o r); (fun r o => i_cmpxchg o r);
   (fun r o => i_bt_or o r); (fun r o => i_btc_or o r); (fun r o => i_btr_or o r); (fun r o => i_bts_or o r);
   i_bsf; i_bsr; i_popcnt; i_imul_ro; i_lzcnt; i_tzcnt;
   i_cmova_ro; i_cmovae_ro; i_cmovb_ro; i_cmovbe_ro; i_cmovc_ro; i_cmove_ro; i_cmovg_ro; i_cmovge_ro; i_cmovl_ro; i_cmovle_ro; i_cmovna_ro; i_cmovnae_ro; i_cmovnb_ro; i_cmovnbe_ro; i_cmovnc_ro; i_cmovne_ro; i_cmovng_ro; i_cmovnge_ro; i_cmovnl_ro; i_cmovnle_ro; i_cmovno_ro; i_cmovnp_ro; i_cmovns_ro; i_cmovnz_ro; i_cmovo_ro; i_cmovp_ro; i_cmovpe_ro; i_cmovpo_ro; i_cmovs_ro; i_cmovz_ro].
(* method(op, reg, imm or cl) *)
Definition sized_shxd (imm : Z) (cl : Reg) : list (Reg -> Operand -> E unit) :=
  [(fun r o => i_shld_orb o r cl); (fun r o => i_shrd_orb o r cl); (fun r o => i_shld_ori o r imm); (fun r o => i_shrd_ori o r imm)].
(* method(reg, reg, reg) *)
Definition sized_rrr : list (Reg -> Reg -> Reg -> E unit) :=
  [(fun a b c => i_andn a b (OReg c)); (fun a b c => i_mulx a b (OReg c)); (fun a b c => i_pdep a b (OReg c)); (fun a b c => i_pext a b (OReg c));
   (fun a b c => i_bextr a (OReg c) b); (fun a b c => i_bzhi a (OReg c) b); (fun a b c => i_sarx a (OReg c) b); (fun a b c => i_shlx a (OReg c) b); (fun a b c => i_shrx a (OReg c) b)].
(* no register: a memory operand without a size is rejected *)
Definition needs_size (imm : Z) : list (Operand -> E unit) :=
  map (fun f o => f o imm) [i_adc_oi; i_add_oi; i_and__oi; i_cmp_oi; i_or__oi; i_sbb_oi; i_sub_oi; i_xor__oi;
     i_rcl_oi; i_rcr_oi; i_rol_oi; i_ror_oi; i_sal_oi; i_sar_oi; i_shl_oi; i_shr_oi; test_imm; mov_oi] ++ [i_inc_o; i_dec_o].

Ltac each H := repeat (destruct H as [<-|H]; [|]); [..|destruct H].
Lemma sized_oo_ok f o1 o2 : In f sized_oo -> narrow o1 -> narrow o2 -> checks_sizes [o1; o2] (f o1 o2).
Proof. intros H H1 H2. apply pairs2. unfold sized_oo in H. each H; now apply G_opRO_MR. Qed.
Lemma mov_oo_ok o1 o2 : narrow o1 -> narrow o2 -> (forall a, In (OMem a) [o1; o2] -> is64bitDisp a = false) -> checks_sizes [o1; o2] (mov_oo o1 o2).
Proof.
  intros H1 H2 HD. apply pairs2. unfold mov_oo. apply G_fn. cbv zeta.
  destruct o1 as [r1|a1], o2 as [r2|a2]; try (now apply G_opRO_MR); destruct (_ && _); try (now apply G_opRO_MR).
  all: rewrite HD; [now apply G_opRO_MR|cbn; tauto].
Qed.
Lemma G_opCnt r o c : narrow (OReg r) -> G (OReg r) o (opCnt r o c).
Proof. intros H. unfold opCnt. apply G_fn. destruct (isBit r 8); [apply G_throw|]. cbv zeta. destruct (_ && _); [apply G_throw|]. now apply G_opRO. Qed.
Lemma sized_ro_ok f r o : In f sized_ro -> narrow (OReg r) -> plain (OReg r) -> plain o -> checks_sizes [OReg r; o] (f r o).
Proof.
  intros H Hn P1 P2. apply pairs2. unfold sized_ro in H. each H; try (now apply G_opRO); try (now apply G_opCnt).
  all: apply G_undone; try reflexivity; auto; first [now apply G_opRO | now apply G_opCnt].
Qed.
Lemma G_opShxd o r i c c2 cl : narrow (OReg r) -> plain (OReg r) -> plain o -> G (OReg r) o (opShxd noReg o r i c c2 cl).
Proof.
  intros Hn P1 P2. unfold opShxd. apply G_fn. destruct (match cl with Some _ => _ | _ => _ end); [apply G_throw|]. destruct (negb _); [apply G_throw|]. cbv zeta.
  apply G_undone; try reflexivity; auto. cbn [negb]. apply G_l. now apply G_opRO.
Qed.
Lemma sized_shxd_ok f r o imm cl : In f (sized_shxd imm cl) -> narrow (OReg r) -> plain (OReg r) -> plain o -> checks_sizes [OReg r; o] (f r o).
Proof. intros H Hn P1 P2. apply pairs2. unfold sized_shxd in H. each H; now apply G_opShxd. Qed.
Lemma sized_rrr_ok f a b c : In f sized_rrr -> checks_sizes [OReg a; OReg b; OReg c] (f a b c).
Proof. intros H. unfold sized_rrr in H. each H; apply S_opRRO. Qed.

Lemma unsized_verify o : unsized o -> forall env pos its u, ~ emits (verifyMemHasSize o) env pos its u.
Proof.
  intros [H1 H2] env pos its u J. unfold verifyMemHasSize, ogetBit in J. rewrite H1, H2 in J. apply emits_fn in J.
  cbn [andb Z.eqb] in J. destruct (emits_throw _ _ _ _ _ J).
Qed.
Lemma rejects_bind {A} (m : E A) (f : A -> E unit) : (forall env pos its u, ~ emits m env pos its u) -> rejects (bind m f).
Proof. intros H env pos its u J. ebind J i1 i2 v J1 J2. exact (H _ _ _ _ J1). Qed.
Lemma rejects_fn m : rejects m -> rejects (fn tt m).
Proof. intros H env pos its u J. apply emits_fn in J. exact (H _ _ _ _ J). Qed.
Lemma unsized_imm o i : unsized o -> forall env pos its u, ~ emits (getImmBit o i) env pos its u.
Proof.
  intros H env pos its u J. unfold getImmBit in J. apply emits_fn in J. ebind J i1 i2 v J1 J2. exact (unsized_verify _ H _ _ _ _ J1).
Qed.
Lemma needs_size_ok f o imm : In f (needs_size imm) -> unsized o -> rejects (f o).
Proof.
  intros H Ho. unfold needs_size in H. cbn [map app] in H. each H.
  1-8: apply rejects_bind, unsized_imm, Ho.
  1-8: apply rejects_fn, rejects_bind, unsized_verify, Ho.
  - apply rejects_bind, unsized_verify, Ho.
  - unfold mov_oi. apply rejects_fn. destruct o as [r|a]; [destruct Ho as [Ho _]; discriminate Ho|]. apply rejects_bind, unsized_verify, Ho.
  - apply rejects_bind, unsized_verify, Ho.
  - apply rejects_bind, unsized_verify, Ho.
Qed.

(* ---- accepted although the sizes differ, or without a size ---- *)
Definition env0 := mkEnv false 0x1000 false false DefaultEncoding DefaultEncoding.
Definition mem (bit : Z) : Operand := OMem (address0 bit false (mkRegExp (Reg64 1) noReg 0 0)).
Definition moffs (bit : Z) : Operand := OMem (mkAddr (regOf 0 MEM bit false) (regExpDisp 0x1122334455667788) None M_64bitDisp 0 0 false false true).
Definition accepted (m : E unit) : bool := match m env0 0 with (_, Ok tt) => true | _ => false end.
Definition mismatched : list (list Operand * E unit) :=
  let al := OReg (Reg8 0) in let cl := OReg (Reg8 1) in let eax := OReg (Reg32 0) in let ecx := OReg (Reg32 1) in let rdx := OReg (Reg64 2) in
  [([eax; cl], xchg eax cl); ([OReg (Reg64 0); ecx], xchg (OReg (Reg64 0)) ecx);
   ([eax; moffs 8], mov_oo eax (moffs 8)); ([moffs 64; al], mov_oo (moffs 64) al);
   ([eax; cl; rdx], i_add_roo (Reg32 0) cl rdx); ([eax; cl; rdx], i_adc_roo (Reg32 0) cl rdx); ([eax; cl; rdx], i_and__roo (Reg32 0) cl rdx);
   ([eax; cl; rdx], i_or__roo (Reg32 0) cl rdx); ([eax; cl; rdx], i_sbb_roo (Reg32 0) cl rdx); ([eax; cl; rdx], i_sub_roo (Reg32 0) cl rdx);
   ([eax; cl; rdx], i_xor__roo (Reg32 0) cl rdx); ([eax; cl], i_add_roi (Reg32 0) cl 1); ([eax; cl; rdx], i_imul_rro (Reg32 0) (Reg64 2) cl);
   ([eax; cl], i_not__ro (Reg32 0) cl); ([eax; cl], i_neg_ro (Reg32 0) cl); ([eax; cl], i_inc_ro (Reg32 0) cl); ([eax; cl], i_dec_ro (Reg32 0) cl);
   ([eax; OReg (Reg16 16)], i_imul_ro (Reg32 0) (OReg (Reg16 16))); ([rdx; ecx], i_ccmpa_ooi rdx ecx 0); ([rdx; ecx], i_ctesta_ori rdx (Reg32 1) 0);
   ([eax; mem 64], i_andn (Reg32 0) (Reg32 1) (mem 64))].
Definition guessed : list (E unit) :=
  map (fun f => f (mem 0)) [i_mul; i_imul_o; i_div; i_idiv; i_neg_o; i_not__o] ++
  map (fun f => f (mem 0) (Reg8 1)) [i_rcl_ob; i_rcr_ob; i_rol_ob; i_ror_ob; i_sal_ob; i_sar_ob; i_shl_ob; i_shr_ob] ++
  map (fun f => f (mem 0) 3) [i_bt_oi; i_btc_oi; i_btr_oi; i_bts_oi] ++ [i_movzx (Reg32 0) (mem 0); i_movsx (Reg32 0) (mem 0)].
Definition some_disagree (ops : list Operand) : bool :=
  existsb (fun x => existsb (fun y => match gp_size x, gp_size y with Some a, Some b => negb (a =? b) | _, _ => false end) ops) ops.
Lemma mismatched_b : forallb (fun p => some_disagree (fst p) && accepted (snd p)) mismatched = true.
Proof. vm_compute. reflexivity. Qed.
Lemma guessed_b : forallb accepted guessed = true.
Proof. vm_compute. reflexivity. Qed.
Lemma accepted_emits m : accepted m = true -> exists its, emits m env0 0 its tt.
Proof.
  unfold accepted. intros H. destruct (m env0 0) as [its [[]|e]] eqn:J; [|discriminate]. exists its. split; [reflexivity|exact J].
Qed.
Lemma mismatched_ok ops m : In (ops, m) mismatched -> ~ checks_sizes ops m.
Proof.
  intros H K. pose proof mismatched_b as W. rewrite forallb_forall in W. specialize (W _ H). cbn [fst snd] in W. apply andb_true_iff in W as [D W].
  destruct (accepted_emits _ W) as [its J]. unfold some_disagree in D. apply existsb_exists in D as (x & Hx & D). apply existsb_exists in D as (y & Hy & D).
  specialize (K _ _ _ _ J x y Hx Hy). unfold agree in K. destruct (gp_size x), (gp_size y); try discriminate. specialize (K _ _ eq_refl eq_refl). subst. rewrite Z.eqb_refl in D. discriminate D.
Qed.
Lemma guessed_ok m : In m guessed -> ~ rejects m.
Proof.
  intros H K. pose proof guessed_b as W. rewrite forallb_forall in W. destruct (accepted_emits _ (W _ H)) as [its J]. exact (K _ _ _ _ J).
Qed.
