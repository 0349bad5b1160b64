(* The methods of Sim32Tables.v: what they emit begins alike in 32-bit and in 64-bit mode.  Produced by tools/starttab.py. *)
From Coq Require Import ZArith List Bool String Lia.
From Verif Require Import Base Types Emit Encode Encode32 Mnemonic32 MnemonicAvx32 MnemonicOmit32 Spec32 SpecB32 SpecStart32 Sim32Tables Start32 Start32b Start32c.
Import ListNotations.
Open Scope Z_scope. Open Scope string_scope.

Definition apx_methods : list string :=
  ["adc_roi"; "adc_roo"; "adcx_eeo"; "add_roi"; "add_roo"; "adox_eeo"; "and__roi"; "and__roo"; "ccmpa_oii"; "ccmpa_ooi"; "ccmpae_oii"; "ccmpae_ooi"; "ccmpb_oii"; "ccmpb_ooi"; "ccmpbe_oii"; "ccmpbe_ooi"; "ccmpc_oii"; "ccmpc_ooi"; "ccmpe_oii"; "ccmpe_ooi"; "ccmpf_oii"; "ccmpf_ooi"; "ccmpg_oii"; "ccmpg_ooi"; "ccmpge_oii"; "ccmpge_ooi"; "ccmpl_oii"; "ccmpl_ooi"; "ccmple_oii"; "ccmple_ooi"; "ccmpna_oii"; "ccmpna_ooi"; "ccmpnae_oii"; "ccmpnae_ooi"; "ccmpnb_oii"; "ccmpnb_ooi"; "ccmpnbe_oii"; "ccmpnbe_ooi"; "ccmpnc_oii"; "ccmpnc_ooi"; "ccmpne_oii"; "ccmpne_ooi"; "ccmpng_oii"; "ccmpng_ooi"; "ccmpnge_oii"; "ccmpnge_ooi"; "ccmpnl_oii"; "ccmpnl_ooi"; "ccmpnle_oii"; "ccmpnle_ooi"; "ccmpno_oii"; "ccmpno_ooi"; "ccmpns_oii"; "ccmpns_ooi"; "ccmpnz_oii"; "ccmpnz_ooi"; "ccmpo_oii"; "ccmpo_ooi"; "ccmps_oii"; "ccmps_ooi"; "ccmpt_oii"; "ccmpt_ooi"; "ccmpz_oii"; "ccmpz_ooi"; "cfcmovb_oo"; "cfcmovb_rro"; "cfcmovbe_oo"; "cfcmovbe_rro"; "cfcmovl_oo"; "cfcmovl_rro"; "cfcmovle_oo"; "cfcmovle_rro"; "cfcmovnb_oo"; "cfcmovnb_rro"; "cfcmovnbe_oo"; "cfcmovnbe_rro"; "cfcmovnl_oo"; "cfcmovnl_rro"; "cfcmovnle_oo"; "cfcmovnle_rro"; "cfcmovno_oo"; "cfcmovno_rro"; "cfcmovnp_oo"; "cfcmovnp_rro"; "cfcmovns_oo"; "cfcmovns_rro"; "cfcmovnz_oo"; "cfcmovnz_rro"; "cfcmovo_oo"; "cfcmovo_rro"; "cfcmovp_oo"; "cfcmovp_rro"; "cfcmovs_oo"; "cfcmovs_rro"; "cfcmovz_oo"; "cfcmovz_rro"; "cmova_rro"; "cmovae_rro"; "cmovb_rro"; "cmovbe_rro"; "cmovc_rro"; "cmove_rro"; "cmovg_rro"; "cmovge_rro"; "cmovl_rro"; "cmovle_rro"; "cmovna_rro"; "cmovnae_rro"; "cmovnb_rro"; "cmovnbe_rro"; "cmovnc_rro"; "cmovne_rro"; "cmovng_rro"; "cmovnge_rro"; "cmovnl_rro"; "cmovnle_rro"; "cmovno_rro"; "cmovnp_rro"; "cmovns_rro"; "cmovnz_rro"; "cmovo_rro"; "cmovp_rro"; "cmovpe_rro"; "cmovpo_rro"; "cmovs_rro"; "cmovz_rro"; "ctesta_ori"; "ctesta_oii"; "ctestae_ori"; "ctestae_oii"; "ctestb_ori"; "ctestb_oii"; "ctestbe_ori"; "ctestbe_oii"; "ctestc_ori"; "ctestc_oii"; "cteste_ori"; "cteste_oii"; "ctestf_ori"; "ctestf_oii"; "ctestg_ori"; "ctestg_oii"; "ctestge_ori"; "ctestge_oii"; "ctestl_ori"; "ctestl_oii"; "ctestle_ori"; "ctestle_oii"; "ctestna_ori"; "ctestna_oii"; "ctestnae_ori"; "ctestnae_oii"; "ctestnb_ori"; "ctestnb_oii"; "ctestnbe_ori"; "ctestnbe_oii"; "ctestnc_ori"; "ctestnc_oii"; "ctestne_ori"; "ctestne_oii"; "ctestng_ori"; "ctestng_oii"; "ctestnge_ori"; "ctestnge_oii"; "ctestnl_ori"; "ctestnl_oii"; "ctestnle_ori"; "ctestnle_oii"; "ctestno_ori"; "ctestno_oii"; "ctestns_ori"; "ctestns_oii"; "ctestnz_ori"; "ctestnz_oii"; "ctesto_ori"; "ctesto_oii"; "ctests_ori"; "ctests_oii"; "ctestt_ori"; "ctestt_oii"; "ctestz_ori"; "ctestz_oii"; "imul_rro"; "neg_ro"; "not__ro"; "or__roi"; "or__roo"; "rcl_rob"; "rcl_roi"; "rcr_rob"; "rcr_roi"; "rol_rob"; "rol_roi"; "ror_rob"; "ror_roi"; "sal_rob"; "sal_roi"; "sar_rob"; "sar_roi"; "sbb_roi"; "sbb_roo"; "shl_rob"; "shl_roi"; "shld_rorb"; "shld_rori"; "shr_rob"; "shr_roi"; "shrd_rorb"; "shrd_rori"; "sub_roi"; "sub_roo"; "xor__roi"; "xor__roo"].
Definition small_methods : list string :=
  ["adc_oi"; "add_oi"; "and__oi"; "bt_oi"; "btc_oi"; "btr_oi"; "bts_oi"; "cmp_oi"; "div"; "idiv"; "imul_o"; "mul"; "neg_o"; "not__o"; "or__oi"; "rcl_ob"; "rcl_oi"; "rcr_ob"; "rcr_oi"; "rol_ob"; "rol_oi"; "ror_ob"; "ror_oi"; "sal_ob"; "sal_oi"; "sar_ob"; "sar_oi"; "sbb_oi"; "seta"; "setae"; "setb"; "setbe"; "setc"; "sete"; "setg"; "setge"; "setl"; "setle"; "setna"; "setnae"; "setnb"; "setnbe"; "setnc"; "setne"; "setng"; "setnge"; "setnl"; "setnle"; "setno"; "setnp"; "setns"; "setnz"; "seto"; "setp"; "setpe"; "setpo"; "sets"; "setz"; "shl_ob"; "shl_oi"; "shr_ob"; "shr_oi"; "sub_oi"; "xor__oi"; "and_oi"; "or_oi"; "xor_oi"; "not"; "test_imm"; "mov_oi"; "bndcl"; "bndcn"; "bndcu"; "rdrand"; "rdseed"].
Definition entry_a := entry_alike apx_methods small_methods.
Ltac xrow := apply Forall_cons; [let H := fresh in intros H; discriminate H|].
Ltac arow := apply Forall_cons; [apply start_row; intros o a r n e s Ho Ha Hr; cbn [b_call32 ar_o ar_a ar_r ar_n ar_e ar_s]|].
Ltac srow := apply Forall_cons; [apply small_row; [reflexivity|]; intros o a r n e s Ho Ha Hr Hq Hw; cbn [b_call32 ar_o ar_a ar_r ar_n ar_e ar_s]|].

Lemma start0 : Forall entry_a sims0.
Proof. unfold sims0.
arow. { unfold Mnemonic32.i_aadd. ss. }
arow. { unfold Mnemonic32.i_aand. ss. }
srow. { unfold Mnemonic32.i_adc_oi. ss. }
arow. { unfold Mnemonic32.i_adc_oo. ss. }
xrow.
xrow.
xrow.
arow. { unfold Mnemonic32.i_adcx_eo. ss. }
srow. { unfold Mnemonic32.i_add_oi. ss. }
arow. { unfold Mnemonic32.i_add_oo. ss. }
xrow.
xrow.
arow. { unfold Mnemonic32.i_addpd. ss. }
arow. { unfold Mnemonic32.i_addps. ss. }
arow. { unfold Mnemonic32.i_addsd. ss. }
arow. { unfold Mnemonic32.i_addss. ss. }
arow. { unfold Mnemonic32.i_addsubpd. ss. }
arow. { unfold Mnemonic32.i_addsubps. ss. }
xrow.
arow. { unfold Mnemonic32.i_adox_eo. ss. }
arow. { unfold Mnemonic32.i_aesdec. ss. }
arow. { unfold Mnemonic32.i_aesdeclast. ss. }
arow. { unfold Mnemonic32.i_aesenc. ss. }
arow. { unfold Mnemonic32.i_aesenclast. ss. }
arow. { unfold Mnemonic32.i_aesimc. ss. }
apply Forall_nil. Qed.
Lemma start1 : Forall entry_a sims1.
Proof. unfold sims1.
arow. { unfold Mnemonic32.i_aeskeygenassist. ss. }
srow. { unfold Mnemonic32.i_and__oi. ss. }
arow. { unfold Mnemonic32.i_and__oo. ss. }
xrow.
xrow.
arow. { unfold Mnemonic32.i_andn. ss. }
arow. { unfold Mnemonic32.i_andnpd. ss. }
arow. { unfold Mnemonic32.i_andnps. ss. }
arow. { unfold Mnemonic32.i_andpd. ss. }
arow. { unfold Mnemonic32.i_andps. ss. }
arow. { unfold Mnemonic32.i_aor. ss. }
arow. { unfold Mnemonic32.i_axor. ss. }
arow. { unfold Mnemonic32.i_bextr. ss. }
arow. { unfold Mnemonic32.i_blendpd. ss. }
arow. { unfold Mnemonic32.i_blendps. ss. }
arow. { unfold Mnemonic32.i_blendvpd. ss. }
arow. { unfold Mnemonic32.i_blendvps. ss. }
arow. { unfold Mnemonic32.i_blsi. ss. }
arow. { unfold Mnemonic32.i_blsmsk. ss. }
arow. { unfold Mnemonic32.i_blsr. ss. }
srow. { unfold Mnemonic32.i_bndcl. ss. }
srow. { unfold Mnemonic32.i_bndcn. ss. }
srow. { unfold Mnemonic32.i_bndcu. ss. }
arow. { unfold Mnemonic32.i_bndmk. ss. }
arow. { unfold Mnemonic32.i_bndmov_an. ss. }
apply Forall_nil. Qed.
Lemma start2 : Forall entry_a sims2.
Proof. unfold sims2.
arow. { unfold Mnemonic32.i_bndmov_no. ss. }
arow. { unfold Mnemonic32.i_bsf. ss. }
arow. { unfold Mnemonic32.i_bsr. ss. }
arow. { unfold Mnemonic32.i_bt_or. ss. }
srow. { unfold Mnemonic32.i_bt_oi. ss. }
arow. { unfold Mnemonic32.i_btc_or. ss. }
srow. { unfold Mnemonic32.i_btc_oi. ss. }
arow. { unfold Mnemonic32.i_btr_or. ss. }
srow. { unfold Mnemonic32.i_btr_oi. ss. }
arow. { unfold Mnemonic32.i_bts_or. ss. }
srow. { unfold Mnemonic32.i_bts_oi. ss. }
arow. { unfold Mnemonic32.i_bzhi. ss. }
xrow.
xrow.
xrow.
xrow.
xrow.
xrow.
xrow.
xrow.
xrow.
xrow.
xrow.
xrow.
xrow.
apply Forall_nil. Qed.
Lemma start3 : Forall entry_a sims3.
Proof. unfold sims3.
xrow.
xrow.
xrow.
xrow.
xrow.
xrow.
xrow.
xrow.
xrow.
xrow.
xrow.
xrow.
xrow.
xrow.
xrow.
xrow.
xrow.
xrow.
xrow.
xrow.
xrow.
xrow.
xrow.
xrow.
xrow.
apply Forall_nil. Qed.
Lemma start4 : Forall entry_a sims4.
Proof. unfold sims4.
xrow.
xrow.
xrow.
xrow.
xrow.
xrow.
xrow.
xrow.
xrow.
xrow.
xrow.
xrow.
xrow.
xrow.
xrow.
xrow.
xrow.
xrow.
xrow.
xrow.
xrow.
xrow.
xrow.
xrow.
xrow.
apply Forall_nil. Qed.
Lemma start5 : Forall entry_a sims5.
Proof. unfold sims5.
xrow.
xrow.
xrow.
xrow.
xrow.
xrow.
xrow.
xrow.
xrow.
xrow.
xrow.
xrow.
xrow.
xrow.
xrow.
xrow.
xrow.
xrow.
xrow.
xrow.
xrow.
xrow.
xrow.
xrow.
xrow.
apply Forall_nil. Qed.
Lemma start6 : Forall entry_a sims6.
Proof. unfold sims6.
arow. { unfold Mnemonic32.i_cldemote. ss. }
arow. { unfold Mnemonic32.i_clflush. ss. }
arow. { unfold Mnemonic32.i_clflushopt. ss. }
arow. { unfold Mnemonic32.i_clwb. ss. }
xrow.
arow. { unfold Mnemonic32.i_cmova_ro. ss. }
xrow.
arow. { unfold Mnemonic32.i_cmovae_ro. ss. }
xrow.
arow. { unfold Mnemonic32.i_cmovb_ro. ss. }
xrow.
arow. { unfold Mnemonic32.i_cmovbe_ro. ss. }
xrow.
arow. { unfold Mnemonic32.i_cmovc_ro. ss. }
xrow.
arow. { unfold Mnemonic32.i_cmove_ro. ss. }
xrow.
arow. { unfold Mnemonic32.i_cmovg_ro. ss. }
xrow.
arow. { unfold Mnemonic32.i_cmovge_ro. ss. }
xrow.
arow. { unfold Mnemonic32.i_cmovl_ro. ss. }
xrow.
arow. { unfold Mnemonic32.i_cmovle_ro. ss. }
xrow.
apply Forall_nil. Qed.
Lemma start7 : Forall entry_a sims7.
Proof. unfold sims7.
arow. { unfold Mnemonic32.i_cmovna_ro. ss. }
xrow.
arow. { unfold Mnemonic32.i_cmovnae_ro. ss. }
xrow.
arow. { unfold Mnemonic32.i_cmovnb_ro. ss. }
xrow.
arow. { unfold Mnemonic32.i_cmovnbe_ro. ss. }
xrow.
arow. { unfold Mnemonic32.i_cmovnc_ro. ss. }
xrow.
arow. { unfold Mnemonic32.i_cmovne_ro. ss. }
xrow.
arow. { unfold Mnemonic32.i_cmovng_ro. ss. }
xrow.
arow. { unfold Mnemonic32.i_cmovnge_ro. ss. }
xrow.
arow. { unfold Mnemonic32.i_cmovnl_ro. ss. }
xrow.
arow. { unfold Mnemonic32.i_cmovnle_ro. ss. }
xrow.
arow. { unfold Mnemonic32.i_cmovno_ro. ss. }
xrow.
arow. { unfold Mnemonic32.i_cmovnp_ro. ss. }
xrow.
arow. { unfold Mnemonic32.i_cmovns_ro. ss. }
apply Forall_nil. Qed.
Lemma start8 : Forall entry_a sims8.
Proof. unfold sims8.
xrow.
arow. { unfold Mnemonic32.i_cmovnz_ro. ss. }
xrow.
arow. { unfold Mnemonic32.i_cmovo_ro. ss. }
xrow.
arow. { unfold Mnemonic32.i_cmovp_ro. ss. }
xrow.
arow. { unfold Mnemonic32.i_cmovpe_ro. ss. }
xrow.
arow. { unfold Mnemonic32.i_cmovpo_ro. ss. }
xrow.
arow. { unfold Mnemonic32.i_cmovs_ro. ss. }
xrow.
arow. { unfold Mnemonic32.i_cmovz_ro. ss. }
srow. { unfold Mnemonic32.i_cmp_oi. ss. }
arow. { unfold Mnemonic32.i_cmp_oo. ss. }
arow. { unfold Mnemonic32.i_cmppd. ss. }
arow. { unfold Mnemonic32.i_cmpeqpd, Mnemonic32.i_cmppd. ss. }
arow. { unfold Mnemonic32.i_cmpps. ss. }
arow. { unfold Mnemonic32.i_cmpeqps, Mnemonic32.i_cmpps. ss. }
arow. { unfold Mnemonic32.i_cmpsd_xoi. ss. }
arow. { unfold Mnemonic32.i_cmpeqsd, Mnemonic32.i_cmpsd_xoi. ss. }
arow. { unfold Mnemonic32.i_cmpss. ss. }
arow. { unfold Mnemonic32.i_cmpeqss, Mnemonic32.i_cmpss. ss. }
arow. { unfold Mnemonic32.i_cmplepd, Mnemonic32.i_cmppd. ss. }
apply Forall_nil. Qed.
Lemma start9 : Forall entry_a sims9.
Proof. unfold sims9.
arow. { unfold Mnemonic32.i_cmpleps, Mnemonic32.i_cmpps. ss. }
arow. { unfold Mnemonic32.i_cmplesd, Mnemonic32.i_cmpsd_xoi. ss. }
arow. { unfold Mnemonic32.i_cmpless, Mnemonic32.i_cmpss. ss. }
arow. { unfold Mnemonic32.i_cmpltpd, Mnemonic32.i_cmppd. ss. }
arow. { unfold Mnemonic32.i_cmpltps, Mnemonic32.i_cmpps. ss. }
arow. { unfold Mnemonic32.i_cmpltsd, Mnemonic32.i_cmpsd_xoi. ss. }
arow. { unfold Mnemonic32.i_cmpltss, Mnemonic32.i_cmpss. ss. }
arow. { unfold Mnemonic32.i_cmpneqpd, Mnemonic32.i_cmppd. ss. }
arow. { unfold Mnemonic32.i_cmpneqps, Mnemonic32.i_cmpps. ss. }
arow. { unfold Mnemonic32.i_cmpneqsd, Mnemonic32.i_cmpsd_xoi. ss. }
arow. { unfold Mnemonic32.i_cmpneqss, Mnemonic32.i_cmpss. ss. }
arow. { unfold Mnemonic32.i_cmpnlepd, Mnemonic32.i_cmppd. ss. }
arow. { unfold Mnemonic32.i_cmpnleps, Mnemonic32.i_cmpps. ss. }
arow. { unfold Mnemonic32.i_cmpnlesd, Mnemonic32.i_cmpsd_xoi. ss. }
arow. { unfold Mnemonic32.i_cmpnless, Mnemonic32.i_cmpss. ss. }
arow. { unfold Mnemonic32.i_cmpnltpd, Mnemonic32.i_cmppd. ss. }
arow. { unfold Mnemonic32.i_cmpnltps, Mnemonic32.i_cmpps. ss. }
arow. { unfold Mnemonic32.i_cmpnltsd, Mnemonic32.i_cmpsd_xoi. ss. }
arow. { unfold Mnemonic32.i_cmpnltss, Mnemonic32.i_cmpss. ss. }
arow. { unfold Mnemonic32.i_cmpordpd, Mnemonic32.i_cmppd. ss. }
arow. { unfold Mnemonic32.i_cmpordps, Mnemonic32.i_cmpps. ss. }
arow. { unfold Mnemonic32.i_cmpordsd, Mnemonic32.i_cmpsd_xoi. ss. }
arow. { unfold Mnemonic32.i_cmpordss, Mnemonic32.i_cmpss. ss. }
arow. { unfold Mnemonic32.i_cmpunordpd, Mnemonic32.i_cmppd. ss. }
arow. { unfold Mnemonic32.i_cmpunordps, Mnemonic32.i_cmpps. ss. }
apply Forall_nil. Qed.
Lemma start10 : Forall entry_a sims10.
Proof. unfold sims10.
arow. { unfold Mnemonic32.i_cmpunordsd, Mnemonic32.i_cmpsd_xoi. ss. }
arow. { unfold Mnemonic32.i_cmpunordss, Mnemonic32.i_cmpss. ss. }
arow. { unfold Mnemonic32.i_cmpxchg. ss. }
arow. { unfold Mnemonic32.i_cmpxchg8b. ss. }
arow. { unfold Mnemonic32.i_comisd. ss. }
arow. { unfold Mnemonic32.i_comiss. ss. }
arow. { unfold Mnemonic32.i_crc32. ss. }
xrow.
xrow.
xrow.
xrow.
xrow.
xrow.
xrow.
xrow.
xrow.
xrow.
xrow.
xrow.
xrow.
xrow.
xrow.
xrow.
xrow.
xrow.
apply Forall_nil. Qed.
Lemma start11 : Forall entry_a sims11.
Proof. unfold sims11.
xrow.
xrow.
xrow.
xrow.
xrow.
xrow.
xrow.
xrow.
xrow.
xrow.
xrow.
xrow.
xrow.
xrow.
xrow.
xrow.
xrow.
xrow.
xrow.
xrow.
xrow.
xrow.
xrow.
xrow.
xrow.
apply Forall_nil. Qed.
Lemma start12 : Forall entry_a sims12.
Proof. unfold sims12.
xrow.
xrow.
xrow.
xrow.
xrow.
xrow.
xrow.
xrow.
xrow.
xrow.
xrow.
xrow.
xrow.
arow. { unfold Mnemonic32.i_cvtdq2pd. ss. }
arow. { unfold Mnemonic32.i_cvtdq2ps. ss. }
arow. { unfold Mnemonic32.i_cvtpd2dq. ss. }
arow. { unfold Mnemonic32.i_cvtpd2pi. ss. }
arow. { unfold Mnemonic32.i_cvtpd2ps. ss. }
arow. { unfold Mnemonic32.i_cvtpi2pd. ss. }
arow. { unfold Mnemonic32.i_cvtpi2ps. ss. }
arow. { unfold Mnemonic32.i_cvtps2dq. ss. }
arow. { unfold Mnemonic32.i_cvtps2pd. ss. }
arow. { unfold Mnemonic32.i_cvtps2pi. ss. }
arow. { unfold Mnemonic32.i_cvtsd2si. ss. }
arow. { unfold Mnemonic32.i_cvtsd2ss. ss. }
apply Forall_nil. Qed.
Lemma start13 : Forall entry_a sims13.
Proof. unfold sims13.
arow. { unfold Mnemonic32.i_cvtsi2sd. ss. }
arow. { unfold Mnemonic32.i_cvtsi2ss. ss. }
arow. { unfold Mnemonic32.i_cvtss2sd. ss. }
arow. { unfold Mnemonic32.i_cvtss2si. ss. }
arow. { unfold Mnemonic32.i_cvttpd2dq. ss. }
arow. { unfold Mnemonic32.i_cvttpd2pi. ss. }
arow. { unfold Mnemonic32.i_cvttps2dq. ss. }
arow. { unfold Mnemonic32.i_cvttps2pi. ss. }
arow. { unfold Mnemonic32.i_cvttsd2si. ss. }
arow. { unfold Mnemonic32.i_cvttss2si. ss. }
srow. { unfold Mnemonic32.i_div. ss. }
arow. { unfold Mnemonic32.i_divpd. ss. }
arow. { unfold Mnemonic32.i_divps. ss. }
arow. { unfold Mnemonic32.i_divsd. ss. }
arow. { unfold Mnemonic32.i_divss. ss. }
arow. { unfold Mnemonic32.i_dppd. ss. }
arow. { unfold Mnemonic32.i_dpps. ss. }
arow. { unfold Mnemonic32.i_extractps. ss. }
arow. { unfold Mnemonic32.i_fadd_a. ss. }
arow. { unfold Mnemonic32.i_fbld. ss. }
arow. { unfold Mnemonic32.i_fbstp. ss. }
arow. { unfold Mnemonic32.i_fcom_a. ss. }
arow. { unfold Mnemonic32.i_fcomp_a. ss. }
arow. { unfold Mnemonic32.i_fdiv_a. ss. }
arow. { unfold Mnemonic32.i_fdivr_a. ss. }
apply Forall_nil. Qed.
Lemma start14 : Forall entry_a sims14.
Proof. unfold sims14.
arow. { unfold Mnemonic32.i_fiadd. ss. }
arow. { unfold Mnemonic32.i_ficom. ss. }
arow. { unfold Mnemonic32.i_ficomp. ss. }
arow. { unfold Mnemonic32.i_fidiv. ss. }
arow. { unfold Mnemonic32.i_fidivr. ss. }
arow. { unfold Mnemonic32.i_fild. ss. }
arow. { unfold Mnemonic32.i_fimul. ss. }
arow. { unfold Mnemonic32.i_fist. ss. }
arow. { unfold Mnemonic32.i_fistp. ss. }
arow. { unfold Mnemonic32.i_fisttp. ss. }
arow. { unfold Mnemonic32.i_fisub. ss. }
arow. { unfold Mnemonic32.i_fisubr. ss. }
arow. { unfold Mnemonic32.i_fld_a. ss. }
arow. { unfold Mnemonic32.i_fldcw. ss. }
arow. { unfold Mnemonic32.i_fldenv. ss. }
arow. { unfold Mnemonic32.i_fmul_a. ss. }
arow. { unfold Mnemonic32.i_fnsave. ss. }
arow. { unfold Mnemonic32.i_fnstcw. ss. }
arow. { unfold Mnemonic32.i_fnstenv. ss. }
arow. { unfold Mnemonic32.i_fnstsw_a. ss. }
arow. { unfold Mnemonic32.i_frstor. ss. }
arow. { unfold Mnemonic32.i_fsave. ss. }
arow. { unfold Mnemonic32.i_fst_a. ss. }
arow. { unfold Mnemonic32.i_fstcw. ss. }
arow. { unfold Mnemonic32.i_fstenv. ss. }
apply Forall_nil. Qed.
Lemma start15 : Forall entry_a sims15.
Proof. unfold sims15.
arow. { unfold Mnemonic32.i_fstp_a. ss. }
arow. { unfold Mnemonic32.i_fstsw_a. ss. }
arow. { unfold Mnemonic32.i_fsub_a. ss. }
arow. { unfold Mnemonic32.i_fsubr_a. ss. }
arow. { unfold Mnemonic32.i_fxrstor. ss. }
arow. { unfold Mnemonic32.i_gf2p8affineinvqb. ss. }
arow. { unfold Mnemonic32.i_gf2p8affineqb. ss. }
arow. { unfold Mnemonic32.i_gf2p8mulb. ss. }
arow. { unfold Mnemonic32.i_haddpd. ss. }
arow. { unfold Mnemonic32.i_haddps. ss. }
arow. { unfold Mnemonic32.i_hsubpd. ss. }
arow. { unfold Mnemonic32.i_hsubps. ss. }
srow. { unfold Mnemonic32.i_idiv. ss. }
srow. { unfold Mnemonic32.i_imul_o. ss. }
xrow.
arow. { unfold Mnemonic32.i_imul_ro. ss. }
arow. { unfold Mnemonic32.i_insertps. ss. }
arow. { unfold Mnemonic32.i_lddqu. ss. }
arow. { unfold Mnemonic32.i_ldmxcsr. ss. }
arow. { unfold Mnemonic32.i_lfs. ss. }
arow. { unfold Mnemonic32.i_lgs. ss. }
arow. { unfold Mnemonic32.i_lss. ss. }
arow. { unfold Mnemonic32.i_lzcnt. ss. }
arow. { unfold Mnemonic32.i_maskmovdqu. ss. }
arow. { unfold Mnemonic32.i_maskmovq. ss. }
apply Forall_nil. Qed.
Lemma start16 : Forall entry_a sims16.
Proof. unfold sims16.
arow. { unfold Mnemonic32.i_maxpd. ss. }
arow. { unfold Mnemonic32.i_maxps. ss. }
arow. { unfold Mnemonic32.i_maxsd. ss. }
arow. { unfold Mnemonic32.i_maxss. ss. }
arow. { unfold Mnemonic32.i_minpd. ss. }
arow. { unfold Mnemonic32.i_minps. ss. }
arow. { unfold Mnemonic32.i_minsd. ss. }
arow. { unfold Mnemonic32.i_minss. ss. }
arow. { unfold Mnemonic32.i_movapd_ax. ss. }
arow. { unfold Mnemonic32.i_movapd_xo. ss. }
arow. { unfold Mnemonic32.i_movaps_ax. ss. }
arow. { unfold Mnemonic32.i_movaps_xo. ss. }
arow. { unfold Mnemonic32.i_movbe_ar. ss. }
arow. { unfold Mnemonic32.i_movbe_ra. ss. }
arow. { unfold Mnemonic32.i_movd_mo. ss. }
arow. { unfold Mnemonic32.i_movd_om. ss. }
arow. { unfold Mnemonic32.i_movddup. ss. }
arow. { unfold Mnemonic32.i_movdir64b. ss. }
arow. { unfold Mnemonic32.i_movdiri. ss. }
arow. { unfold Mnemonic32.i_movdq2q. ss. }
arow. { unfold Mnemonic32.i_movdqa_ax. ss. }
arow. { unfold Mnemonic32.i_movdqa_xo. ss. }
arow. { unfold Mnemonic32.i_movdqu_ax. ss. }
arow. { unfold Mnemonic32.i_movdqu_xo. ss. }
arow. { unfold Mnemonic32.i_movhlps. ss. }
apply Forall_nil. Qed.
Lemma start17 : Forall entry_a sims17.
Proof. unfold sims17.
arow. { unfold Mnemonic32.i_movhpd. ss. }
arow. { unfold Mnemonic32.i_movhps. ss. }
arow. { unfold Mnemonic32.i_movlhps. ss. }
arow. { unfold Mnemonic32.i_movlpd. ss. }
arow. { unfold Mnemonic32.i_movlps. ss. }
arow. { unfold Mnemonic32.i_movmskps. ss. }
arow. { unfold Mnemonic32.i_movmskpd, Mnemonic32.i_movmskps. ss. }
arow. { unfold Mnemonic32.i_movntdq. ss. }
arow. { unfold Mnemonic32.i_movntdqa. ss. }
arow. { unfold Mnemonic32.i_movnti. ss. }
arow. { unfold Mnemonic32.i_movntpd. ss. }
arow. { unfold Mnemonic32.i_movntps. ss. }
arow. { unfold Mnemonic32.i_movntq. ss. }
arow. { unfold Mnemonic32.i_movq_am. ss. }
arow. { unfold Mnemonic32.i_movq_mo. ss. }
arow. { unfold Mnemonic32.i_movq2dq. ss. }
arow. { unfold Mnemonic32.i_movsd_ax. ss. }
arow. { unfold Mnemonic32.i_movsd_xo. ss. }
arow. { unfold Mnemonic32.i_movshdup. ss. }
arow. { unfold Mnemonic32.i_movsldup. ss. }
arow. { unfold Mnemonic32.i_movss_ax. ss. }
arow. { unfold Mnemonic32.i_movss_xo. ss. }
arow. { unfold Mnemonic32.i_movsx. ss. }
arow. { unfold Mnemonic32.i_movupd_ax. ss. }
arow. { unfold Mnemonic32.i_movupd_xo. ss. }
apply Forall_nil. Qed.
Lemma start18 : Forall entry_a sims18.
Proof. unfold sims18.
arow. { unfold Mnemonic32.i_movups_ax. ss. }
arow. { unfold Mnemonic32.i_movups_xo. ss. }
arow. { unfold Mnemonic32.i_movzx. ss. }
arow. { unfold Mnemonic32.i_mpsadbw. ss. }
srow. { unfold Mnemonic32.i_mul. ss. }
arow. { unfold Mnemonic32.i_mulpd. ss. }
arow. { unfold Mnemonic32.i_mulps. ss. }
arow. { unfold Mnemonic32.i_mulsd. ss. }
arow. { unfold Mnemonic32.i_mulss. ss. }
arow. { unfold Mnemonic32.i_mulx. ss. }
srow. { unfold Mnemonic32.i_neg_o. ss. }
xrow.
srow. { unfold Mnemonic32.i_not__o. ss. }
xrow.
srow. { unfold Mnemonic32.i_or__oi. ss. }
arow. { unfold Mnemonic32.i_or__oo. ss. }
xrow.
xrow.
arow. { unfold Mnemonic32.i_orpd. ss. }
arow. { unfold Mnemonic32.i_orps. ss. }
arow. { unfold Mnemonic32.i_pabsb. ss. }
arow. { unfold Mnemonic32.i_pabsd. ss. }
arow. { unfold Mnemonic32.i_pabsw. ss. }
arow. { unfold Mnemonic32.i_packssdw. ss. }
arow. { unfold Mnemonic32.i_packsswb. ss. }
apply Forall_nil. Qed.
Lemma start19 : Forall entry_a sims19.
Proof. unfold sims19.
arow. { unfold Mnemonic32.i_packusdw. ss. }
arow. { unfold Mnemonic32.i_packuswb. ss. }
arow. { unfold Mnemonic32.i_paddb. ss. }
arow. { unfold Mnemonic32.i_paddd. ss. }
arow. { unfold Mnemonic32.i_paddq. ss. }
arow. { unfold Mnemonic32.i_paddsb. ss. }
arow. { unfold Mnemonic32.i_paddsw. ss. }
arow. { unfold Mnemonic32.i_paddusb. ss. }
arow. { unfold Mnemonic32.i_paddusw. ss. }
arow. { unfold Mnemonic32.i_paddw. ss. }
arow. { unfold Mnemonic32.i_palignr. ss. }
arow. { unfold Mnemonic32.i_pand. ss. }
arow. { unfold Mnemonic32.i_pandn. ss. }
arow. { unfold Mnemonic32.i_pavgb. ss. }
arow. { unfold Mnemonic32.i_pavgw. ss. }
arow. { unfold Mnemonic32.i_pblendvb. ss. }
arow. { unfold Mnemonic32.i_pblendw. ss. }
arow. { unfold Mnemonic32.i_pclmulqdq. ss. }
arow. { unfold Mnemonic32.i_pclmulhqhqdq, Mnemonic32.i_pclmulqdq. ss. }
arow. { unfold Mnemonic32.i_pclmulhqlqdq, Mnemonic32.i_pclmulqdq. ss. }
arow. { unfold Mnemonic32.i_pclmullqhqdq, Mnemonic32.i_pclmulqdq. ss. }
arow. { unfold Mnemonic32.i_pclmullqlqdq, Mnemonic32.i_pclmulqdq. ss. }
arow. { unfold Mnemonic32.i_pcmpeqb. ss. }
arow. { unfold Mnemonic32.i_pcmpeqd. ss. }
arow. { unfold Mnemonic32.i_pcmpeqq. ss. }
apply Forall_nil. Qed.
Lemma start20 : Forall entry_a sims20.
Proof. unfold sims20.
arow. { unfold Mnemonic32.i_pcmpeqw. ss. }
arow. { unfold Mnemonic32.i_pcmpestri. ss. }
arow. { unfold Mnemonic32.i_pcmpestrm. ss. }
arow. { unfold Mnemonic32.i_pcmpgtb. ss. }
arow. { unfold Mnemonic32.i_pcmpgtd. ss. }
arow. { unfold Mnemonic32.i_pcmpgtq. ss. }
arow. { unfold Mnemonic32.i_pcmpgtw. ss. }
arow. { unfold Mnemonic32.i_pcmpistri. ss. }
arow. { unfold Mnemonic32.i_pcmpistrm. ss. }
arow. { unfold Mnemonic32.i_pdep. ss. }
arow. { unfold Mnemonic32.i_pext. ss. }
arow. { unfold Mnemonic32.i_pextrb. ss. }
arow. { unfold Mnemonic32.i_pextrd. ss. }
arow. { unfold Mnemonic32.i_pextrw. ss. }
arow. { unfold Mnemonic32.i_phaddd. ss. }
arow. { unfold Mnemonic32.i_phaddsw. ss. }
arow. { unfold Mnemonic32.i_phaddw. ss. }
arow. { unfold Mnemonic32.i_phminposuw. ss. }
arow. { unfold Mnemonic32.i_phsubd. ss. }
arow. { unfold Mnemonic32.i_phsubsw. ss. }
arow. { unfold Mnemonic32.i_phsubw. ss. }
arow. { unfold Mnemonic32.i_pinsrb. ss. }
arow. { unfold Mnemonic32.i_pinsrd. ss. }
arow. { unfold Mnemonic32.i_pinsrw. ss. }
arow. { unfold Mnemonic32.i_pmaddubsw. ss. }
apply Forall_nil. Qed.
Lemma start21 : Forall entry_a sims21.
Proof. unfold sims21.
arow. { unfold Mnemonic32.i_pmaddwd. ss. }
arow. { unfold Mnemonic32.i_pmaxsb. ss. }
arow. { unfold Mnemonic32.i_pmaxsd. ss. }
arow. { unfold Mnemonic32.i_pmaxsw. ss. }
arow. { unfold Mnemonic32.i_pmaxub. ss. }
arow. { unfold Mnemonic32.i_pmaxud. ss. }
arow. { unfold Mnemonic32.i_pmaxuw. ss. }
arow. { unfold Mnemonic32.i_pminsb. ss. }
arow. { unfold Mnemonic32.i_pminsd. ss. }
arow. { unfold Mnemonic32.i_pminsw. ss. }
arow. { unfold Mnemonic32.i_pminub. ss. }
arow. { unfold Mnemonic32.i_pminud. ss. }
arow. { unfold Mnemonic32.i_pminuw. ss. }
arow. { unfold Mnemonic32.i_pmovmskb. ss. }
arow. { unfold Mnemonic32.i_pmovsxbd. ss. }
arow. { unfold Mnemonic32.i_pmovsxbq. ss. }
arow. { unfold Mnemonic32.i_pmovsxbw. ss. }
arow. { unfold Mnemonic32.i_pmovsxdq. ss. }
arow. { unfold Mnemonic32.i_pmovsxwd. ss. }
arow. { unfold Mnemonic32.i_pmovsxwq. ss. }
arow. { unfold Mnemonic32.i_pmovzxbd. ss. }
arow. { unfold Mnemonic32.i_pmovzxbq. ss. }
arow. { unfold Mnemonic32.i_pmovzxbw. ss. }
arow. { unfold Mnemonic32.i_pmovzxdq. ss. }
arow. { unfold Mnemonic32.i_pmovzxwd. ss. }
apply Forall_nil. Qed.
Lemma start22 : Forall entry_a sims22.
Proof. unfold sims22.
arow. { unfold Mnemonic32.i_pmovzxwq. ss. }
arow. { unfold Mnemonic32.i_pmuldq. ss. }
arow. { unfold Mnemonic32.i_pmulhrsw. ss. }
arow. { unfold Mnemonic32.i_pmulhuw. ss. }
arow. { unfold Mnemonic32.i_pmulhw. ss. }
arow. { unfold Mnemonic32.i_pmulld. ss. }
arow. { unfold Mnemonic32.i_pmullw. ss. }
arow. { unfold Mnemonic32.i_pmuludq. ss. }
arow. { unfold Mnemonic32.i_popcnt. ss. }
arow. { unfold Mnemonic32.i_por. ss. }
arow. { unfold Mnemonic32.i_prefetchit0. ss. }
arow. { unfold Mnemonic32.i_prefetchit1. ss. }
arow. { unfold Mnemonic32.i_prefetchnta. ss. }
arow. { unfold Mnemonic32.i_prefetcht0. ss. }
arow. { unfold Mnemonic32.i_prefetcht1. ss. }
arow. { unfold Mnemonic32.i_prefetcht2. ss. }
arow. { unfold Mnemonic32.i_prefetchw. ss. }
arow. { unfold Mnemonic32.i_prefetchwt1. ss. }
arow. { unfold Mnemonic32.i_psadbw. ss. }
arow. { unfold Mnemonic32.i_pshufb. ss. }
arow. { unfold Mnemonic32.i_pshufd. ss. }
arow. { unfold Mnemonic32.i_pshufhw. ss. }
arow. { unfold Mnemonic32.i_pshuflw. ss. }
arow. { unfold Mnemonic32.i_pshufw. ss. }
arow. { unfold Mnemonic32.i_psignb. ss. }
apply Forall_nil. Qed.
Lemma start23 : Forall entry_a sims23.
Proof. unfold sims23.
arow. { unfold Mnemonic32.i_psignd. ss. }
arow. { unfold Mnemonic32.i_psignw. ss. }
arow. { unfold Mnemonic32.i_pslld_mo. ss. }
arow. { unfold Mnemonic32.i_pslld_mi. ss. }
arow. { unfold Mnemonic32.i_pslldq. ss. }
arow. { unfold Mnemonic32.i_psllq_mo. ss. }
arow. { unfold Mnemonic32.i_psllq_mi. ss. }
arow. { unfold Mnemonic32.i_psllw_mo. ss. }
arow. { unfold Mnemonic32.i_psllw_mi. ss. }
arow. { unfold Mnemonic32.i_psrad_mo. ss. }
arow. { unfold Mnemonic32.i_psrad_mi. ss. }
arow. { unfold Mnemonic32.i_psraw_mo. ss. }
arow. { unfold Mnemonic32.i_psraw_mi. ss. }
arow. { unfold Mnemonic32.i_psrld_mo. ss. }
arow. { unfold Mnemonic32.i_psrld_mi. ss. }
arow. { unfold Mnemonic32.i_psrldq. ss. }
arow. { unfold Mnemonic32.i_psrlq_mo. ss. }
arow. { unfold Mnemonic32.i_psrlq_mi. ss. }
arow. { unfold Mnemonic32.i_psrlw_mo. ss. }
arow. { unfold Mnemonic32.i_psrlw_mi. ss. }
arow. { unfold Mnemonic32.i_psubb. ss. }
arow. { unfold Mnemonic32.i_psubd. ss. }
arow. { unfold Mnemonic32.i_psubq. ss. }
arow. { unfold Mnemonic32.i_psubsb. ss. }
arow. { unfold Mnemonic32.i_psubsw. ss. }
apply Forall_nil. Qed.
Lemma start24 : Forall entry_a sims24.
Proof. unfold sims24.
arow. { unfold Mnemonic32.i_psubusb. ss. }
arow. { unfold Mnemonic32.i_psubusw. ss. }
arow. { unfold Mnemonic32.i_psubw. ss. }
arow. { unfold Mnemonic32.i_ptest. ss. }
arow. { unfold Mnemonic32.i_punpckhbw. ss. }
arow. { unfold Mnemonic32.i_punpckhdq. ss. }
arow. { unfold Mnemonic32.i_punpckhqdq. ss. }
arow. { unfold Mnemonic32.i_punpckhwd. ss. }
arow. { unfold Mnemonic32.i_punpcklbw. ss. }
arow. { unfold Mnemonic32.i_punpckldq. ss. }
arow. { unfold Mnemonic32.i_punpcklqdq. ss. }
arow. { unfold Mnemonic32.i_punpcklwd. ss. }
arow. { unfold Mnemonic32.i_pxor. ss. }
srow. { unfold Mnemonic32.i_rcl_ob. ss. }
srow. { unfold Mnemonic32.i_rcl_oi. ss. }
xrow.
xrow.
arow. { unfold Mnemonic32.i_rcpps. ss. }
arow. { unfold Mnemonic32.i_rcpss. ss. }
srow. { unfold Mnemonic32.i_rcr_ob. ss. }
srow. { unfold Mnemonic32.i_rcr_oi. ss. }
xrow.
xrow.
srow. { unfold Mnemonic32.i_rdrand. ss. }
srow. { unfold Mnemonic32.i_rdseed. ss. }
apply Forall_nil. Qed.
Lemma start25 : Forall entry_a sims25.
Proof. unfold sims25.
srow. { unfold Mnemonic32.i_rol_ob. ss. }
srow. { unfold Mnemonic32.i_rol_oi. ss. }
xrow.
xrow.
srow. { unfold Mnemonic32.i_ror_ob. ss. }
srow. { unfold Mnemonic32.i_ror_oi. ss. }
xrow.
xrow.
arow. { unfold Mnemonic32.i_rorx. ss. }
arow. { unfold Mnemonic32.i_roundpd. ss. }
arow. { unfold Mnemonic32.i_roundps. ss. }
arow. { unfold Mnemonic32.i_roundsd. ss. }
arow. { unfold Mnemonic32.i_roundss. ss. }
arow. { unfold Mnemonic32.i_rsqrtps. ss. }
arow. { unfold Mnemonic32.i_rsqrtss. ss. }
srow. { unfold Mnemonic32.i_sal_ob. ss. }
srow. { unfold Mnemonic32.i_sal_oi. ss. }
xrow.
xrow.
srow. { unfold Mnemonic32.i_sar_ob. ss. }
srow. { unfold Mnemonic32.i_sar_oi. ss. }
xrow.
xrow.
arow. { unfold Mnemonic32.i_sarx. ss. }
srow. { unfold Mnemonic32.i_sbb_oi. ss. }
apply Forall_nil. Qed.
Lemma start26 : Forall entry_a sims26.
Proof. unfold sims26.
arow. { unfold Mnemonic32.i_sbb_oo. ss. }
xrow.
xrow.
srow. { unfold Mnemonic32.i_seta. ss. }
srow. { unfold Mnemonic32.i_setae. ss. }
srow. { unfold Mnemonic32.i_setb. ss. }
srow. { unfold Mnemonic32.i_setbe. ss. }
srow. { unfold Mnemonic32.i_setc. ss. }
srow. { unfold Mnemonic32.i_sete. ss. }
srow. { unfold Mnemonic32.i_setg. ss. }
srow. { unfold Mnemonic32.i_setge. ss. }
srow. { unfold Mnemonic32.i_setl. ss. }
srow. { unfold Mnemonic32.i_setle. ss. }
srow. { unfold Mnemonic32.i_setna. ss. }
srow. { unfold Mnemonic32.i_setnae. ss. }
srow. { unfold Mnemonic32.i_setnb. ss. }
srow. { unfold Mnemonic32.i_setnbe. ss. }
srow. { unfold Mnemonic32.i_setnc. ss. }
srow. { unfold Mnemonic32.i_setne. ss. }
srow. { unfold Mnemonic32.i_setng. ss. }
srow. { unfold Mnemonic32.i_setnge. ss. }
srow. { unfold Mnemonic32.i_setnl. ss. }
srow. { unfold Mnemonic32.i_setnle. ss. }
srow. { unfold Mnemonic32.i_setno. ss. }
srow. { unfold Mnemonic32.i_setnp. ss. }
apply Forall_nil. Qed.
Lemma start27 : Forall entry_a sims27.
Proof. unfold sims27.
srow. { unfold Mnemonic32.i_setns. ss. }
srow. { unfold Mnemonic32.i_setnz. ss. }
srow. { unfold Mnemonic32.i_seto. ss. }
srow. { unfold Mnemonic32.i_setp. ss. }
srow. { unfold Mnemonic32.i_setpe. ss. }
srow. { unfold Mnemonic32.i_setpo. ss. }
srow. { unfold Mnemonic32.i_sets. ss. }
srow. { unfold Mnemonic32.i_setz. ss. }
arow. { unfold Mnemonic32.i_sha1msg1. ss. }
arow. { unfold Mnemonic32.i_sha1msg2. ss. }
arow. { unfold Mnemonic32.i_sha1nexte. ss. }
arow. { unfold Mnemonic32.i_sha1rnds4. ss. }
arow. { unfold Mnemonic32.i_sha256msg1. ss. }
arow. { unfold Mnemonic32.i_sha256msg2. ss. }
arow. { unfold Mnemonic32.i_sha256rnds2. ss. }
srow. { unfold Mnemonic32.i_shl_ob. ss. }
srow. { unfold Mnemonic32.i_shl_oi. ss. }
xrow.
xrow.
arow. { unfold Mnemonic32.i_shld_orb. ss. }
arow. { unfold Mnemonic32.i_shld_ori. ss. }
xrow.
xrow.
arow. { unfold Mnemonic32.i_shlx. ss. }
srow. { unfold Mnemonic32.i_shr_ob. ss. }
apply Forall_nil. Qed.
Lemma start28 : Forall entry_a sims28.
Proof. unfold sims28.
srow. { unfold Mnemonic32.i_shr_oi. ss. }
xrow.
xrow.
arow. { unfold Mnemonic32.i_shrd_orb. ss. }
arow. { unfold Mnemonic32.i_shrd_ori. ss. }
xrow.
xrow.
arow. { unfold Mnemonic32.i_shrx. ss. }
arow. { unfold Mnemonic32.i_shufpd. ss. }
arow. { unfold Mnemonic32.i_shufps. ss. }
arow. { unfold Mnemonic32.i_sqrtpd. ss. }
arow. { unfold Mnemonic32.i_sqrtps. ss. }
arow. { unfold Mnemonic32.i_sqrtsd. ss. }
arow. { unfold Mnemonic32.i_sqrtss. ss. }
arow. { unfold Mnemonic32.i_stmxcsr. ss. }
srow. { unfold Mnemonic32.i_sub_oi. ss. }
arow. { unfold Mnemonic32.i_sub_oo. ss. }
xrow.
xrow.
arow. { unfold Mnemonic32.i_subpd. ss. }
arow. { unfold Mnemonic32.i_subps. ss. }
arow. { unfold Mnemonic32.i_subsd. ss. }
arow. { unfold Mnemonic32.i_subss. ss. }
arow. { unfold Mnemonic32.i_tzcnt. ss. }
arow. { unfold Mnemonic32.i_ucomisd. ss. }
apply Forall_nil. Qed.
Lemma start29 : Forall entry_a sims29.
Proof. unfold sims29.
arow. { unfold Mnemonic32.i_ucomiss. ss. }
arow. { unfold Mnemonic32.i_unpckhpd. ss. }
arow. { unfold Mnemonic32.i_unpckhps. ss. }
arow. { unfold Mnemonic32.i_unpcklpd. ss. }
arow. { unfold Mnemonic32.i_unpcklps. ss. }
arow. { unfold Mnemonic32.i_vaddpd. ss. }
arow. { unfold Mnemonic32.i_vaddps. ss. }
arow. { unfold Mnemonic32.i_vaddsd. ss. }
arow. { unfold Mnemonic32.i_vaddss. ss. }
arow. { unfold Mnemonic32.i_vaddsubpd. ss. }
arow. { unfold Mnemonic32.i_vaddsubps. ss. }
arow. { unfold Mnemonic32.i_vaesdec. ss. }
arow. { unfold Mnemonic32.i_vaesdeclast. ss. }
arow. { unfold Mnemonic32.i_vaesenc. ss. }
arow. { unfold Mnemonic32.i_vaesenclast. ss. }
arow. { unfold Mnemonic32.i_vaesimc. ss. }
arow. { unfold Mnemonic32.i_vaeskeygenassist. ss. }
arow. { unfold Mnemonic32.i_vandnpd. ss. }
arow. { unfold Mnemonic32.i_vandnps. ss. }
arow. { unfold Mnemonic32.i_vandpd. ss. }
arow. { unfold Mnemonic32.i_vandps. ss. }
arow. { unfold Mnemonic32.i_vbcstnebf162ps. ss. }
arow. { unfold Mnemonic32.i_vbcstnesh2ps. ss. }
arow. { unfold Mnemonic32.i_vblendpd_xxoi. ss. }
arow. { unfold Mnemonic32.i_vblendps_xxoi. ss. }
apply Forall_nil. Qed.
Lemma start30 : Forall entry_a sims30.
Proof. unfold sims30.
arow. { unfold Mnemonic32.i_vblendvpd_xxox. ss. }
arow. { unfold Mnemonic32.i_vblendvps_xxox. ss. }
arow. { unfold Mnemonic32.i_vbroadcastf128. ss. }
arow. { unfold Mnemonic32.i_vbroadcasti128. ss. }
arow. { unfold Mnemonic32.i_vbroadcastsd. ss. }
arow. { unfold Mnemonic32.i_vbroadcastss. ss. }
arow. { unfold Mnemonic32.i_vcmppd_xxoi. ss. }
arow. { unfold Mnemonic32.i_vcmpeq_ospd_xxo, Mnemonic32.i_vcmppd_xxoi. ss. }
arow. { unfold Mnemonic32.i_vcmpps_xxoi. ss. }
arow. { unfold Mnemonic32.i_vcmpeq_osps_xxo, Mnemonic32.i_vcmpps_xxoi. ss. }
arow. { unfold Mnemonic32.i_vcmpsd_xxoi. ss. }
arow. { unfold Mnemonic32.i_vcmpeq_ossd_xxo, Mnemonic32.i_vcmpsd_xxoi. ss. }
arow. { unfold Mnemonic32.i_vcmpss_xxoi. ss. }
arow. { unfold Mnemonic32.i_vcmpeq_osss_xxo, Mnemonic32.i_vcmpss_xxoi. ss. }
arow. { unfold Mnemonic32.i_vcmpeq_uqpd_xxo, Mnemonic32.i_vcmppd_xxoi. ss. }
arow. { unfold Mnemonic32.i_vcmpeq_uqps_xxo, Mnemonic32.i_vcmpps_xxoi. ss. }
arow. { unfold Mnemonic32.i_vcmpeq_uqsd_xxo, Mnemonic32.i_vcmpsd_xxoi. ss. }
arow. { unfold Mnemonic32.i_vcmpeq_uqss_xxo, Mnemonic32.i_vcmpss_xxoi. ss. }
arow. { unfold Mnemonic32.i_vcmpeq_uspd_xxo, Mnemonic32.i_vcmppd_xxoi. ss. }
arow. { unfold Mnemonic32.i_vcmpeq_usps_xxo, Mnemonic32.i_vcmpps_xxoi. ss. }
arow. { unfold Mnemonic32.i_vcmpeq_ussd_xxo, Mnemonic32.i_vcmpsd_xxoi. ss. }
arow. { unfold Mnemonic32.i_vcmpeq_usss_xxo, Mnemonic32.i_vcmpss_xxoi. ss. }
arow. { unfold Mnemonic32.i_vcmpeqpd_xxo, Mnemonic32.i_vcmppd_xxoi. ss. }
arow. { unfold Mnemonic32.i_vcmpeqps_xxo, Mnemonic32.i_vcmpps_xxoi. ss. }
arow. { unfold Mnemonic32.i_vcmpeqsd_xxo, Mnemonic32.i_vcmpsd_xxoi. ss. }
apply Forall_nil. Qed.
Lemma start31 : Forall entry_a sims31.
Proof. unfold sims31.
arow. { unfold Mnemonic32.i_vcmpeqss_xxo, Mnemonic32.i_vcmpss_xxoi. ss. }
arow. { unfold Mnemonic32.i_vcmpfalse_ospd_xxo, Mnemonic32.i_vcmppd_xxoi. ss. }
arow. { unfold Mnemonic32.i_vcmpfalse_osps_xxo, Mnemonic32.i_vcmpps_xxoi. ss. }
arow. { unfold Mnemonic32.i_vcmpfalse_ossd_xxo, Mnemonic32.i_vcmpsd_xxoi. ss. }
arow. { unfold Mnemonic32.i_vcmpfalse_osss_xxo, Mnemonic32.i_vcmpss_xxoi. ss. }
arow. { unfold Mnemonic32.i_vcmpfalsepd_xxo, Mnemonic32.i_vcmppd_xxoi. ss. }
arow. { unfold Mnemonic32.i_vcmpfalseps_xxo, Mnemonic32.i_vcmpps_xxoi. ss. }
arow. { unfold Mnemonic32.i_vcmpfalsesd_xxo, Mnemonic32.i_vcmpsd_xxoi. ss. }
arow. { unfold Mnemonic32.i_vcmpfalsess_xxo, Mnemonic32.i_vcmpss_xxoi. ss. }
arow. { unfold Mnemonic32.i_vcmpge_oqpd_xxo, Mnemonic32.i_vcmppd_xxoi. ss. }
arow. { unfold Mnemonic32.i_vcmpge_oqps_xxo, Mnemonic32.i_vcmpps_xxoi. ss. }
arow. { unfold Mnemonic32.i_vcmpge_oqsd_xxo, Mnemonic32.i_vcmpsd_xxoi. ss. }
arow. { unfold Mnemonic32.i_vcmpge_oqss_xxo, Mnemonic32.i_vcmpss_xxoi. ss. }
arow. { unfold Mnemonic32.i_vcmpgepd_xxo, Mnemonic32.i_vcmppd_xxoi. ss. }
arow. { unfold Mnemonic32.i_vcmpgeps_xxo, Mnemonic32.i_vcmpps_xxoi. ss. }
arow. { unfold Mnemonic32.i_vcmpgesd_xxo, Mnemonic32.i_vcmpsd_xxoi. ss. }
arow. { unfold Mnemonic32.i_vcmpgess_xxo, Mnemonic32.i_vcmpss_xxoi. ss. }
arow. { unfold Mnemonic32.i_vcmpgt_oqpd_xxo, Mnemonic32.i_vcmppd_xxoi. ss. }
arow. { unfold Mnemonic32.i_vcmpgt_oqps_xxo, Mnemonic32.i_vcmpps_xxoi. ss. }
arow. { unfold Mnemonic32.i_vcmpgt_oqsd_xxo, Mnemonic32.i_vcmpsd_xxoi. ss. }
arow. { unfold Mnemonic32.i_vcmpgt_oqss_xxo, Mnemonic32.i_vcmpss_xxoi. ss. }
arow. { unfold Mnemonic32.i_vcmpgtpd_xxo, Mnemonic32.i_vcmppd_xxoi. ss. }
arow. { unfold Mnemonic32.i_vcmpgtps_xxo, Mnemonic32.i_vcmpps_xxoi. ss. }
arow. { unfold Mnemonic32.i_vcmpgtsd_xxo, Mnemonic32.i_vcmpsd_xxoi. ss. }
arow. { unfold Mnemonic32.i_vcmpgtss_xxo, Mnemonic32.i_vcmpss_xxoi. ss. }
apply Forall_nil. Qed.
Lemma start32 : Forall entry_a sims32.
Proof. unfold sims32.
arow. { unfold Mnemonic32.i_vcmple_oqpd_xxo, Mnemonic32.i_vcmppd_xxoi. ss. }
arow. { unfold Mnemonic32.i_vcmple_oqps_xxo, Mnemonic32.i_vcmpps_xxoi. ss. }
arow. { unfold Mnemonic32.i_vcmple_oqsd_xxo, Mnemonic32.i_vcmpsd_xxoi. ss. }
arow. { unfold Mnemonic32.i_vcmple_oqss_xxo, Mnemonic32.i_vcmpss_xxoi. ss. }
arow. { unfold Mnemonic32.i_vcmplepd_xxo, Mnemonic32.i_vcmppd_xxoi. ss. }
arow. { unfold Mnemonic32.i_vcmpleps_xxo, Mnemonic32.i_vcmpps_xxoi. ss. }
arow. { unfold Mnemonic32.i_vcmplesd_xxo, Mnemonic32.i_vcmpsd_xxoi. ss. }
arow. { unfold Mnemonic32.i_vcmpless_xxo, Mnemonic32.i_vcmpss_xxoi. ss. }
arow. { unfold Mnemonic32.i_vcmplt_oqpd_xxo, Mnemonic32.i_vcmppd_xxoi. ss. }
arow. { unfold Mnemonic32.i_vcmplt_oqps_xxo, Mnemonic32.i_vcmpps_xxoi. ss. }
arow. { unfold Mnemonic32.i_vcmplt_oqsd_xxo, Mnemonic32.i_vcmpsd_xxoi. ss. }
arow. { unfold Mnemonic32.i_vcmplt_oqss_xxo, Mnemonic32.i_vcmpss_xxoi. ss. }
arow. { unfold Mnemonic32.i_vcmpltpd_xxo, Mnemonic32.i_vcmppd_xxoi. ss. }
arow. { unfold Mnemonic32.i_vcmpltps_xxo, Mnemonic32.i_vcmpps_xxoi. ss. }
arow. { unfold Mnemonic32.i_vcmpltsd_xxo, Mnemonic32.i_vcmpsd_xxoi. ss. }
arow. { unfold Mnemonic32.i_vcmpltss_xxo, Mnemonic32.i_vcmpss_xxoi. ss. }
arow. { unfold Mnemonic32.i_vcmpneq_oqpd_xxo, Mnemonic32.i_vcmppd_xxoi. ss. }
arow. { unfold Mnemonic32.i_vcmpneq_oqps_xxo, Mnemonic32.i_vcmpps_xxoi. ss. }
arow. { unfold Mnemonic32.i_vcmpneq_oqsd_xxo, Mnemonic32.i_vcmpsd_xxoi. ss. }
arow. { unfold Mnemonic32.i_vcmpneq_oqss_xxo, Mnemonic32.i_vcmpss_xxoi. ss. }
arow. { unfold Mnemonic32.i_vcmpneq_ospd_xxo, Mnemonic32.i_vcmppd_xxoi. ss. }
arow. { unfold Mnemonic32.i_vcmpneq_osps_xxo, Mnemonic32.i_vcmpps_xxoi. ss. }
arow. { unfold Mnemonic32.i_vcmpneq_ossd_xxo, Mnemonic32.i_vcmpsd_xxoi. ss. }
arow. { unfold Mnemonic32.i_vcmpneq_osss_xxo, Mnemonic32.i_vcmpss_xxoi. ss. }
arow. { unfold Mnemonic32.i_vcmpneq_uspd_xxo, Mnemonic32.i_vcmppd_xxoi. ss. }
apply Forall_nil. Qed.
Lemma start33 : Forall entry_a sims33.
Proof. unfold sims33.
arow. { unfold Mnemonic32.i_vcmpneq_usps_xxo, Mnemonic32.i_vcmpps_xxoi. ss. }
arow. { unfold Mnemonic32.i_vcmpneq_ussd_xxo, Mnemonic32.i_vcmpsd_xxoi. ss. }
arow. { unfold Mnemonic32.i_vcmpneq_usss_xxo, Mnemonic32.i_vcmpss_xxoi. ss. }
arow. { unfold Mnemonic32.i_vcmpneqpd_xxo, Mnemonic32.i_vcmppd_xxoi. ss. }
arow. { unfold Mnemonic32.i_vcmpneqps_xxo, Mnemonic32.i_vcmpps_xxoi. ss. }
arow. { unfold Mnemonic32.i_vcmpneqsd_xxo, Mnemonic32.i_vcmpsd_xxoi. ss. }
arow. { unfold Mnemonic32.i_vcmpneqss_xxo, Mnemonic32.i_vcmpss_xxoi. ss. }
arow. { unfold Mnemonic32.i_vcmpnge_uqpd_xxo, Mnemonic32.i_vcmppd_xxoi. ss. }
arow. { unfold Mnemonic32.i_vcmpnge_uqps_xxo, Mnemonic32.i_vcmpps_xxoi. ss. }
arow. { unfold Mnemonic32.i_vcmpnge_uqsd_xxo, Mnemonic32.i_vcmpsd_xxoi. ss. }
arow. { unfold Mnemonic32.i_vcmpnge_uqss_xxo, Mnemonic32.i_vcmpss_xxoi. ss. }
arow. { unfold Mnemonic32.i_vcmpngepd_xxo, Mnemonic32.i_vcmppd_xxoi. ss. }
arow. { unfold Mnemonic32.i_vcmpngeps_xxo, Mnemonic32.i_vcmpps_xxoi. ss. }
arow. { unfold Mnemonic32.i_vcmpngesd_xxo, Mnemonic32.i_vcmpsd_xxoi. ss. }
arow. { unfold Mnemonic32.i_vcmpngess_xxo, Mnemonic32.i_vcmpss_xxoi. ss. }
arow. { unfold Mnemonic32.i_vcmpngt_uqpd_xxo, Mnemonic32.i_vcmppd_xxoi. ss. }
arow. { unfold Mnemonic32.i_vcmpngt_uqps_xxo, Mnemonic32.i_vcmpps_xxoi. ss. }
arow. { unfold Mnemonic32.i_vcmpngt_uqsd_xxo, Mnemonic32.i_vcmpsd_xxoi. ss. }
arow. { unfold Mnemonic32.i_vcmpngt_uqss_xxo, Mnemonic32.i_vcmpss_xxoi. ss. }
arow. { unfold Mnemonic32.i_vcmpngtpd_xxo, Mnemonic32.i_vcmppd_xxoi. ss. }
arow. { unfold Mnemonic32.i_vcmpngtps_xxo, Mnemonic32.i_vcmpps_xxoi. ss. }
arow. { unfold Mnemonic32.i_vcmpngtsd_xxo, Mnemonic32.i_vcmpsd_xxoi. ss. }
arow. { unfold Mnemonic32.i_vcmpngtss_xxo, Mnemonic32.i_vcmpss_xxoi. ss. }
arow. { unfold Mnemonic32.i_vcmpnle_uqpd_xxo, Mnemonic32.i_vcmppd_xxoi. ss. }
arow. { unfold Mnemonic32.i_vcmpnle_uqps_xxo, Mnemonic32.i_vcmpps_xxoi. ss. }
apply Forall_nil. Qed.
Lemma start34 : Forall entry_a sims34.
Proof. unfold sims34.
arow. { unfold Mnemonic32.i_vcmpnle_uqsd_xxo, Mnemonic32.i_vcmpsd_xxoi. ss. }
arow. { unfold Mnemonic32.i_vcmpnle_uqss_xxo, Mnemonic32.i_vcmpss_xxoi. ss. }
arow. { unfold Mnemonic32.i_vcmpnlepd_xxo, Mnemonic32.i_vcmppd_xxoi. ss. }
arow. { unfold Mnemonic32.i_vcmpnleps_xxo, Mnemonic32.i_vcmpps_xxoi. ss. }
arow. { unfold Mnemonic32.i_vcmpnlesd_xxo, Mnemonic32.i_vcmpsd_xxoi. ss. }
arow. { unfold Mnemonic32.i_vcmpnless_xxo, Mnemonic32.i_vcmpss_xxoi. ss. }
arow. { unfold Mnemonic32.i_vcmpnlt_uqpd_xxo, Mnemonic32.i_vcmppd_xxoi. ss. }
arow. { unfold Mnemonic32.i_vcmpnlt_uqps_xxo, Mnemonic32.i_vcmpps_xxoi. ss. }
arow. { unfold Mnemonic32.i_vcmpnlt_uqsd_xxo, Mnemonic32.i_vcmpsd_xxoi. ss. }
arow. { unfold Mnemonic32.i_vcmpnlt_uqss_xxo, Mnemonic32.i_vcmpss_xxoi. ss. }
arow. { unfold Mnemonic32.i_vcmpnltpd_xxo, Mnemonic32.i_vcmppd_xxoi. ss. }
arow. { unfold Mnemonic32.i_vcmpnltps_xxo, Mnemonic32.i_vcmpps_xxoi. ss. }
arow. { unfold Mnemonic32.i_vcmpnltsd_xxo, Mnemonic32.i_vcmpsd_xxoi. ss. }
arow. { unfold Mnemonic32.i_vcmpnltss_xxo, Mnemonic32.i_vcmpss_xxoi. ss. }
arow. { unfold Mnemonic32.i_vcmpord_spd_xxo, Mnemonic32.i_vcmppd_xxoi. ss. }
arow. { unfold Mnemonic32.i_vcmpord_sps_xxo, Mnemonic32.i_vcmpps_xxoi. ss. }
arow. { unfold Mnemonic32.i_vcmpord_ssd_xxo, Mnemonic32.i_vcmpsd_xxoi. ss. }
arow. { unfold Mnemonic32.i_vcmpord_sss_xxo, Mnemonic32.i_vcmpss_xxoi. ss. }
arow. { unfold Mnemonic32.i_vcmpordpd_xxo, Mnemonic32.i_vcmppd_xxoi. ss. }
arow. { unfold Mnemonic32.i_vcmpordps_xxo, Mnemonic32.i_vcmpps_xxoi. ss. }
arow. { unfold Mnemonic32.i_vcmpordsd_xxo, Mnemonic32.i_vcmpsd_xxoi. ss. }
arow. { unfold Mnemonic32.i_vcmpordss_xxo, Mnemonic32.i_vcmpss_xxoi. ss. }
arow. { unfold Mnemonic32.i_vcmptrue_uspd_xxo, Mnemonic32.i_vcmppd_xxoi. ss. }
arow. { unfold Mnemonic32.i_vcmptrue_usps_xxo, Mnemonic32.i_vcmpps_xxoi. ss. }
arow. { unfold Mnemonic32.i_vcmptrue_ussd_xxo, Mnemonic32.i_vcmpsd_xxoi. ss. }
apply Forall_nil. Qed.
Lemma start35 : Forall entry_a sims35.
Proof. unfold sims35.
arow. { unfold Mnemonic32.i_vcmptrue_usss_xxo, Mnemonic32.i_vcmpss_xxoi. ss. }
arow. { unfold Mnemonic32.i_vcmptruepd_xxo, Mnemonic32.i_vcmppd_xxoi. ss. }
arow. { unfold Mnemonic32.i_vcmptrueps_xxo, Mnemonic32.i_vcmpps_xxoi. ss. }
arow. { unfold Mnemonic32.i_vcmptruesd_xxo, Mnemonic32.i_vcmpsd_xxoi. ss. }
arow. { unfold Mnemonic32.i_vcmptruess_xxo, Mnemonic32.i_vcmpss_xxoi. ss. }
arow. { unfold Mnemonic32.i_vcmpunord_spd_xxo, Mnemonic32.i_vcmppd_xxoi. ss. }
arow. { unfold Mnemonic32.i_vcmpunord_sps_xxo, Mnemonic32.i_vcmpps_xxoi. ss. }
arow. { unfold Mnemonic32.i_vcmpunord_ssd_xxo, Mnemonic32.i_vcmpsd_xxoi. ss. }
arow. { unfold Mnemonic32.i_vcmpunord_sss_xxo, Mnemonic32.i_vcmpss_xxoi. ss. }
arow. { unfold Mnemonic32.i_vcmpunordpd_xxo, Mnemonic32.i_vcmppd_xxoi. ss. }
arow. { unfold Mnemonic32.i_vcmpunordps_xxo, Mnemonic32.i_vcmpps_xxoi. ss. }
arow. { unfold Mnemonic32.i_vcmpunordsd_xxo, Mnemonic32.i_vcmpsd_xxoi. ss. }
arow. { unfold Mnemonic32.i_vcmpunordss_xxo, Mnemonic32.i_vcmpss_xxoi. ss. }
arow. { unfold Mnemonic32.i_vcomisd. ss. }
arow. { unfold Mnemonic32.i_vcomiss. ss. }
arow. { unfold Mnemonic32.i_vcvtdq2pd. ss. }
arow. { unfold Mnemonic32.i_vcvtdq2ps. ss. }
arow. { unfold Mnemonic32.i_vcvtneebf162ps. ss. }
arow. { unfold Mnemonic32.i_vcvtneeph2ps. ss. }
arow. { unfold Mnemonic32.i_vcvtneobf162ps. ss. }
arow. { unfold Mnemonic32.i_vcvtneoph2ps. ss. }
arow. { unfold Mnemonic32.i_vcvtneps2bf16. ss. }
arow. { unfold Mnemonic32.i_vcvtpd2dq. ss. }
arow. { unfold Mnemonic32.i_vcvtpd2ps. ss. }
arow. { unfold Mnemonic32.i_vcvtph2ps. ss. }
apply Forall_nil. Qed.
Lemma start36 : Forall entry_a sims36.
Proof. unfold sims36.
arow. { unfold Mnemonic32.i_vcvtps2dq. ss. }
arow. { unfold Mnemonic32.i_vcvtps2pd. ss. }
arow. { unfold Mnemonic32.i_vcvtps2ph. ss. }
arow. { unfold Mnemonic32.i_vcvtsd2si_do. ss. }
arow. { unfold Mnemonic32.i_vcvtsd2ss_xxo. ss. }
arow. { unfold Mnemonic32.i_vcvtsi2sd_xxo. ss. }
arow. { unfold Mnemonic32.i_vcvtsi2ss_xxo. ss. }
arow. { unfold Mnemonic32.i_vcvtss2sd_xxo. ss. }
arow. { unfold Mnemonic32.i_vcvtss2si_do. ss. }
arow. { unfold Mnemonic32.i_vcvttpd2dq. ss. }
arow. { unfold Mnemonic32.i_vcvttps2dq. ss. }
arow. { unfold Mnemonic32.i_vcvttsd2si_do. ss. }
arow. { unfold Mnemonic32.i_vcvttss2si_do. ss. }
arow. { unfold Mnemonic32.i_vdivpd. ss. }
arow. { unfold Mnemonic32.i_vdivps. ss. }
arow. { unfold Mnemonic32.i_vdivsd. ss. }
arow. { unfold Mnemonic32.i_vdivss. ss. }
arow. { unfold Mnemonic32.i_vdppd_xxoi. ss. }
arow. { unfold Mnemonic32.i_vdpps_xxoi. ss. }
arow. { unfold Mnemonic32.i_vextractf128. ss. }
arow. { unfold Mnemonic32.i_vextracti128. ss. }
arow. { unfold Mnemonic32.i_vextractps. ss. }
arow. { unfold Mnemonic32.i_vfmadd132pd. ss. }
arow. { unfold Mnemonic32.i_vfmadd132ps. ss. }
arow. { unfold Mnemonic32.i_vfmadd132sd. ss. }
apply Forall_nil. Qed.
Lemma start37 : Forall entry_a sims37.
Proof. unfold sims37.
arow. { unfold Mnemonic32.i_vfmadd132ss. ss. }
arow. { unfold Mnemonic32.i_vfmadd213pd. ss. }
arow. { unfold Mnemonic32.i_vfmadd213ps. ss. }
arow. { unfold Mnemonic32.i_vfmadd213sd. ss. }
arow. { unfold Mnemonic32.i_vfmadd213ss. ss. }
arow. { unfold Mnemonic32.i_vfmadd231pd. ss. }
arow. { unfold Mnemonic32.i_vfmadd231ps. ss. }
arow. { unfold Mnemonic32.i_vfmadd231sd. ss. }
arow. { unfold Mnemonic32.i_vfmadd231ss. ss. }
arow. { unfold Mnemonic32.i_vfmaddsub132pd. ss. }
arow. { unfold Mnemonic32.i_vfmaddsub132ps. ss. }
arow. { unfold Mnemonic32.i_vfmaddsub213pd. ss. }
arow. { unfold Mnemonic32.i_vfmaddsub213ps. ss. }
arow. { unfold Mnemonic32.i_vfmaddsub231pd. ss. }
arow. { unfold Mnemonic32.i_vfmaddsub231ps. ss. }
arow. { unfold Mnemonic32.i_vfmsub132pd. ss. }
arow. { unfold Mnemonic32.i_vfmsub132ps. ss. }
arow. { unfold Mnemonic32.i_vfmsub132sd. ss. }
arow. { unfold Mnemonic32.i_vfmsub132ss. ss. }
arow. { unfold Mnemonic32.i_vfmsub213pd. ss. }
arow. { unfold Mnemonic32.i_vfmsub213ps. ss. }
arow. { unfold Mnemonic32.i_vfmsub213sd. ss. }
arow. { unfold Mnemonic32.i_vfmsub213ss. ss. }
arow. { unfold Mnemonic32.i_vfmsub231pd. ss. }
arow. { unfold Mnemonic32.i_vfmsub231ps. ss. }
apply Forall_nil. Qed.
Lemma start38 : Forall entry_a sims38.
Proof. unfold sims38.
arow. { unfold Mnemonic32.i_vfmsub231sd. ss. }
arow. { unfold Mnemonic32.i_vfmsub231ss. ss. }
arow. { unfold Mnemonic32.i_vfmsubadd132pd. ss. }
arow. { unfold Mnemonic32.i_vfmsubadd132ps. ss. }
arow. { unfold Mnemonic32.i_vfmsubadd213pd. ss. }
arow. { unfold Mnemonic32.i_vfmsubadd213ps. ss. }
arow. { unfold Mnemonic32.i_vfmsubadd231pd. ss. }
arow. { unfold Mnemonic32.i_vfmsubadd231ps. ss. }
arow. { unfold Mnemonic32.i_vfnmadd132pd. ss. }
arow. { unfold Mnemonic32.i_vfnmadd132ps. ss. }
arow. { unfold Mnemonic32.i_vfnmadd132sd. ss. }
arow. { unfold Mnemonic32.i_vfnmadd132ss. ss. }
arow. { unfold Mnemonic32.i_vfnmadd213pd. ss. }
arow. { unfold Mnemonic32.i_vfnmadd213ps. ss. }
arow. { unfold Mnemonic32.i_vfnmadd213sd. ss. }
arow. { unfold Mnemonic32.i_vfnmadd213ss. ss. }
arow. { unfold Mnemonic32.i_vfnmadd231pd. ss. }
arow. { unfold Mnemonic32.i_vfnmadd231ps. ss. }
arow. { unfold Mnemonic32.i_vfnmadd231sd. ss. }
arow. { unfold Mnemonic32.i_vfnmadd231ss. ss. }
arow. { unfold Mnemonic32.i_vfnmsub132pd. ss. }
arow. { unfold Mnemonic32.i_vfnmsub132ps. ss. }
arow. { unfold Mnemonic32.i_vfnmsub132sd. ss. }
arow. { unfold Mnemonic32.i_vfnmsub132ss. ss. }
arow. { unfold Mnemonic32.i_vfnmsub213pd. ss. }
apply Forall_nil. Qed.
Lemma start39 : Forall entry_a sims39.
Proof. unfold sims39.
arow. { unfold Mnemonic32.i_vfnmsub213ps. ss. }
arow. { unfold Mnemonic32.i_vfnmsub213sd. ss. }
arow. { unfold Mnemonic32.i_vfnmsub213ss. ss. }
arow. { unfold Mnemonic32.i_vfnmsub231pd. ss. }
arow. { unfold Mnemonic32.i_vfnmsub231ps. ss. }
arow. { unfold Mnemonic32.i_vfnmsub231sd. ss. }
arow. { unfold Mnemonic32.i_vfnmsub231ss. ss. }
arow. { unfold Mnemonic32.i_vgatherdpd_xax. ss. }
arow. { unfold Mnemonic32.i_vgatherdps_xax. ss. }
arow. { unfold Mnemonic32.i_vgatherqpd_xax. ss. }
arow. { unfold Mnemonic32.i_vgatherqps_xax. ss. }
arow. { unfold Mnemonic32.i_vgf2p8affineinvqb. ss. }
arow. { unfold Mnemonic32.i_vgf2p8affineqb. ss. }
arow. { unfold Mnemonic32.i_vgf2p8mulb. ss. }
arow. { unfold Mnemonic32.i_vhaddpd. ss. }
arow. { unfold Mnemonic32.i_vhaddps. ss. }
arow. { unfold Mnemonic32.i_vhsubpd. ss. }
arow. { unfold Mnemonic32.i_vhsubps. ss. }
arow. { unfold Mnemonic32.i_vinsertf128. ss. }
arow. { unfold Mnemonic32.i_vinserti128. ss. }
arow. { unfold Mnemonic32.i_vinsertps_xxoi. ss. }
arow. { unfold Mnemonic32.i_vlddqu. ss. }
arow. { unfold Mnemonic32.i_vldmxcsr. ss. }
arow. { unfold Mnemonic32.i_vmaskmovdqu. ss. }
arow. { unfold Mnemonic32.i_vmaskmovpd_axx. ss. }
apply Forall_nil. Qed.
Lemma start40 : Forall entry_a sims40.
Proof. unfold sims40.
arow. { unfold Mnemonic32.i_vmaskmovpd_xxa. ss. }
arow. { unfold Mnemonic32.i_vmaskmovps_axx. ss. }
arow. { unfold Mnemonic32.i_vmaskmovps_xxa. ss. }
arow. { unfold Mnemonic32.i_vmaxpd. ss. }
arow. { unfold Mnemonic32.i_vmaxps. ss. }
arow. { unfold Mnemonic32.i_vmaxsd. ss. }
arow. { unfold Mnemonic32.i_vmaxss. ss. }
arow. { unfold Mnemonic32.i_vminpd. ss. }
arow. { unfold Mnemonic32.i_vminps. ss. }
arow. { unfold Mnemonic32.i_vminsd. ss. }
arow. { unfold Mnemonic32.i_vminss. ss. }
arow. { unfold Mnemonic32.i_vmovapd_ax. ss. }
arow. { unfold Mnemonic32.i_vmovapd_xo. ss. }
arow. { unfold Mnemonic32.i_vmovaps_ax. ss. }
arow. { unfold Mnemonic32.i_vmovaps_xo. ss. }
arow. { unfold Mnemonic32.i_vmovddup. ss. }
arow. { unfold Mnemonic32.i_vmovdqa_ax. ss. }
arow. { unfold Mnemonic32.i_vmovdqa_xo. ss. }
arow. { unfold Mnemonic32.i_vmovdqu_ax. ss. }
arow. { unfold Mnemonic32.i_vmovdqu_xo. ss. }
arow. { unfold Mnemonic32.i_vmovhlps. ss. }
arow. { unfold Mnemonic32.i_vmovhpd_ax. ss. }
arow. { unfold Mnemonic32.i_vmovhpd_xoo. ss. }
arow. { unfold Mnemonic32.i_vmovhps_ax. ss. }
arow. { unfold Mnemonic32.i_vmovhps_xoo. ss. }
apply Forall_nil. Qed.
Lemma start41 : Forall entry_a sims41.
Proof. unfold sims41.
arow. { unfold Mnemonic32.i_vmovlhps. ss. }
arow. { unfold Mnemonic32.i_vmovlpd_ax. ss. }
arow. { unfold Mnemonic32.i_vmovlpd_xoo. ss. }
arow. { unfold Mnemonic32.i_vmovlps_ax. ss. }
arow. { unfold Mnemonic32.i_vmovlps_xoo. ss. }
arow. { unfold Mnemonic32.i_vmovntdq. ss. }
arow. { unfold Mnemonic32.i_vmovntdqa. ss. }
arow. { unfold Mnemonic32.i_vmovntpd. ss. }
arow. { unfold Mnemonic32.i_vmovntps. ss. }
arow. { unfold Mnemonic32.i_vmovq_ax. ss. }
arow. { unfold Mnemonic32.i_vmovq_xa. ss. }
arow. { unfold Mnemonic32.i_vmovq_xx. ss. }
arow. { unfold Mnemonic32.i_vmovsd_ax. ss. }
arow. { unfold Mnemonic32.i_vmovsd_xa. ss. }
arow. { unfold Mnemonic32.i_vmovsd_xxo. ss. }
arow. { unfold Mnemonic32.i_vmovshdup. ss. }
arow. { unfold Mnemonic32.i_vmovsldup. ss. }
arow. { unfold Mnemonic32.i_vmovss_ax. ss. }
arow. { unfold Mnemonic32.i_vmovss_xa. ss. }
arow. { unfold Mnemonic32.i_vmovss_xxo. ss. }
arow. { unfold Mnemonic32.i_vmovupd_ax. ss. }
arow. { unfold Mnemonic32.i_vmovupd_xo. ss. }
arow. { unfold Mnemonic32.i_vmovups_ax. ss. }
arow. { unfold Mnemonic32.i_vmovups_xo. ss. }
arow. { unfold Mnemonic32.i_vmulpd. ss. }
apply Forall_nil. Qed.
Lemma start42 : Forall entry_a sims42.
Proof. unfold sims42.
arow. { unfold Mnemonic32.i_vmulps. ss. }
arow. { unfold Mnemonic32.i_vmulsd. ss. }
arow. { unfold Mnemonic32.i_vmulss. ss. }
arow. { unfold Mnemonic32.i_vorpd. ss. }
arow. { unfold Mnemonic32.i_vorps. ss. }
arow. { unfold Mnemonic32.i_vpabsb. ss. }
arow. { unfold Mnemonic32.i_vpabsd. ss. }
arow. { unfold Mnemonic32.i_vpabsw. ss. }
arow. { unfold Mnemonic32.i_vpackssdw_xxo. ss. }
arow. { unfold Mnemonic32.i_vpacksswb_xxo. ss. }
arow. { unfold Mnemonic32.i_vpackusdw_xxo. ss. }
arow. { unfold Mnemonic32.i_vpackuswb_xxo. ss. }
arow. { unfold Mnemonic32.i_vpaddb_xxo. ss. }
arow. { unfold Mnemonic32.i_vpaddd_xxo. ss. }
arow. { unfold Mnemonic32.i_vpaddq_xxo. ss. }
arow. { unfold Mnemonic32.i_vpaddsb_xxo. ss. }
arow. { unfold Mnemonic32.i_vpaddsw_xxo. ss. }
arow. { unfold Mnemonic32.i_vpaddusb_xxo. ss. }
arow. { unfold Mnemonic32.i_vpaddusw_xxo. ss. }
arow. { unfold Mnemonic32.i_vpaddw_xxo. ss. }
arow. { unfold Mnemonic32.i_vpalignr_xxoi. ss. }
arow. { unfold Mnemonic32.i_vpand_xxo. ss. }
arow. { unfold Mnemonic32.i_vpandn_xxo. ss. }
arow. { unfold Mnemonic32.i_vpavgb_xxo. ss. }
arow. { unfold Mnemonic32.i_vpavgw_xxo. ss. }
apply Forall_nil. Qed.
Lemma start43 : Forall entry_a sims43.
Proof. unfold sims43.
arow. { unfold Mnemonic32.i_vpblendd_xxoi. ss. }
arow. { unfold Mnemonic32.i_vpblendvb_xxox. ss. }
arow. { unfold Mnemonic32.i_vpblendw_xxoi. ss. }
arow. { unfold Mnemonic32.i_vpbroadcastb_xo. ss. }
arow. { unfold Mnemonic32.i_vpbroadcastd_xo. ss. }
arow. { unfold Mnemonic32.i_vpbroadcastq_xo. ss. }
arow. { unfold Mnemonic32.i_vpbroadcastw_xo. ss. }
arow. { unfold Mnemonic32.i_vpclmulqdq_xxoi. ss. }
arow. { unfold Mnemonic32.i_vpclmulhqhqdq, Mnemonic32.i_vpclmulqdq_xxoi. ss. }
arow. { unfold Mnemonic32.i_vpclmulhqlqdq, Mnemonic32.i_vpclmulqdq_xxoi. ss. }
arow. { unfold Mnemonic32.i_vpclmullqhqdq, Mnemonic32.i_vpclmulqdq_xxoi. ss. }
arow. { unfold Mnemonic32.i_vpclmullqlqdq, Mnemonic32.i_vpclmulqdq_xxoi. ss. }
arow. { unfold Mnemonic32.i_vpcmpeqb_xxo. ss. }
arow. { unfold Mnemonic32.i_vpcmpeqd_xxo. ss. }
arow. { unfold Mnemonic32.i_vpcmpeqq_xxo. ss. }
arow. { unfold Mnemonic32.i_vpcmpeqw_xxo. ss. }
arow. { unfold Mnemonic32.i_vpcmpestri. ss. }
arow. { unfold Mnemonic32.i_vpcmpestrm. ss. }
arow. { unfold Mnemonic32.i_vpcmpgtb_xxo. ss. }
arow. { unfold Mnemonic32.i_vpcmpgtd_xxo. ss. }
arow. { unfold Mnemonic32.i_vpcmpgtq_xxo. ss. }
arow. { unfold Mnemonic32.i_vpcmpgtw_xxo. ss. }
arow. { unfold Mnemonic32.i_vpcmpistri. ss. }
arow. { unfold Mnemonic32.i_vpcmpistrm. ss. }
arow. { unfold Mnemonic32.i_vpdpbusd. ss. }
apply Forall_nil. Qed.
Lemma start44 : Forall entry_a sims44.
Proof. unfold sims44.
arow. { unfold Mnemonic32.i_vpdpbusds. ss. }
arow. { unfold Mnemonic32.i_vpdpwssd. ss. }
arow. { unfold Mnemonic32.i_vpdpwssds. ss. }
arow. { unfold Mnemonic32.i_vperm2f128. ss. }
arow. { unfold Mnemonic32.i_vperm2i128. ss. }
arow. { unfold Mnemonic32.i_vpermd. ss. }
arow. { unfold Mnemonic32.i_vpermilpd_xxo. ss. }
arow. { unfold Mnemonic32.i_vpermilpd_xoi. ss. }
arow. { unfold Mnemonic32.i_vpermilps_xxo. ss. }
arow. { unfold Mnemonic32.i_vpermilps_xoi. ss. }
arow. { unfold Mnemonic32.i_vpermpd_yoi. ss. }
arow. { unfold Mnemonic32.i_vpermpd_yyo. ss. }
arow. { unfold Mnemonic32.i_vpermps. ss. }
arow. { unfold Mnemonic32.i_vpermq_yoi. ss. }
arow. { unfold Mnemonic32.i_vpermq_yyo. ss. }
arow. { unfold Mnemonic32.i_vpextrb. ss. }
arow. { unfold Mnemonic32.i_vpextrd. ss. }
arow. { unfold Mnemonic32.i_vpextrq. ss. }
arow. { unfold Mnemonic32.i_vpextrw. ss. }
arow. { unfold Mnemonic32.i_vpgatherdd_xax. ss. }
arow. { unfold Mnemonic32.i_vpgatherdq_xax. ss. }
arow. { unfold Mnemonic32.i_vpgatherqd_xax. ss. }
arow. { unfold Mnemonic32.i_vpgatherqq_xax. ss. }
arow. { unfold Mnemonic32.i_vphaddd_xxo. ss. }
arow. { unfold Mnemonic32.i_vphaddsw_xxo. ss. }
apply Forall_nil. Qed.
Lemma start45 : Forall entry_a sims45.
Proof. unfold sims45.
arow. { unfold Mnemonic32.i_vphaddw_xxo. ss. }
arow. { unfold Mnemonic32.i_vphminposuw. ss. }
arow. { unfold Mnemonic32.i_vphsubd_xxo. ss. }
arow. { unfold Mnemonic32.i_vphsubsw_xxo. ss. }
arow. { unfold Mnemonic32.i_vphsubw_xxo. ss. }
arow. { unfold Mnemonic32.i_vpinsrb_xxoi. ss. }
arow. { unfold Mnemonic32.i_vpinsrd_xxoi. ss. }
arow. { unfold Mnemonic32.i_vpinsrq_xxoi. ss. }
arow. { unfold Mnemonic32.i_vpinsrw_xxoi. ss. }
arow. { unfold Mnemonic32.i_vpmaddubsw_xxo. ss. }
arow. { unfold Mnemonic32.i_vpmaddwd_xxo. ss. }
arow. { unfold Mnemonic32.i_vpmaskmovd_axx. ss. }
arow. { unfold Mnemonic32.i_vpmaskmovd_xxa. ss. }
arow. { unfold Mnemonic32.i_vpmaskmovq_axx. ss. }
arow. { unfold Mnemonic32.i_vpmaskmovq_xxa. ss. }
arow. { unfold Mnemonic32.i_vpmaxsb_xxo. ss. }
arow. { unfold Mnemonic32.i_vpmaxsd_xxo. ss. }
arow. { unfold Mnemonic32.i_vpmaxsw_xxo. ss. }
arow. { unfold Mnemonic32.i_vpmaxub_xxo. ss. }
arow. { unfold Mnemonic32.i_vpmaxud_xxo. ss. }
arow. { unfold Mnemonic32.i_vpmaxuw_xxo. ss. }
arow. { unfold Mnemonic32.i_vpminsb_xxo. ss. }
arow. { unfold Mnemonic32.i_vpminsd_xxo. ss. }
arow. { unfold Mnemonic32.i_vpminsw_xxo. ss. }
arow. { unfold Mnemonic32.i_vpminub_xxo. ss. }
apply Forall_nil. Qed.
Lemma start46 : Forall entry_a sims46.
Proof. unfold sims46.
arow. { unfold Mnemonic32.i_vpminud_xxo. ss. }
arow. { unfold Mnemonic32.i_vpminuw_xxo. ss. }
arow. { unfold Mnemonic32.i_vpmovmskb. ss. }
arow. { unfold Mnemonic32.i_vpmovsxbd. ss. }
arow. { unfold Mnemonic32.i_vpmovsxbq. ss. }
arow. { unfold Mnemonic32.i_vpmovsxbw. ss. }
arow. { unfold Mnemonic32.i_vpmovsxdq. ss. }
arow. { unfold Mnemonic32.i_vpmovsxwd. ss. }
arow. { unfold Mnemonic32.i_vpmovsxwq. ss. }
arow. { unfold Mnemonic32.i_vpmovzxbd. ss. }
arow. { unfold Mnemonic32.i_vpmovzxbq. ss. }
arow. { unfold Mnemonic32.i_vpmovzxbw. ss. }
arow. { unfold Mnemonic32.i_vpmovzxdq. ss. }
arow. { unfold Mnemonic32.i_vpmovzxwd. ss. }
arow. { unfold Mnemonic32.i_vpmovzxwq. ss. }
arow. { unfold Mnemonic32.i_vpmuldq_xxo. ss. }
arow. { unfold Mnemonic32.i_vpmulhrsw_xxo. ss. }
arow. { unfold Mnemonic32.i_vpmulhuw_xxo. ss. }
arow. { unfold Mnemonic32.i_vpmulhw_xxo. ss. }
arow. { unfold Mnemonic32.i_vpmulld_xxo. ss. }
arow. { unfold Mnemonic32.i_vpmullw_xxo. ss. }
arow. { unfold Mnemonic32.i_vpmuludq_xxo. ss. }
arow. { unfold Mnemonic32.i_vpor_xxo. ss. }
arow. { unfold Mnemonic32.i_vpsadbw_xxo. ss. }
arow. { unfold Mnemonic32.i_vpshufb. ss. }
apply Forall_nil. Qed.
Lemma start47 : Forall entry_a sims47.
Proof. unfold sims47.
arow. { unfold Mnemonic32.i_vpshufd. ss. }
arow. { unfold Mnemonic32.i_vpshufhw. ss. }
arow. { unfold Mnemonic32.i_vpshuflw. ss. }
arow. { unfold Mnemonic32.i_vpsignb_xxo. ss. }
arow. { unfold Mnemonic32.i_vpsignd_xxo. ss. }
arow. { unfold Mnemonic32.i_vpsignw_xxo. ss. }
arow. { unfold Mnemonic32.i_vpslld_xoi. ss. }
arow. { unfold Mnemonic32.i_vpslld_xxo. ss. }
arow. { unfold Mnemonic32.i_vpslldq_xoi. ss. }
arow. { unfold Mnemonic32.i_vpsllq_xoi. ss. }
arow. { unfold Mnemonic32.i_vpsllq_xxo. ss. }
arow. { unfold Mnemonic32.i_vpsllvd. ss. }
arow. { unfold Mnemonic32.i_vpsllvq. ss. }
arow. { unfold Mnemonic32.i_vpsllw_xoi. ss. }
arow. { unfold Mnemonic32.i_vpsllw_xxo. ss. }
arow. { unfold Mnemonic32.i_vpsrad_xoi. ss. }
arow. { unfold Mnemonic32.i_vpsrad_xxo. ss. }
arow. { unfold Mnemonic32.i_vpsravd. ss. }
arow. { unfold Mnemonic32.i_vpsraw_xoi. ss. }
arow. { unfold Mnemonic32.i_vpsraw_xxo. ss. }
arow. { unfold Mnemonic32.i_vpsrld_xoi. ss. }
arow. { unfold Mnemonic32.i_vpsrld_xxo. ss. }
arow. { unfold Mnemonic32.i_vpsrldq_xoi. ss. }
arow. { unfold Mnemonic32.i_vpsrlq_xoi. ss. }
arow. { unfold Mnemonic32.i_vpsrlq_xxo. ss. }
apply Forall_nil. Qed.
Lemma start48 : Forall entry_a sims48.
Proof. unfold sims48.
arow. { unfold Mnemonic32.i_vpsrlvd. ss. }
arow. { unfold Mnemonic32.i_vpsrlvq. ss. }
arow. { unfold Mnemonic32.i_vpsrlw_xoi. ss. }
arow. { unfold Mnemonic32.i_vpsrlw_xxo. ss. }
arow. { unfold Mnemonic32.i_vpsubb_xxo. ss. }
arow. { unfold Mnemonic32.i_vpsubd_xxo. ss. }
arow. { unfold Mnemonic32.i_vpsubq_xxo. ss. }
arow. { unfold Mnemonic32.i_vpsubsb_xxo. ss. }
arow. { unfold Mnemonic32.i_vpsubsw_xxo. ss. }
arow. { unfold Mnemonic32.i_vpsubusb_xxo. ss. }
arow. { unfold Mnemonic32.i_vpsubusw_xxo. ss. }
arow. { unfold Mnemonic32.i_vpsubw_xxo. ss. }
arow. { unfold Mnemonic32.i_vptest. ss. }
arow. { unfold Mnemonic32.i_vpunpckhbw_xxo. ss. }
arow. { unfold Mnemonic32.i_vpunpckhdq_xxo. ss. }
arow. { unfold Mnemonic32.i_vpunpckhqdq_xxo. ss. }
arow. { unfold Mnemonic32.i_vpunpckhwd_xxo. ss. }
arow. { unfold Mnemonic32.i_vpunpcklbw_xxo. ss. }
arow. { unfold Mnemonic32.i_vpunpckldq_xxo. ss. }
arow. { unfold Mnemonic32.i_vpunpcklqdq_xxo. ss. }
arow. { unfold Mnemonic32.i_vpunpcklwd_xxo. ss. }
arow. { unfold Mnemonic32.i_vpxor_xxo. ss. }
arow. { unfold Mnemonic32.i_vrcpps. ss. }
arow. { unfold Mnemonic32.i_vrcpss_xxo. ss. }
arow. { unfold Mnemonic32.i_vroundpd. ss. }
apply Forall_nil. Qed.
Lemma start49 : Forall entry_a sims49.
Proof. unfold sims49.
arow. { unfold Mnemonic32.i_vroundps. ss. }
arow. { unfold Mnemonic32.i_vroundsd_xxoi. ss. }
arow. { unfold Mnemonic32.i_vroundss_xxoi. ss. }
arow. { unfold Mnemonic32.i_vrsqrtps. ss. }
arow. { unfold Mnemonic32.i_vrsqrtss_xxo. ss. }
arow. { unfold Mnemonic32.i_vsha512msg1. ss. }
arow. { unfold Mnemonic32.i_vsha512msg2. ss. }
arow. { unfold Mnemonic32.i_vsha512rnds2. ss. }
arow. { unfold Mnemonic32.i_vshufpd_xxoi. ss. }
arow. { unfold Mnemonic32.i_vshufps_xxoi. ss. }
arow. { unfold Mnemonic32.i_vsm3msg1. ss. }
arow. { unfold Mnemonic32.i_vsm3msg2. ss. }
arow. { unfold Mnemonic32.i_vsm3rnds2. ss. }
arow. { unfold Mnemonic32.i_vsm4key4. ss. }
arow. { unfold Mnemonic32.i_vsm4rnds4. ss. }
arow. { unfold Mnemonic32.i_vsqrtpd. ss. }
arow. { unfold Mnemonic32.i_vsqrtps. ss. }
arow. { unfold Mnemonic32.i_vsqrtsd_xxo. ss. }
arow. { unfold Mnemonic32.i_vsqrtss_xxo. ss. }
arow. { unfold Mnemonic32.i_vstmxcsr. ss. }
arow. { unfold Mnemonic32.i_vsubpd. ss. }
arow. { unfold Mnemonic32.i_vsubps. ss. }
arow. { unfold Mnemonic32.i_vsubsd. ss. }
arow. { unfold Mnemonic32.i_vsubss. ss. }
arow. { unfold Mnemonic32.i_vtestpd. ss. }
apply Forall_nil. Qed.
Lemma start50 : Forall entry_a sims50.
Proof. unfold sims50.
arow. { unfold Mnemonic32.i_vtestps. ss. }
arow. { unfold Mnemonic32.i_vucomisd. ss. }
arow. { unfold Mnemonic32.i_vucomiss. ss. }
arow. { unfold Mnemonic32.i_vunpckhpd_xxo. ss. }
arow. { unfold Mnemonic32.i_vunpckhps_xxo. ss. }
arow. { unfold Mnemonic32.i_vunpcklpd_xxo. ss. }
arow. { unfold Mnemonic32.i_vunpcklps_xxo. ss. }
arow. { unfold Mnemonic32.i_vxorpd. ss. }
arow. { unfold Mnemonic32.i_vxorps. ss. }
arow. { unfold Mnemonic32.i_xadd. ss. }
srow. { unfold Mnemonic32.i_xor__oi. ss. }
arow. { unfold Mnemonic32.i_xor__oo. ss. }
xrow.
xrow.
arow. { unfold Mnemonic32.i_xorpd. ss. }
arow. { unfold Mnemonic32.i_xorps. ss. }
arow. { unfold Mnemonic32.i_and_oo, Mnemonic32.i_and__oo. ss. }
srow. { unfold Mnemonic32.i_and_oi, Mnemonic32.i_and__oi. ss. }
arow. { unfold Mnemonic32.i_or_oo, Mnemonic32.i_or__oo. ss. }
srow. { unfold Mnemonic32.i_or_oi, Mnemonic32.i_or__oi. ss. }
arow. { unfold Mnemonic32.i_xor_oo, Mnemonic32.i_xor__oo. ss. }
srow. { unfold Mnemonic32.i_xor_oi, Mnemonic32.i_xor__oi. ss. }
srow. { unfold Mnemonic32.i_not, Mnemonic32.i_not__o. ss. }
arow. { unfold MnemonicAvx32.i_vmpsadbw_xxoip. ss. }
arow. { unfold MnemonicAvx32.i_kaddb. ss. }
apply Forall_nil. Qed.
Lemma start51 : Forall entry_a sims51.
Proof. unfold sims51.
arow. { unfold MnemonicAvx32.i_kaddd. ss. }
arow. { unfold MnemonicAvx32.i_kaddq. ss. }
arow. { unfold MnemonicAvx32.i_kaddw. ss. }
arow. { unfold MnemonicAvx32.i_kandb. ss. }
arow. { unfold MnemonicAvx32.i_kandd. ss. }
arow. { unfold MnemonicAvx32.i_kandnb. ss. }
arow. { unfold MnemonicAvx32.i_kandnd. ss. }
arow. { unfold MnemonicAvx32.i_kandnq. ss. }
arow. { unfold MnemonicAvx32.i_kandnw. ss. }
arow. { unfold MnemonicAvx32.i_kandq. ss. }
arow. { unfold MnemonicAvx32.i_kandw. ss. }
arow. { unfold MnemonicAvx32.i_kmovb_ak. ss. }
arow. { unfold MnemonicAvx32.i_kmovb_ko. ss. }
arow. { unfold MnemonicAvx32.i_kmovb_dk. ss. }
arow. { unfold MnemonicAvx32.i_kmovd_ak. ss. }
arow. { unfold MnemonicAvx32.i_kmovd_ko. ss. }
arow. { unfold MnemonicAvx32.i_kmovd_dk. ss. }
arow. { unfold MnemonicAvx32.i_kmovq_ak. ss. }
arow. { unfold MnemonicAvx32.i_kmovq_ko. ss. }
arow. { unfold MnemonicAvx32.i_kmovw_ak. ss. }
arow. { unfold MnemonicAvx32.i_kmovw_ko. ss. }
arow. { unfold MnemonicAvx32.i_kmovw_dk. ss. }
arow. { unfold MnemonicAvx32.i_knotb. ss. }
arow. { unfold MnemonicAvx32.i_knotd. ss. }
arow. { unfold MnemonicAvx32.i_knotq. ss. }
apply Forall_nil. Qed.
Lemma start52 : Forall entry_a sims52.
Proof. unfold sims52.
arow. { unfold MnemonicAvx32.i_knotw. ss. }
arow. { unfold MnemonicAvx32.i_korb. ss. }
arow. { unfold MnemonicAvx32.i_kord. ss. }
arow. { unfold MnemonicAvx32.i_korq. ss. }
arow. { unfold MnemonicAvx32.i_kortestb. ss. }
arow. { unfold MnemonicAvx32.i_kortestd. ss. }
arow. { unfold MnemonicAvx32.i_kortestq. ss. }
arow. { unfold MnemonicAvx32.i_kortestw. ss. }
arow. { unfold MnemonicAvx32.i_korw. ss. }
arow. { unfold MnemonicAvx32.i_kshiftlb. ss. }
arow. { unfold MnemonicAvx32.i_kshiftld. ss. }
arow. { unfold MnemonicAvx32.i_kshiftlq. ss. }
arow. { unfold MnemonicAvx32.i_kshiftlw. ss. }
arow. { unfold MnemonicAvx32.i_kshiftrb. ss. }
arow. { unfold MnemonicAvx32.i_kshiftrd. ss. }
arow. { unfold MnemonicAvx32.i_kshiftrq. ss. }
arow. { unfold MnemonicAvx32.i_kshiftrw. ss. }
arow. { unfold MnemonicAvx32.i_ktestb. ss. }
arow. { unfold MnemonicAvx32.i_ktestd. ss. }
arow. { unfold MnemonicAvx32.i_ktestq. ss. }
arow. { unfold MnemonicAvx32.i_ktestw. ss. }
arow. { unfold MnemonicAvx32.i_kunpckbw. ss. }
arow. { unfold MnemonicAvx32.i_kunpckdq. ss. }
arow. { unfold MnemonicAvx32.i_kunpckwd. ss. }
arow. { unfold MnemonicAvx32.i_kxnorb. ss. }
apply Forall_nil. Qed.
Lemma start53 : Forall entry_a sims53.
Proof. unfold sims53.
arow. { unfold MnemonicAvx32.i_kxnord. ss. }
arow. { unfold MnemonicAvx32.i_kxnorq. ss. }
arow. { unfold MnemonicAvx32.i_kxnorw. ss. }
arow. { unfold MnemonicAvx32.i_kxorb. ss. }
arow. { unfold MnemonicAvx32.i_kxord. ss. }
arow. { unfold MnemonicAvx32.i_kxorq. ss. }
arow. { unfold MnemonicAvx32.i_kxorw. ss. }
arow. { unfold MnemonicAvx32.i_v4fmaddps. ss. }
arow. { unfold MnemonicAvx32.i_v4fmaddss. ss. }
arow. { unfold MnemonicAvx32.i_v4fnmaddps. ss. }
arow. { unfold MnemonicAvx32.i_v4fnmaddss. ss. }
arow. { unfold MnemonicAvx32.i_vaddnepbf16. ss. }
arow. { unfold MnemonicAvx32.i_vaddph. ss. }
arow. { unfold MnemonicAvx32.i_vaddsh. ss. }
arow. { unfold MnemonicAvx32.i_valignd. ss. }
arow. { unfold MnemonicAvx32.i_valignq. ss. }
arow. { unfold MnemonicAvx32.i_vblendmpd. ss. }
arow. { unfold MnemonicAvx32.i_vblendmps. ss. }
arow. { unfold MnemonicAvx32.i_vbroadcastf32x2. ss. }
arow. { unfold MnemonicAvx32.i_vbroadcastf32x4. ss. }
arow. { unfold MnemonicAvx32.i_vbroadcastf32x8. ss. }
arow. { unfold MnemonicAvx32.i_vbroadcastf64x2. ss. }
arow. { unfold MnemonicAvx32.i_vbroadcastf64x4. ss. }
arow. { unfold MnemonicAvx32.i_vbroadcasti32x2. ss. }
arow. { unfold MnemonicAvx32.i_vbroadcasti32x4. ss. }
apply Forall_nil. Qed.
Lemma start54 : Forall entry_a sims54.
Proof. unfold sims54.
arow. { unfold MnemonicAvx32.i_vbroadcasti32x8. ss. }
arow. { unfold MnemonicAvx32.i_vbroadcasti64x2. ss. }
arow. { unfold MnemonicAvx32.i_vbroadcasti64x4. ss. }
arow. { unfold MnemonicAvx32.i_vcmppd_kxoi. ss. }
arow. { unfold MnemonicAvx32.i_vcmpeq_ospd_kxo, MnemonicAvx32.i_vcmppd_kxoi. ss. }
arow. { unfold MnemonicAvx32.i_vcmpps_kxoi. ss. }
arow. { unfold MnemonicAvx32.i_vcmpeq_osps_kxo, MnemonicAvx32.i_vcmpps_kxoi. ss. }
arow. { unfold MnemonicAvx32.i_vcmpsd_kxoi. ss. }
arow. { unfold MnemonicAvx32.i_vcmpeq_ossd_kxo, MnemonicAvx32.i_vcmpsd_kxoi. ss. }
arow. { unfold MnemonicAvx32.i_vcmpss_kxoi. ss. }
arow. { unfold MnemonicAvx32.i_vcmpeq_osss_kxo, MnemonicAvx32.i_vcmpss_kxoi. ss. }
arow. { unfold MnemonicAvx32.i_vcmpeq_uqpd_kxo, MnemonicAvx32.i_vcmppd_kxoi. ss. }
arow. { unfold MnemonicAvx32.i_vcmpeq_uqps_kxo, MnemonicAvx32.i_vcmpps_kxoi. ss. }
arow. { unfold MnemonicAvx32.i_vcmpeq_uqsd_kxo, MnemonicAvx32.i_vcmpsd_kxoi. ss. }
arow. { unfold MnemonicAvx32.i_vcmpeq_uqss_kxo, MnemonicAvx32.i_vcmpss_kxoi. ss. }
arow. { unfold MnemonicAvx32.i_vcmpeq_uspd_kxo, MnemonicAvx32.i_vcmppd_kxoi. ss. }
arow. { unfold MnemonicAvx32.i_vcmpeq_usps_kxo, MnemonicAvx32.i_vcmpps_kxoi. ss. }
arow. { unfold MnemonicAvx32.i_vcmpeq_ussd_kxo, MnemonicAvx32.i_vcmpsd_kxoi. ss. }
arow. { unfold MnemonicAvx32.i_vcmpeq_usss_kxo, MnemonicAvx32.i_vcmpss_kxoi. ss. }
arow. { unfold MnemonicAvx32.i_vcmpeqpd_kxo, MnemonicAvx32.i_vcmppd_kxoi. ss. }
arow. { unfold MnemonicAvx32.i_vcmpeqps_kxo, MnemonicAvx32.i_vcmpps_kxoi. ss. }
arow. { unfold MnemonicAvx32.i_vcmpeqsd_kxo, MnemonicAvx32.i_vcmpsd_kxoi. ss. }
arow. { unfold MnemonicAvx32.i_vcmpeqss_kxo, MnemonicAvx32.i_vcmpss_kxoi. ss. }
arow. { unfold MnemonicAvx32.i_vcmpfalse_ospd_kxo, MnemonicAvx32.i_vcmppd_kxoi. ss. }
arow. { unfold MnemonicAvx32.i_vcmpfalse_osps_kxo, MnemonicAvx32.i_vcmpps_kxoi. ss. }
apply Forall_nil. Qed.
Lemma start55 : Forall entry_a sims55.
Proof. unfold sims55.
arow. { unfold MnemonicAvx32.i_vcmpfalse_ossd_kxo, MnemonicAvx32.i_vcmpsd_kxoi. ss. }
arow. { unfold MnemonicAvx32.i_vcmpfalse_osss_kxo, MnemonicAvx32.i_vcmpss_kxoi. ss. }
arow. { unfold MnemonicAvx32.i_vcmpfalsepd_kxo, MnemonicAvx32.i_vcmppd_kxoi. ss. }
arow. { unfold MnemonicAvx32.i_vcmpfalseps_kxo, MnemonicAvx32.i_vcmpps_kxoi. ss. }
arow. { unfold MnemonicAvx32.i_vcmpfalsesd_kxo, MnemonicAvx32.i_vcmpsd_kxoi. ss. }
arow. { unfold MnemonicAvx32.i_vcmpfalsess_kxo, MnemonicAvx32.i_vcmpss_kxoi. ss. }
arow. { unfold MnemonicAvx32.i_vcmpge_oqpd_kxo, MnemonicAvx32.i_vcmppd_kxoi. ss. }
arow. { unfold MnemonicAvx32.i_vcmpge_oqps_kxo, MnemonicAvx32.i_vcmpps_kxoi. ss. }
arow. { unfold MnemonicAvx32.i_vcmpge_oqsd_kxo, MnemonicAvx32.i_vcmpsd_kxoi. ss. }
arow. { unfold MnemonicAvx32.i_vcmpge_oqss_kxo, MnemonicAvx32.i_vcmpss_kxoi. ss. }
arow. { unfold MnemonicAvx32.i_vcmpgepd_kxo, MnemonicAvx32.i_vcmppd_kxoi. ss. }
arow. { unfold MnemonicAvx32.i_vcmpgeps_kxo, MnemonicAvx32.i_vcmpps_kxoi. ss. }
arow. { unfold MnemonicAvx32.i_vcmpgesd_kxo, MnemonicAvx32.i_vcmpsd_kxoi. ss. }
arow. { unfold MnemonicAvx32.i_vcmpgess_kxo, MnemonicAvx32.i_vcmpss_kxoi. ss. }
arow. { unfold MnemonicAvx32.i_vcmpgt_oqpd_kxo, MnemonicAvx32.i_vcmppd_kxoi. ss. }
arow. { unfold MnemonicAvx32.i_vcmpgt_oqps_kxo, MnemonicAvx32.i_vcmpps_kxoi. ss. }
arow. { unfold MnemonicAvx32.i_vcmpgt_oqsd_kxo, MnemonicAvx32.i_vcmpsd_kxoi. ss. }
arow. { unfold MnemonicAvx32.i_vcmpgt_oqss_kxo, MnemonicAvx32.i_vcmpss_kxoi. ss. }
arow. { unfold MnemonicAvx32.i_vcmpgtpd_kxo, MnemonicAvx32.i_vcmppd_kxoi. ss. }
arow. { unfold MnemonicAvx32.i_vcmpgtps_kxo, MnemonicAvx32.i_vcmpps_kxoi. ss. }
arow. { unfold MnemonicAvx32.i_vcmpgtsd_kxo, MnemonicAvx32.i_vcmpsd_kxoi. ss. }
arow. { unfold MnemonicAvx32.i_vcmpgtss_kxo, MnemonicAvx32.i_vcmpss_kxoi. ss. }
arow. { unfold MnemonicAvx32.i_vcmple_oqpd_kxo, MnemonicAvx32.i_vcmppd_kxoi. ss. }
arow. { unfold MnemonicAvx32.i_vcmple_oqps_kxo, MnemonicAvx32.i_vcmpps_kxoi. ss. }
arow. { unfold MnemonicAvx32.i_vcmple_oqsd_kxo, MnemonicAvx32.i_vcmpsd_kxoi. ss. }
apply Forall_nil. Qed.
Lemma start56 : Forall entry_a sims56.
Proof. unfold sims56.
arow. { unfold MnemonicAvx32.i_vcmple_oqss_kxo, MnemonicAvx32.i_vcmpss_kxoi. ss. }
arow. { unfold MnemonicAvx32.i_vcmplepd_kxo, MnemonicAvx32.i_vcmppd_kxoi. ss. }
arow. { unfold MnemonicAvx32.i_vcmpleps_kxo, MnemonicAvx32.i_vcmpps_kxoi. ss. }
arow. { unfold MnemonicAvx32.i_vcmplesd_kxo, MnemonicAvx32.i_vcmpsd_kxoi. ss. }
arow. { unfold MnemonicAvx32.i_vcmpless_kxo, MnemonicAvx32.i_vcmpss_kxoi. ss. }
arow. { unfold MnemonicAvx32.i_vcmplt_oqpd_kxo, MnemonicAvx32.i_vcmppd_kxoi. ss. }
arow. { unfold MnemonicAvx32.i_vcmplt_oqps_kxo, MnemonicAvx32.i_vcmpps_kxoi. ss. }
arow. { unfold MnemonicAvx32.i_vcmplt_oqsd_kxo, MnemonicAvx32.i_vcmpsd_kxoi. ss. }
arow. { unfold MnemonicAvx32.i_vcmplt_oqss_kxo, MnemonicAvx32.i_vcmpss_kxoi. ss. }
arow. { unfold MnemonicAvx32.i_vcmpltpd_kxo, MnemonicAvx32.i_vcmppd_kxoi. ss. }
arow. { unfold MnemonicAvx32.i_vcmpltps_kxo, MnemonicAvx32.i_vcmpps_kxoi. ss. }
arow. { unfold MnemonicAvx32.i_vcmpltsd_kxo, MnemonicAvx32.i_vcmpsd_kxoi. ss. }
arow. { unfold MnemonicAvx32.i_vcmpltss_kxo, MnemonicAvx32.i_vcmpss_kxoi. ss. }
arow. { unfold MnemonicAvx32.i_vcmpneq_oqpd_kxo, MnemonicAvx32.i_vcmppd_kxoi. ss. }
arow. { unfold MnemonicAvx32.i_vcmpneq_oqps_kxo, MnemonicAvx32.i_vcmpps_kxoi. ss. }
arow. { unfold MnemonicAvx32.i_vcmpneq_oqsd_kxo, MnemonicAvx32.i_vcmpsd_kxoi. ss. }
arow. { unfold MnemonicAvx32.i_vcmpneq_oqss_kxo, MnemonicAvx32.i_vcmpss_kxoi. ss. }
arow. { unfold MnemonicAvx32.i_vcmpneq_ospd_kxo, MnemonicAvx32.i_vcmppd_kxoi. ss. }
arow. { unfold MnemonicAvx32.i_vcmpneq_osps_kxo, MnemonicAvx32.i_vcmpps_kxoi. ss. }
arow. { unfold MnemonicAvx32.i_vcmpneq_ossd_kxo, MnemonicAvx32.i_vcmpsd_kxoi. ss. }
arow. { unfold MnemonicAvx32.i_vcmpneq_osss_kxo, MnemonicAvx32.i_vcmpss_kxoi. ss. }
arow. { unfold MnemonicAvx32.i_vcmpneq_uspd_kxo, MnemonicAvx32.i_vcmppd_kxoi. ss. }
arow. { unfold MnemonicAvx32.i_vcmpneq_usps_kxo, MnemonicAvx32.i_vcmpps_kxoi. ss. }
arow. { unfold MnemonicAvx32.i_vcmpneq_ussd_kxo, MnemonicAvx32.i_vcmpsd_kxoi. ss. }
arow. { unfold MnemonicAvx32.i_vcmpneq_usss_kxo, MnemonicAvx32.i_vcmpss_kxoi. ss. }
apply Forall_nil. Qed.
Lemma start57 : Forall entry_a sims57.
Proof. unfold sims57.
arow. { unfold MnemonicAvx32.i_vcmpneqpd_kxo, MnemonicAvx32.i_vcmppd_kxoi. ss. }
arow. { unfold MnemonicAvx32.i_vcmpneqps_kxo, MnemonicAvx32.i_vcmpps_kxoi. ss. }
arow. { unfold MnemonicAvx32.i_vcmpneqsd_kxo, MnemonicAvx32.i_vcmpsd_kxoi. ss. }
arow. { unfold MnemonicAvx32.i_vcmpneqss_kxo, MnemonicAvx32.i_vcmpss_kxoi. ss. }
arow. { unfold MnemonicAvx32.i_vcmpnge_uqpd_kxo, MnemonicAvx32.i_vcmppd_kxoi. ss. }
arow. { unfold MnemonicAvx32.i_vcmpnge_uqps_kxo, MnemonicAvx32.i_vcmpps_kxoi. ss. }
arow. { unfold MnemonicAvx32.i_vcmpnge_uqsd_kxo, MnemonicAvx32.i_vcmpsd_kxoi. ss. }
arow. { unfold MnemonicAvx32.i_vcmpnge_uqss_kxo, MnemonicAvx32.i_vcmpss_kxoi. ss. }
arow. { unfold MnemonicAvx32.i_vcmpngepd_kxo, MnemonicAvx32.i_vcmppd_kxoi. ss. }
arow. { unfold MnemonicAvx32.i_vcmpngeps_kxo, MnemonicAvx32.i_vcmpps_kxoi. ss. }
arow. { unfold MnemonicAvx32.i_vcmpngesd_kxo, MnemonicAvx32.i_vcmpsd_kxoi. ss. }
arow. { unfold MnemonicAvx32.i_vcmpngess_kxo, MnemonicAvx32.i_vcmpss_kxoi. ss. }
arow. { unfold MnemonicAvx32.i_vcmpngt_uqpd_kxo, MnemonicAvx32.i_vcmppd_kxoi. ss. }
arow. { unfold MnemonicAvx32.i_vcmpngt_uqps_kxo, MnemonicAvx32.i_vcmpps_kxoi. ss. }
arow. { unfold MnemonicAvx32.i_vcmpngt_uqsd_kxo, MnemonicAvx32.i_vcmpsd_kxoi. ss. }
arow. { unfold MnemonicAvx32.i_vcmpngt_uqss_kxo, MnemonicAvx32.i_vcmpss_kxoi. ss. }
arow. { unfold MnemonicAvx32.i_vcmpngtpd_kxo, MnemonicAvx32.i_vcmppd_kxoi. ss. }
arow. { unfold MnemonicAvx32.i_vcmpngtps_kxo, MnemonicAvx32.i_vcmpps_kxoi. ss. }
arow. { unfold MnemonicAvx32.i_vcmpngtsd_kxo, MnemonicAvx32.i_vcmpsd_kxoi. ss. }
arow. { unfold MnemonicAvx32.i_vcmpngtss_kxo, MnemonicAvx32.i_vcmpss_kxoi. ss. }
arow. { unfold MnemonicAvx32.i_vcmpnle_uqpd_kxo, MnemonicAvx32.i_vcmppd_kxoi. ss. }
arow. { unfold MnemonicAvx32.i_vcmpnle_uqps_kxo, MnemonicAvx32.i_vcmpps_kxoi. ss. }
arow. { unfold MnemonicAvx32.i_vcmpnle_uqsd_kxo, MnemonicAvx32.i_vcmpsd_kxoi. ss. }
arow. { unfold MnemonicAvx32.i_vcmpnle_uqss_kxo, MnemonicAvx32.i_vcmpss_kxoi. ss. }
arow. { unfold MnemonicAvx32.i_vcmpnlepd_kxo, MnemonicAvx32.i_vcmppd_kxoi. ss. }
apply Forall_nil. Qed.
Lemma start58 : Forall entry_a sims58.
Proof. unfold sims58.
arow. { unfold MnemonicAvx32.i_vcmpnleps_kxo, MnemonicAvx32.i_vcmpps_kxoi. ss. }
arow. { unfold MnemonicAvx32.i_vcmpnlesd_kxo, MnemonicAvx32.i_vcmpsd_kxoi. ss. }
arow. { unfold MnemonicAvx32.i_vcmpnless_kxo, MnemonicAvx32.i_vcmpss_kxoi. ss. }
arow. { unfold MnemonicAvx32.i_vcmpnlt_uqpd_kxo, MnemonicAvx32.i_vcmppd_kxoi. ss. }
arow. { unfold MnemonicAvx32.i_vcmpnlt_uqps_kxo, MnemonicAvx32.i_vcmpps_kxoi. ss. }
arow. { unfold MnemonicAvx32.i_vcmpnlt_uqsd_kxo, MnemonicAvx32.i_vcmpsd_kxoi. ss. }
arow. { unfold MnemonicAvx32.i_vcmpnlt_uqss_kxo, MnemonicAvx32.i_vcmpss_kxoi. ss. }
arow. { unfold MnemonicAvx32.i_vcmpnltpd_kxo, MnemonicAvx32.i_vcmppd_kxoi. ss. }
arow. { unfold MnemonicAvx32.i_vcmpnltps_kxo, MnemonicAvx32.i_vcmpps_kxoi. ss. }
arow. { unfold MnemonicAvx32.i_vcmpnltsd_kxo, MnemonicAvx32.i_vcmpsd_kxoi. ss. }
arow. { unfold MnemonicAvx32.i_vcmpnltss_kxo, MnemonicAvx32.i_vcmpss_kxoi. ss. }
arow. { unfold MnemonicAvx32.i_vcmpord_spd_kxo, MnemonicAvx32.i_vcmppd_kxoi. ss. }
arow. { unfold MnemonicAvx32.i_vcmpord_sps_kxo, MnemonicAvx32.i_vcmpps_kxoi. ss. }
arow. { unfold MnemonicAvx32.i_vcmpord_ssd_kxo, MnemonicAvx32.i_vcmpsd_kxoi. ss. }
arow. { unfold MnemonicAvx32.i_vcmpord_sss_kxo, MnemonicAvx32.i_vcmpss_kxoi. ss. }
arow. { unfold MnemonicAvx32.i_vcmpordpd_kxo, MnemonicAvx32.i_vcmppd_kxoi. ss. }
arow. { unfold MnemonicAvx32.i_vcmpordps_kxo, MnemonicAvx32.i_vcmpps_kxoi. ss. }
arow. { unfold MnemonicAvx32.i_vcmpordsd_kxo, MnemonicAvx32.i_vcmpsd_kxoi. ss. }
arow. { unfold MnemonicAvx32.i_vcmpordss_kxo, MnemonicAvx32.i_vcmpss_kxoi. ss. }
arow. { unfold MnemonicAvx32.i_vcmppbf16. ss. }
arow. { unfold MnemonicAvx32.i_vcmpph. ss. }
arow. { unfold MnemonicAvx32.i_vcmpsh. ss. }
arow. { unfold MnemonicAvx32.i_vcmptrue_uspd_kxo, MnemonicAvx32.i_vcmppd_kxoi. ss. }
arow. { unfold MnemonicAvx32.i_vcmptrue_usps_kxo, MnemonicAvx32.i_vcmpps_kxoi. ss. }
arow. { unfold MnemonicAvx32.i_vcmptrue_ussd_kxo, MnemonicAvx32.i_vcmpsd_kxoi. ss. }
apply Forall_nil. Qed.
Lemma start59 : Forall entry_a sims59.
Proof. unfold sims59.
arow. { unfold MnemonicAvx32.i_vcmptrue_usss_kxo, MnemonicAvx32.i_vcmpss_kxoi. ss. }
arow. { unfold MnemonicAvx32.i_vcmptruepd_kxo, MnemonicAvx32.i_vcmppd_kxoi. ss. }
arow. { unfold MnemonicAvx32.i_vcmptrueps_kxo, MnemonicAvx32.i_vcmpps_kxoi. ss. }
arow. { unfold MnemonicAvx32.i_vcmptruesd_kxo, MnemonicAvx32.i_vcmpsd_kxoi. ss. }
arow. { unfold MnemonicAvx32.i_vcmptruess_kxo, MnemonicAvx32.i_vcmpss_kxoi. ss. }
arow. { unfold MnemonicAvx32.i_vcmpunord_spd_kxo, MnemonicAvx32.i_vcmppd_kxoi. ss. }
arow. { unfold MnemonicAvx32.i_vcmpunord_sps_kxo, MnemonicAvx32.i_vcmpps_kxoi. ss. }
arow. { unfold MnemonicAvx32.i_vcmpunord_ssd_kxo, MnemonicAvx32.i_vcmpsd_kxoi. ss. }
arow. { unfold MnemonicAvx32.i_vcmpunord_sss_kxo, MnemonicAvx32.i_vcmpss_kxoi. ss. }
arow. { unfold MnemonicAvx32.i_vcmpunordpd_kxo, MnemonicAvx32.i_vcmppd_kxoi. ss. }
arow. { unfold MnemonicAvx32.i_vcmpunordps_kxo, MnemonicAvx32.i_vcmpps_kxoi. ss. }
arow. { unfold MnemonicAvx32.i_vcmpunordsd_kxo, MnemonicAvx32.i_vcmpsd_kxoi. ss. }
arow. { unfold MnemonicAvx32.i_vcmpunordss_kxo, MnemonicAvx32.i_vcmpss_kxoi. ss. }
arow. { unfold MnemonicAvx32.i_vcomish. ss. }
arow. { unfold MnemonicAvx32.i_vcompresspd. ss. }
arow. { unfold MnemonicAvx32.i_vcompressps. ss. }
arow. { unfold MnemonicAvx32.i_vcomsbf16. ss. }
arow. { unfold MnemonicAvx32.i_vcomxsd. ss. }
arow. { unfold MnemonicAvx32.i_vcomxsh. ss. }
arow. { unfold MnemonicAvx32.i_vcomxss. ss. }
arow. { unfold MnemonicAvx32.i_vcvt2ps2phx. ss. }
arow. { unfold MnemonicAvx32.i_vcvtbiasph2bf8. ss. }
arow. { unfold MnemonicAvx32.i_vcvtbiasph2bf8s. ss. }
arow. { unfold MnemonicAvx32.i_vcvtbiasph2hf8. ss. }
arow. { unfold MnemonicAvx32.i_vcvtbiasph2hf8s. ss. }
apply Forall_nil. Qed.
Lemma start60 : Forall entry_a sims60.
Proof. unfold sims60.
arow. { unfold MnemonicAvx32.i_vcvtdq2ph. ss. }
arow. { unfold MnemonicAvx32.i_vcvthf82ph. ss. }
arow. { unfold MnemonicAvx32.i_vcvtne2ph2bf8. ss. }
arow. { unfold MnemonicAvx32.i_vcvtne2ph2bf8s. ss. }
arow. { unfold MnemonicAvx32.i_vcvtne2ph2hf8. ss. }
arow. { unfold MnemonicAvx32.i_vcvtne2ph2hf8s. ss. }
arow. { unfold MnemonicAvx32.i_vcvtne2ps2bf16. ss. }
arow. { unfold MnemonicAvx32.i_vcvtnebf162ibs. ss. }
arow. { unfold MnemonicAvx32.i_vcvtnebf162iubs. ss. }
arow. { unfold MnemonicAvx32.i_vcvtneph2bf8. ss. }
arow. { unfold MnemonicAvx32.i_vcvtneph2bf8s. ss. }
arow. { unfold MnemonicAvx32.i_vcvtneph2hf8. ss. }
arow. { unfold MnemonicAvx32.i_vcvtneph2hf8s. ss. }
arow. { unfold MnemonicAvx32.i_vcvtpd2ph. ss. }
arow. { unfold MnemonicAvx32.i_vcvtpd2qq. ss. }
arow. { unfold MnemonicAvx32.i_vcvtpd2udq. ss. }
arow. { unfold MnemonicAvx32.i_vcvtpd2uqq. ss. }
arow. { unfold MnemonicAvx32.i_vcvtph2dq. ss. }
arow. { unfold MnemonicAvx32.i_vcvtph2ibs. ss. }
arow. { unfold MnemonicAvx32.i_vcvtph2iubs. ss. }
arow. { unfold MnemonicAvx32.i_vcvtph2pd. ss. }
arow. { unfold MnemonicAvx32.i_vcvtph2psx. ss. }
arow. { unfold MnemonicAvx32.i_vcvtph2qq. ss. }
arow. { unfold MnemonicAvx32.i_vcvtph2udq. ss. }
arow. { unfold MnemonicAvx32.i_vcvtph2uqq. ss. }
apply Forall_nil. Qed.
Lemma start61 : Forall entry_a sims61.
Proof. unfold sims61.
arow. { unfold MnemonicAvx32.i_vcvtph2uw. ss. }
arow. { unfold MnemonicAvx32.i_vcvtph2w. ss. }
arow. { unfold MnemonicAvx32.i_vcvtps2ibs. ss. }
arow. { unfold MnemonicAvx32.i_vcvtps2iubs. ss. }
arow. { unfold MnemonicAvx32.i_vcvtps2phx. ss. }
arow. { unfold MnemonicAvx32.i_vcvtps2qq. ss. }
arow. { unfold MnemonicAvx32.i_vcvtps2udq. ss. }
arow. { unfold MnemonicAvx32.i_vcvtps2uqq. ss. }
arow. { unfold MnemonicAvx32.i_vcvtqq2pd. ss. }
arow. { unfold MnemonicAvx32.i_vcvtqq2ph. ss. }
arow. { unfold MnemonicAvx32.i_vcvtqq2ps. ss. }
arow. { unfold MnemonicAvx32.i_vcvtsd2sh. ss. }
arow. { unfold MnemonicAvx32.i_vcvtsd2usi. ss. }
arow. { unfold MnemonicAvx32.i_vcvtsh2sd. ss. }
arow. { unfold MnemonicAvx32.i_vcvtsh2si. ss. }
arow. { unfold MnemonicAvx32.i_vcvtsh2ss. ss. }
arow. { unfold MnemonicAvx32.i_vcvtsh2usi. ss. }
arow. { unfold MnemonicAvx32.i_vcvtsi2sh. ss. }
arow. { unfold MnemonicAvx32.i_vcvtss2sh. ss. }
arow. { unfold MnemonicAvx32.i_vcvtss2usi. ss. }
arow. { unfold MnemonicAvx32.i_vcvttnebf162ibs. ss. }
arow. { unfold MnemonicAvx32.i_vcvttnebf162iubs. ss. }
arow. { unfold MnemonicAvx32.i_vcvttpd2dqs. ss. }
arow. { unfold MnemonicAvx32.i_vcvttpd2qq. ss. }
arow. { unfold MnemonicAvx32.i_vcvttpd2qqs. ss. }
apply Forall_nil. Qed.
Lemma start62 : Forall entry_a sims62.
Proof. unfold sims62.
arow. { unfold MnemonicAvx32.i_vcvttpd2udq. ss. }
arow. { unfold MnemonicAvx32.i_vcvttpd2udqs. ss. }
arow. { unfold MnemonicAvx32.i_vcvttpd2uqq. ss. }
arow. { unfold MnemonicAvx32.i_vcvttpd2uqqs. ss. }
arow. { unfold MnemonicAvx32.i_vcvttph2dq. ss. }
arow. { unfold MnemonicAvx32.i_vcvttph2ibs. ss. }
arow. { unfold MnemonicAvx32.i_vcvttph2iubs. ss. }
arow. { unfold MnemonicAvx32.i_vcvttph2qq. ss. }
arow. { unfold MnemonicAvx32.i_vcvttph2udq. ss. }
arow. { unfold MnemonicAvx32.i_vcvttph2uqq. ss. }
arow. { unfold MnemonicAvx32.i_vcvttph2uw. ss. }
arow. { unfold MnemonicAvx32.i_vcvttph2w. ss. }
arow. { unfold MnemonicAvx32.i_vcvttps2dqs. ss. }
arow. { unfold MnemonicAvx32.i_vcvttps2ibs. ss. }
arow. { unfold MnemonicAvx32.i_vcvttps2iubs. ss. }
arow. { unfold MnemonicAvx32.i_vcvttps2qq. ss. }
arow. { unfold MnemonicAvx32.i_vcvttps2qqs. ss. }
arow. { unfold MnemonicAvx32.i_vcvttps2udq. ss. }
arow. { unfold MnemonicAvx32.i_vcvttps2udqs. ss. }
arow. { unfold MnemonicAvx32.i_vcvttps2uqq. ss. }
arow. { unfold MnemonicAvx32.i_vcvttps2uqqs. ss. }
arow. { unfold MnemonicAvx32.i_vcvttsd2sis. ss. }
arow. { unfold MnemonicAvx32.i_vcvttsd2usi. ss. }
arow. { unfold MnemonicAvx32.i_vcvttsd2usis. ss. }
arow. { unfold MnemonicAvx32.i_vcvttsh2si. ss. }
apply Forall_nil. Qed.
Lemma start63 : Forall entry_a sims63.
Proof. unfold sims63.
arow. { unfold MnemonicAvx32.i_vcvttsh2usi. ss. }
arow. { unfold MnemonicAvx32.i_vcvttss2sis. ss. }
arow. { unfold MnemonicAvx32.i_vcvttss2usi. ss. }
arow. { unfold MnemonicAvx32.i_vcvttss2usis. ss. }
arow. { unfold MnemonicAvx32.i_vcvtudq2pd. ss. }
arow. { unfold MnemonicAvx32.i_vcvtudq2ph. ss. }
arow. { unfold MnemonicAvx32.i_vcvtudq2ps. ss. }
arow. { unfold MnemonicAvx32.i_vcvtuqq2pd. ss. }
arow. { unfold MnemonicAvx32.i_vcvtuqq2ph. ss. }
arow. { unfold MnemonicAvx32.i_vcvtuqq2ps. ss. }
arow. { unfold MnemonicAvx32.i_vcvtusi2sd. ss. }
arow. { unfold MnemonicAvx32.i_vcvtusi2sh. ss. }
arow. { unfold MnemonicAvx32.i_vcvtusi2ss. ss. }
arow. { unfold MnemonicAvx32.i_vcvtuw2ph. ss. }
arow. { unfold MnemonicAvx32.i_vcvtw2ph. ss. }
arow. { unfold MnemonicAvx32.i_vdbpsadbw. ss. }
arow. { unfold MnemonicAvx32.i_vdivnepbf16. ss. }
arow. { unfold MnemonicAvx32.i_vdivph. ss. }
arow. { unfold MnemonicAvx32.i_vdivsh. ss. }
arow. { unfold MnemonicAvx32.i_vdpbf16ps. ss. }
arow. { unfold MnemonicAvx32.i_vdpphps. ss. }
arow. { unfold MnemonicAvx32.i_vexp2pd. ss. }
arow. { unfold MnemonicAvx32.i_vexp2ps. ss. }
arow. { unfold MnemonicAvx32.i_vexpandpd. ss. }
arow. { unfold MnemonicAvx32.i_vexpandps. ss. }
apply Forall_nil. Qed.
Lemma start64 : Forall entry_a sims64.
Proof. unfold sims64.
arow. { unfold MnemonicAvx32.i_vextractf32x4. ss. }
arow. { unfold MnemonicAvx32.i_vextractf32x8. ss. }
arow. { unfold MnemonicAvx32.i_vextractf64x2. ss. }
arow. { unfold MnemonicAvx32.i_vextractf64x4. ss. }
arow. { unfold MnemonicAvx32.i_vextracti32x4. ss. }
arow. { unfold MnemonicAvx32.i_vextracti32x8. ss. }
arow. { unfold MnemonicAvx32.i_vextracti64x2. ss. }
arow. { unfold MnemonicAvx32.i_vextracti64x4. ss. }
arow. { unfold MnemonicAvx32.i_vfcmaddcph. ss. }
arow. { unfold MnemonicAvx32.i_vfcmulcph. ss. }
arow. { unfold MnemonicAvx32.i_vfixupimmpd. ss. }
arow. { unfold MnemonicAvx32.i_vfixupimmps. ss. }
arow. { unfold MnemonicAvx32.i_vfixupimmsd. ss. }
arow. { unfold MnemonicAvx32.i_vfixupimmss. ss. }
arow. { unfold MnemonicAvx32.i_vfmadd132nepbf16. ss. }
arow. { unfold MnemonicAvx32.i_vfmadd132ph. ss. }
arow. { unfold MnemonicAvx32.i_vfmadd132sh. ss. }
arow. { unfold MnemonicAvx32.i_vfmadd213nepbf16. ss. }
arow. { unfold MnemonicAvx32.i_vfmadd213ph. ss. }
arow. { unfold MnemonicAvx32.i_vfmadd213sh. ss. }
arow. { unfold MnemonicAvx32.i_vfmadd231nepbf16. ss. }
arow. { unfold MnemonicAvx32.i_vfmadd231ph. ss. }
arow. { unfold MnemonicAvx32.i_vfmadd231sh. ss. }
arow. { unfold MnemonicAvx32.i_vfmaddcph. ss. }
arow. { unfold MnemonicAvx32.i_vfmaddsub132ph. ss. }
apply Forall_nil. Qed.
Lemma start65 : Forall entry_a sims65.
Proof. unfold sims65.
arow. { unfold MnemonicAvx32.i_vfmaddsub213ph. ss. }
arow. { unfold MnemonicAvx32.i_vfmaddsub231ph. ss. }
arow. { unfold MnemonicAvx32.i_vfmsub132nepbf16. ss. }
arow. { unfold MnemonicAvx32.i_vfmsub132ph. ss. }
arow. { unfold MnemonicAvx32.i_vfmsub132sh. ss. }
arow. { unfold MnemonicAvx32.i_vfmsub213nepbf16. ss. }
arow. { unfold MnemonicAvx32.i_vfmsub213ph. ss. }
arow. { unfold MnemonicAvx32.i_vfmsub213sh. ss. }
arow. { unfold MnemonicAvx32.i_vfmsub231nepbf16. ss. }
arow. { unfold MnemonicAvx32.i_vfmsub231ph. ss. }
arow. { unfold MnemonicAvx32.i_vfmsub231sh. ss. }
arow. { unfold MnemonicAvx32.i_vfmsubadd132ph. ss. }
arow. { unfold MnemonicAvx32.i_vfmsubadd213ph. ss. }
arow. { unfold MnemonicAvx32.i_vfmsubadd231ph. ss. }
arow. { unfold MnemonicAvx32.i_vfmulcph. ss. }
arow. { unfold MnemonicAvx32.i_vfnmadd132nepbf16. ss. }
arow. { unfold MnemonicAvx32.i_vfnmadd132ph. ss. }
arow. { unfold MnemonicAvx32.i_vfnmadd132sh. ss. }
arow. { unfold MnemonicAvx32.i_vfnmadd213nepbf16. ss. }
arow. { unfold MnemonicAvx32.i_vfnmadd213ph. ss. }
arow. { unfold MnemonicAvx32.i_vfnmadd213sh. ss. }
arow. { unfold MnemonicAvx32.i_vfnmadd231nepbf16. ss. }
arow. { unfold MnemonicAvx32.i_vfnmadd231ph. ss. }
arow. { unfold MnemonicAvx32.i_vfnmadd231sh. ss. }
arow. { unfold MnemonicAvx32.i_vfnmsub132nepbf16. ss. }
apply Forall_nil. Qed.
Lemma start66 : Forall entry_a sims66.
Proof. unfold sims66.
arow. { unfold MnemonicAvx32.i_vfnmsub132ph. ss. }
arow. { unfold MnemonicAvx32.i_vfnmsub132sh. ss. }
arow. { unfold MnemonicAvx32.i_vfnmsub213nepbf16. ss. }
arow. { unfold MnemonicAvx32.i_vfnmsub213ph. ss. }
arow. { unfold MnemonicAvx32.i_vfnmsub213sh. ss. }
arow. { unfold MnemonicAvx32.i_vfnmsub231nepbf16. ss. }
arow. { unfold MnemonicAvx32.i_vfnmsub231ph. ss. }
arow. { unfold MnemonicAvx32.i_vfnmsub231sh. ss. }
arow. { unfold MnemonicAvx32.i_vfpclasspd. ss. }
arow. { unfold MnemonicAvx32.i_vfpclassph. ss. }
arow. { unfold MnemonicAvx32.i_vfpclassps. ss. }
arow. { unfold MnemonicAvx32.i_vfpclasssd. ss. }
arow. { unfold MnemonicAvx32.i_vfpclasssh. ss. }
arow. { unfold MnemonicAvx32.i_vfpclassss. ss. }
arow. { unfold MnemonicAvx32.i_vgatherdpd_xa. ss. }
arow. { unfold MnemonicAvx32.i_vgatherdps_xa. ss. }
arow. { unfold MnemonicAvx32.i_vgatherpf0dpd. ss. }
arow. { unfold MnemonicAvx32.i_vgatherpf0dps. ss. }
arow. { unfold MnemonicAvx32.i_vgatherpf0qpd. ss. }
arow. { unfold MnemonicAvx32.i_vgatherpf0qps. ss. }
arow. { unfold MnemonicAvx32.i_vgatherpf1dpd. ss. }
arow. { unfold MnemonicAvx32.i_vgatherpf1dps. ss. }
arow. { unfold MnemonicAvx32.i_vgatherpf1qpd. ss. }
arow. { unfold MnemonicAvx32.i_vgatherpf1qps. ss. }
arow. { unfold MnemonicAvx32.i_vgatherqpd_xa. ss. }
apply Forall_nil. Qed.
Lemma start67 : Forall entry_a sims67.
Proof. unfold sims67.
arow. { unfold MnemonicAvx32.i_vgatherqps_xa. ss. }
arow. { unfold MnemonicAvx32.i_vgetexppbf16. ss. }
arow. { unfold MnemonicAvx32.i_vgetexppd. ss. }
arow. { unfold MnemonicAvx32.i_vgetexpph. ss. }
arow. { unfold MnemonicAvx32.i_vgetexpps. ss. }
arow. { unfold MnemonicAvx32.i_vgetexpsd. ss. }
arow. { unfold MnemonicAvx32.i_vgetexpsh. ss. }
arow. { unfold MnemonicAvx32.i_vgetexpss. ss. }
arow. { unfold MnemonicAvx32.i_vgetmantpbf16. ss. }
arow. { unfold MnemonicAvx32.i_vgetmantpd. ss. }
arow. { unfold MnemonicAvx32.i_vgetmantph. ss. }
arow. { unfold MnemonicAvx32.i_vgetmantps. ss. }
arow. { unfold MnemonicAvx32.i_vgetmantsd. ss. }
arow. { unfold MnemonicAvx32.i_vgetmantsh. ss. }
arow. { unfold MnemonicAvx32.i_vgetmantss. ss. }
arow. { unfold MnemonicAvx32.i_vinsertf32x4. ss. }
arow. { unfold MnemonicAvx32.i_vinsertf32x8. ss. }
arow. { unfold MnemonicAvx32.i_vinsertf64x2. ss. }
arow. { unfold MnemonicAvx32.i_vinsertf64x4. ss. }
arow. { unfold MnemonicAvx32.i_vinserti32x4. ss. }
arow. { unfold MnemonicAvx32.i_vinserti32x8. ss. }
arow. { unfold MnemonicAvx32.i_vinserti64x2. ss. }
arow. { unfold MnemonicAvx32.i_vinserti64x4. ss. }
arow. { unfold MnemonicAvx32.i_vmaxpbf16. ss. }
arow. { unfold MnemonicAvx32.i_vmaxph. ss. }
apply Forall_nil. Qed.
Lemma start68 : Forall entry_a sims68.
Proof. unfold sims68.
arow. { unfold MnemonicAvx32.i_vmaxsh. ss. }
arow. { unfold MnemonicAvx32.i_vminmaxnepbf16. ss. }
arow. { unfold MnemonicAvx32.i_vminmaxpd. ss. }
arow. { unfold MnemonicAvx32.i_vminmaxph. ss. }
arow. { unfold MnemonicAvx32.i_vminmaxps. ss. }
arow. { unfold MnemonicAvx32.i_vminmaxsd. ss. }
arow. { unfold MnemonicAvx32.i_vminmaxsh. ss. }
arow. { unfold MnemonicAvx32.i_vminmaxss. ss. }
arow. { unfold MnemonicAvx32.i_vminpbf16. ss. }
arow. { unfold MnemonicAvx32.i_vminph. ss. }
arow. { unfold MnemonicAvx32.i_vminsh. ss. }
arow. { unfold MnemonicAvx32.i_vmovdqa32_ax. ss. }
arow. { unfold MnemonicAvx32.i_vmovdqa32_xo. ss. }
arow. { unfold MnemonicAvx32.i_vmovdqa64_ax. ss. }
arow. { unfold MnemonicAvx32.i_vmovdqa64_xo. ss. }
arow. { unfold MnemonicAvx32.i_vmovdqu16_ax. ss. }
arow. { unfold MnemonicAvx32.i_vmovdqu16_xo. ss. }
arow. { unfold MnemonicAvx32.i_vmovdqu32_ax. ss. }
arow. { unfold MnemonicAvx32.i_vmovdqu32_xo. ss. }
arow. { unfold MnemonicAvx32.i_vmovdqu64_ax. ss. }
arow. { unfold MnemonicAvx32.i_vmovdqu64_xo. ss. }
arow. { unfold MnemonicAvx32.i_vmovdqu8_ax. ss. }
arow. { unfold MnemonicAvx32.i_vmovdqu8_xo. ss. }
arow. { unfold MnemonicAvx32.i_vmovsh_ax. ss. }
arow. { unfold MnemonicAvx32.i_vmovsh_xa. ss. }
apply Forall_nil. Qed.
Lemma start69 : Forall entry_a sims69.
Proof. unfold sims69.
arow. { unfold MnemonicAvx32.i_vmovsh_xxx. ss. }
arow. { unfold MnemonicAvx32.i_vmulnepbf16. ss. }
arow. { unfold MnemonicAvx32.i_vmulph. ss. }
arow. { unfold MnemonicAvx32.i_vmulsh. ss. }
arow. { unfold MnemonicAvx32.i_vp2intersectd. ss. }
arow. { unfold MnemonicAvx32.i_vp2intersectq. ss. }
arow. { unfold MnemonicAvx32.i_vp4dpwssd. ss. }
arow. { unfold MnemonicAvx32.i_vp4dpwssds. ss. }
arow. { unfold MnemonicAvx32.i_vpabsq. ss. }
arow. { unfold MnemonicAvx32.i_vpandd. ss. }
arow. { unfold MnemonicAvx32.i_vpandnd. ss. }
arow. { unfold MnemonicAvx32.i_vpandnq. ss. }
arow. { unfold MnemonicAvx32.i_vpandq. ss. }
arow. { unfold MnemonicAvx32.i_vpblendmb. ss. }
arow. { unfold MnemonicAvx32.i_vpblendmd. ss. }
arow. { unfold MnemonicAvx32.i_vpblendmq. ss. }
arow. { unfold MnemonicAvx32.i_vpblendmw. ss. }
arow. { unfold MnemonicAvx32.i_vpbroadcastb_xb. ss. }
arow. { unfold MnemonicAvx32.i_vpbroadcastd_xd. ss. }
arow. { unfold MnemonicAvx32.i_vpbroadcastmb2q. ss. }
arow. { unfold MnemonicAvx32.i_vpbroadcastmw2d. ss. }
arow. { unfold MnemonicAvx32.i_vpbroadcastw_xw. ss. }
arow. { unfold MnemonicAvx32.i_vpcmpb. ss. }
arow. { unfold MnemonicAvx32.i_vpcmpd. ss. }
arow. { unfold MnemonicAvx32.i_vpcmpeqb_kxo. ss. }
apply Forall_nil. Qed.
Lemma start70 : Forall entry_a sims70.
Proof. unfold sims70.
arow. { unfold MnemonicAvx32.i_vpcmpeqd_kxo. ss. }
arow. { unfold MnemonicAvx32.i_vpcmpeqq_kxo. ss. }
arow. { unfold MnemonicAvx32.i_vpcmpeqw_kxo. ss. }
arow. { unfold MnemonicAvx32.i_vpcmpgtb_kxo. ss. }
arow. { unfold MnemonicAvx32.i_vpcmpgtd_kxo. ss. }
arow. { unfold MnemonicAvx32.i_vpcmpgtq_kxo. ss. }
arow. { unfold MnemonicAvx32.i_vpcmpgtw_kxo. ss. }
arow. { unfold MnemonicAvx32.i_vpcmpq. ss. }
arow. { unfold MnemonicAvx32.i_vpcmpub. ss. }
arow. { unfold MnemonicAvx32.i_vpcmpud. ss. }
arow. { unfold MnemonicAvx32.i_vpcmpuq. ss. }
arow. { unfold MnemonicAvx32.i_vpcmpuw. ss. }
arow. { unfold MnemonicAvx32.i_vpcmpw. ss. }
arow. { unfold MnemonicAvx32.i_vpcompressb. ss. }
arow. { unfold MnemonicAvx32.i_vpcompressd. ss. }
arow. { unfold MnemonicAvx32.i_vpcompressq. ss. }
arow. { unfold MnemonicAvx32.i_vpcompressw. ss. }
arow. { unfold MnemonicAvx32.i_vpconflictd. ss. }
arow. { unfold MnemonicAvx32.i_vpconflictq. ss. }
arow. { unfold MnemonicAvx32.i_vpdpbssd. ss. }
arow. { unfold MnemonicAvx32.i_vpdpbssds. ss. }
arow. { unfold MnemonicAvx32.i_vpdpbsud. ss. }
arow. { unfold MnemonicAvx32.i_vpdpbsuds. ss. }
arow. { unfold MnemonicAvx32.i_vpdpbuud. ss. }
arow. { unfold MnemonicAvx32.i_vpdpbuuds. ss. }
apply Forall_nil. Qed.
Lemma start71 : Forall entry_a sims71.
Proof. unfold sims71.
arow. { unfold MnemonicAvx32.i_vpdpwsud. ss. }
arow. { unfold MnemonicAvx32.i_vpdpwsuds. ss. }
arow. { unfold MnemonicAvx32.i_vpdpwusd. ss. }
arow. { unfold MnemonicAvx32.i_vpdpwusds. ss. }
arow. { unfold MnemonicAvx32.i_vpdpwuud. ss. }
arow. { unfold MnemonicAvx32.i_vpdpwuuds. ss. }
arow. { unfold MnemonicAvx32.i_vpermb. ss. }
arow. { unfold MnemonicAvx32.i_vpermi2b. ss. }
arow. { unfold MnemonicAvx32.i_vpermi2d. ss. }
arow. { unfold MnemonicAvx32.i_vpermi2pd. ss. }
arow. { unfold MnemonicAvx32.i_vpermi2ps. ss. }
arow. { unfold MnemonicAvx32.i_vpermi2q. ss. }
arow. { unfold MnemonicAvx32.i_vpermi2w. ss. }
arow. { unfold MnemonicAvx32.i_vpermt2b. ss. }
arow. { unfold MnemonicAvx32.i_vpermt2d. ss. }
arow. { unfold MnemonicAvx32.i_vpermt2pd. ss. }
arow. { unfold MnemonicAvx32.i_vpermt2ps. ss. }
arow. { unfold MnemonicAvx32.i_vpermt2q. ss. }
arow. { unfold MnemonicAvx32.i_vpermt2w. ss. }
arow. { unfold MnemonicAvx32.i_vpermw. ss. }
arow. { unfold MnemonicAvx32.i_vpexpandb. ss. }
arow. { unfold MnemonicAvx32.i_vpexpandd. ss. }
arow. { unfold MnemonicAvx32.i_vpexpandq. ss. }
arow. { unfold MnemonicAvx32.i_vpexpandw. ss. }
arow. { unfold MnemonicAvx32.i_vpgatherdd_xa. ss. }
apply Forall_nil. Qed.
Lemma start72 : Forall entry_a sims72.
Proof. unfold sims72.
arow. { unfold MnemonicAvx32.i_vpgatherdq_xa. ss. }
arow. { unfold MnemonicAvx32.i_vpgatherqd_xa. ss. }
arow. { unfold MnemonicAvx32.i_vpgatherqq_xa. ss. }
arow. { unfold MnemonicAvx32.i_vplzcntd. ss. }
arow. { unfold MnemonicAvx32.i_vplzcntq. ss. }
arow. { unfold MnemonicAvx32.i_vpmadd52huq. ss. }
arow. { unfold MnemonicAvx32.i_vpmadd52luq. ss. }
arow. { unfold MnemonicAvx32.i_vpmaxsq. ss. }
arow. { unfold MnemonicAvx32.i_vpmaxuq. ss. }
arow. { unfold MnemonicAvx32.i_vpminsq. ss. }
arow. { unfold MnemonicAvx32.i_vpminuq. ss. }
arow. { unfold MnemonicAvx32.i_vpmovb2m. ss. }
arow. { unfold MnemonicAvx32.i_vpmovd2m. ss. }
arow. { unfold MnemonicAvx32.i_vpmovdb. ss. }
arow. { unfold MnemonicAvx32.i_vpmovdw. ss. }
arow. { unfold MnemonicAvx32.i_vpmovm2b. ss. }
arow. { unfold MnemonicAvx32.i_vpmovm2d. ss. }
arow. { unfold MnemonicAvx32.i_vpmovm2q. ss. }
arow. { unfold MnemonicAvx32.i_vpmovm2w. ss. }
arow. { unfold MnemonicAvx32.i_vpmovq2m. ss. }
arow. { unfold MnemonicAvx32.i_vpmovqb. ss. }
arow. { unfold MnemonicAvx32.i_vpmovqd. ss. }
arow. { unfold MnemonicAvx32.i_vpmovqw. ss. }
arow. { unfold MnemonicAvx32.i_vpmovsdb. ss. }
arow. { unfold MnemonicAvx32.i_vpmovsdw. ss. }
apply Forall_nil. Qed.
Lemma start73 : Forall entry_a sims73.
Proof. unfold sims73.
arow. { unfold MnemonicAvx32.i_vpmovsqb. ss. }
arow. { unfold MnemonicAvx32.i_vpmovsqd. ss. }
arow. { unfold MnemonicAvx32.i_vpmovsqw. ss. }
arow. { unfold MnemonicAvx32.i_vpmovswb. ss. }
arow. { unfold MnemonicAvx32.i_vpmovusdb. ss. }
arow. { unfold MnemonicAvx32.i_vpmovusdw. ss. }
arow. { unfold MnemonicAvx32.i_vpmovusqb. ss. }
arow. { unfold MnemonicAvx32.i_vpmovusqd. ss. }
arow. { unfold MnemonicAvx32.i_vpmovusqw. ss. }
arow. { unfold MnemonicAvx32.i_vpmovuswb. ss. }
arow. { unfold MnemonicAvx32.i_vpmovw2m. ss. }
arow. { unfold MnemonicAvx32.i_vpmovwb. ss. }
arow. { unfold MnemonicAvx32.i_vpmullq. ss. }
arow. { unfold MnemonicAvx32.i_vpmultishiftqb. ss. }
arow. { unfold MnemonicAvx32.i_vpopcntb. ss. }
arow. { unfold MnemonicAvx32.i_vpopcntd. ss. }
arow. { unfold MnemonicAvx32.i_vpopcntq. ss. }
arow. { unfold MnemonicAvx32.i_vpopcntw. ss. }
arow. { unfold MnemonicAvx32.i_vpord. ss. }
arow. { unfold MnemonicAvx32.i_vporq. ss. }
arow. { unfold MnemonicAvx32.i_vprold. ss. }
arow. { unfold MnemonicAvx32.i_vprolq. ss. }
arow. { unfold MnemonicAvx32.i_vprolvd. ss. }
arow. { unfold MnemonicAvx32.i_vprolvq. ss. }
arow. { unfold MnemonicAvx32.i_vprord. ss. }
apply Forall_nil. Qed.
Lemma start74 : Forall entry_a sims74.
Proof. unfold sims74.
arow. { unfold MnemonicAvx32.i_vprorq. ss. }
arow. { unfold MnemonicAvx32.i_vprorvd. ss. }
arow. { unfold MnemonicAvx32.i_vprorvq. ss. }
arow. { unfold MnemonicAvx32.i_vpscatterdd. ss. }
arow. { unfold MnemonicAvx32.i_vpscatterdq. ss. }
arow. { unfold MnemonicAvx32.i_vpscatterqd. ss. }
arow. { unfold MnemonicAvx32.i_vpscatterqq. ss. }
arow. { unfold MnemonicAvx32.i_vpshldd. ss. }
arow. { unfold MnemonicAvx32.i_vpshldq. ss. }
arow. { unfold MnemonicAvx32.i_vpshldvd. ss. }
arow. { unfold MnemonicAvx32.i_vpshldvq. ss. }
arow. { unfold MnemonicAvx32.i_vpshldvw. ss. }
arow. { unfold MnemonicAvx32.i_vpshldw. ss. }
arow. { unfold MnemonicAvx32.i_vpshrdd. ss. }
arow. { unfold MnemonicAvx32.i_vpshrdq. ss. }
arow. { unfold MnemonicAvx32.i_vpshrdvd. ss. }
arow. { unfold MnemonicAvx32.i_vpshrdvq. ss. }
arow. { unfold MnemonicAvx32.i_vpshrdvw. ss. }
arow. { unfold MnemonicAvx32.i_vpshrdw. ss. }
arow. { unfold MnemonicAvx32.i_vpshufbitqmb. ss. }
arow. { unfold MnemonicAvx32.i_vpsllvw. ss. }
arow. { unfold MnemonicAvx32.i_vpsraq_xoi. ss. }
arow. { unfold MnemonicAvx32.i_vpsraq_xxo. ss. }
arow. { unfold MnemonicAvx32.i_vpsravq. ss. }
arow. { unfold MnemonicAvx32.i_vpsravw. ss. }
apply Forall_nil. Qed.
Lemma start75 : Forall entry_a sims75.
Proof. unfold sims75.
arow. { unfold MnemonicAvx32.i_vpsrlvw. ss. }
arow. { unfold MnemonicAvx32.i_vpternlogd. ss. }
arow. { unfold MnemonicAvx32.i_vpternlogq. ss. }
arow. { unfold MnemonicAvx32.i_vptestmb. ss. }
arow. { unfold MnemonicAvx32.i_vptestmd. ss. }
arow. { unfold MnemonicAvx32.i_vptestmq. ss. }
arow. { unfold MnemonicAvx32.i_vptestmw. ss. }
arow. { unfold MnemonicAvx32.i_vptestnmb. ss. }
arow. { unfold MnemonicAvx32.i_vptestnmd. ss. }
arow. { unfold MnemonicAvx32.i_vptestnmq. ss. }
arow. { unfold MnemonicAvx32.i_vptestnmw. ss. }
arow. { unfold MnemonicAvx32.i_vpxord. ss. }
arow. { unfold MnemonicAvx32.i_vpxorq. ss. }
arow. { unfold MnemonicAvx32.i_vrangepd. ss. }
arow. { unfold MnemonicAvx32.i_vrangeps. ss. }
arow. { unfold MnemonicAvx32.i_vrangesd. ss. }
arow. { unfold MnemonicAvx32.i_vrangess. ss. }
arow. { unfold MnemonicAvx32.i_vrcp14pd. ss. }
arow. { unfold MnemonicAvx32.i_vrcp14ps. ss. }
arow. { unfold MnemonicAvx32.i_vrcp14sd. ss. }
arow. { unfold MnemonicAvx32.i_vrcp14ss. ss. }
arow. { unfold MnemonicAvx32.i_vrcp28pd. ss. }
arow. { unfold MnemonicAvx32.i_vrcp28ps. ss. }
arow. { unfold MnemonicAvx32.i_vrcp28sd. ss. }
arow. { unfold MnemonicAvx32.i_vrcp28ss. ss. }
apply Forall_nil. Qed.
Lemma start76 : Forall entry_a sims76.
Proof. unfold sims76.
arow. { unfold MnemonicAvx32.i_vrcppbf16. ss. }
arow. { unfold MnemonicAvx32.i_vrcpph. ss. }
arow. { unfold MnemonicAvx32.i_vrcpsh. ss. }
arow. { unfold MnemonicAvx32.i_vreducenepbf16. ss. }
arow. { unfold MnemonicAvx32.i_vreducepd. ss. }
arow. { unfold MnemonicAvx32.i_vreduceph. ss. }
arow. { unfold MnemonicAvx32.i_vreduceps. ss. }
arow. { unfold MnemonicAvx32.i_vreducesd. ss. }
arow. { unfold MnemonicAvx32.i_vreducesh. ss. }
arow. { unfold MnemonicAvx32.i_vreducess. ss. }
arow. { unfold MnemonicAvx32.i_vrndscalenepbf16. ss. }
arow. { unfold MnemonicAvx32.i_vrndscalepd. ss. }
arow. { unfold MnemonicAvx32.i_vrndscaleph. ss. }
arow. { unfold MnemonicAvx32.i_vrndscaleps. ss. }
arow. { unfold MnemonicAvx32.i_vrndscalesd. ss. }
arow. { unfold MnemonicAvx32.i_vrndscalesh. ss. }
arow. { unfold MnemonicAvx32.i_vrndscaless. ss. }
arow. { unfold MnemonicAvx32.i_vrsqrt14pd. ss. }
arow. { unfold MnemonicAvx32.i_vrsqrt14ps. ss. }
arow. { unfold MnemonicAvx32.i_vrsqrt14sd. ss. }
arow. { unfold MnemonicAvx32.i_vrsqrt14ss. ss. }
arow. { unfold MnemonicAvx32.i_vrsqrt28pd. ss. }
arow. { unfold MnemonicAvx32.i_vrsqrt28ps. ss. }
arow. { unfold MnemonicAvx32.i_vrsqrt28sd. ss. }
arow. { unfold MnemonicAvx32.i_vrsqrt28ss. ss. }
apply Forall_nil. Qed.
Lemma start77 : Forall entry_a sims77.
Proof. unfold sims77.
arow. { unfold MnemonicAvx32.i_vrsqrtpbf16. ss. }
arow. { unfold MnemonicAvx32.i_vrsqrtph. ss. }
arow. { unfold MnemonicAvx32.i_vrsqrtsh. ss. }
arow. { unfold MnemonicAvx32.i_vscalefpbf16_xo. ss. }
arow. { unfold MnemonicAvx32.i_vscalefpbf16_xxo. ss. }
arow. { unfold MnemonicAvx32.i_vscalefpd. ss. }
arow. { unfold MnemonicAvx32.i_vscalefph. ss. }
arow. { unfold MnemonicAvx32.i_vscalefps. ss. }
arow. { unfold MnemonicAvx32.i_vscalefsd. ss. }
arow. { unfold MnemonicAvx32.i_vscalefsh. ss. }
arow. { unfold MnemonicAvx32.i_vscalefss. ss. }
arow. { unfold MnemonicAvx32.i_vscatterdpd. ss. }
arow. { unfold MnemonicAvx32.i_vscatterdps. ss. }
arow. { unfold MnemonicAvx32.i_vscatterpf0dpd. ss. }
arow. { unfold MnemonicAvx32.i_vscatterpf0dps. ss. }
arow. { unfold MnemonicAvx32.i_vscatterpf0qpd. ss. }
arow. { unfold MnemonicAvx32.i_vscatterpf0qps. ss. }
arow. { unfold MnemonicAvx32.i_vscatterpf1dpd. ss. }
arow. { unfold MnemonicAvx32.i_vscatterpf1dps. ss. }
arow. { unfold MnemonicAvx32.i_vscatterpf1qpd. ss. }
arow. { unfold MnemonicAvx32.i_vscatterpf1qps. ss. }
arow. { unfold MnemonicAvx32.i_vscatterqpd. ss. }
arow. { unfold MnemonicAvx32.i_vscatterqps. ss. }
arow. { unfold MnemonicAvx32.i_vshuff32x4. ss. }
arow. { unfold MnemonicAvx32.i_vshuff64x2. ss. }
apply Forall_nil. Qed.
Lemma start78 : Forall entry_a sims78.
Proof. unfold sims78.
arow. { unfold MnemonicAvx32.i_vshufi32x4. ss. }
arow. { unfold MnemonicAvx32.i_vshufi64x2. ss. }
arow. { unfold MnemonicAvx32.i_vsqrtnepbf16. ss. }
arow. { unfold MnemonicAvx32.i_vsqrtph. ss. }
arow. { unfold MnemonicAvx32.i_vsqrtsh. ss. }
arow. { unfold MnemonicAvx32.i_vsubnepbf16. ss. }
arow. { unfold MnemonicAvx32.i_vsubph. ss. }
arow. { unfold MnemonicAvx32.i_vsubsh. ss. }
arow. { unfold MnemonicAvx32.i_vucomish. ss. }
arow. { unfold MnemonicAvx32.i_vucomxsd. ss. }
arow. { unfold MnemonicAvx32.i_vucomxsh. ss. }
arow. { unfold MnemonicAvx32.i_vucomxss. ss. }
arow. { unfold MnemonicOmit32.i_vblendpd_xoi, Mnemonic32.i_vblendpd_xxoi. ss. }
arow. { unfold MnemonicOmit32.i_vblendps_xoi, Mnemonic32.i_vblendps_xxoi. ss. }
arow. { unfold MnemonicOmit32.i_vblendvpd_xox, Mnemonic32.i_vblendvpd_xxox. ss. }
arow. { unfold MnemonicOmit32.i_vblendvps_xox, Mnemonic32.i_vblendvps_xxox. ss. }
arow. { unfold MnemonicOmit32.i_vcmpeq_ospd_xo, Mnemonic32.i_vcmpeq_ospd_xxo, Mnemonic32.i_vcmppd_xxoi. ss. }
arow. { unfold MnemonicOmit32.i_vcmpeq_osps_xo, Mnemonic32.i_vcmpeq_osps_xxo, Mnemonic32.i_vcmpps_xxoi. ss. }
arow. { unfold MnemonicOmit32.i_vcmpeq_ossd_xo, Mnemonic32.i_vcmpeq_ossd_xxo, Mnemonic32.i_vcmpsd_xxoi. ss. }
arow. { unfold MnemonicOmit32.i_vcmpeq_osss_xo, Mnemonic32.i_vcmpeq_osss_xxo, Mnemonic32.i_vcmpss_xxoi. ss. }
arow. { unfold MnemonicOmit32.i_vcmpeq_uqpd_xo, Mnemonic32.i_vcmpeq_uqpd_xxo, Mnemonic32.i_vcmppd_xxoi. ss. }
arow. { unfold MnemonicOmit32.i_vcmpeq_uqps_xo, Mnemonic32.i_vcmpeq_uqps_xxo, Mnemonic32.i_vcmpps_xxoi. ss. }
arow. { unfold MnemonicOmit32.i_vcmpeq_uqsd_xo, Mnemonic32.i_vcmpeq_uqsd_xxo, Mnemonic32.i_vcmpsd_xxoi. ss. }
arow. { unfold MnemonicOmit32.i_vcmpeq_uqss_xo, Mnemonic32.i_vcmpeq_uqss_xxo, Mnemonic32.i_vcmpss_xxoi. ss. }
arow. { unfold MnemonicOmit32.i_vcmpeq_uspd_xo, Mnemonic32.i_vcmpeq_uspd_xxo, Mnemonic32.i_vcmppd_xxoi. ss. }
apply Forall_nil. Qed.
Lemma start79 : Forall entry_a sims79.
Proof. unfold sims79.
arow. { unfold MnemonicOmit32.i_vcmpeq_usps_xo, Mnemonic32.i_vcmpeq_usps_xxo, Mnemonic32.i_vcmpps_xxoi. ss. }
arow. { unfold MnemonicOmit32.i_vcmpeq_ussd_xo, Mnemonic32.i_vcmpeq_ussd_xxo, Mnemonic32.i_vcmpsd_xxoi. ss. }
arow. { unfold MnemonicOmit32.i_vcmpeq_usss_xo, Mnemonic32.i_vcmpeq_usss_xxo, Mnemonic32.i_vcmpss_xxoi. ss. }
arow. { unfold MnemonicOmit32.i_vcmpeqpd_xo, Mnemonic32.i_vcmpeqpd_xxo, Mnemonic32.i_vcmppd_xxoi. ss. }
arow. { unfold MnemonicOmit32.i_vcmpeqps_xo, Mnemonic32.i_vcmpeqps_xxo, Mnemonic32.i_vcmpps_xxoi. ss. }
arow. { unfold MnemonicOmit32.i_vcmpeqsd_xo, Mnemonic32.i_vcmpeqsd_xxo, Mnemonic32.i_vcmpsd_xxoi. ss. }
arow. { unfold MnemonicOmit32.i_vcmpeqss_xo, Mnemonic32.i_vcmpeqss_xxo, Mnemonic32.i_vcmpss_xxoi. ss. }
arow. { unfold MnemonicOmit32.i_vcmpfalse_ospd_xo, Mnemonic32.i_vcmpfalse_ospd_xxo, Mnemonic32.i_vcmppd_xxoi. ss. }
arow. { unfold MnemonicOmit32.i_vcmpfalse_osps_xo, Mnemonic32.i_vcmpfalse_osps_xxo, Mnemonic32.i_vcmpps_xxoi. ss. }
arow. { unfold MnemonicOmit32.i_vcmpfalse_ossd_xo, Mnemonic32.i_vcmpfalse_ossd_xxo, Mnemonic32.i_vcmpsd_xxoi. ss. }
arow. { unfold MnemonicOmit32.i_vcmpfalse_osss_xo, Mnemonic32.i_vcmpfalse_osss_xxo, Mnemonic32.i_vcmpss_xxoi. ss. }
arow. { unfold MnemonicOmit32.i_vcmpfalsepd_xo, Mnemonic32.i_vcmpfalsepd_xxo, Mnemonic32.i_vcmppd_xxoi. ss. }
arow. { unfold MnemonicOmit32.i_vcmpfalseps_xo, Mnemonic32.i_vcmpfalseps_xxo, Mnemonic32.i_vcmpps_xxoi. ss. }
arow. { unfold MnemonicOmit32.i_vcmpfalsesd_xo, Mnemonic32.i_vcmpfalsesd_xxo, Mnemonic32.i_vcmpsd_xxoi. ss. }
arow. { unfold MnemonicOmit32.i_vcmpfalsess_xo, Mnemonic32.i_vcmpfalsess_xxo, Mnemonic32.i_vcmpss_xxoi. ss. }
arow. { unfold MnemonicOmit32.i_vcmpge_oqpd_xo, Mnemonic32.i_vcmpge_oqpd_xxo, Mnemonic32.i_vcmppd_xxoi. ss. }
arow. { unfold MnemonicOmit32.i_vcmpge_oqps_xo, Mnemonic32.i_vcmpge_oqps_xxo, Mnemonic32.i_vcmpps_xxoi. ss. }
arow. { unfold MnemonicOmit32.i_vcmpge_oqsd_xo, Mnemonic32.i_vcmpge_oqsd_xxo, Mnemonic32.i_vcmpsd_xxoi. ss. }
arow. { unfold MnemonicOmit32.i_vcmpge_oqss_xo, Mnemonic32.i_vcmpge_oqss_xxo, Mnemonic32.i_vcmpss_xxoi. ss. }
arow. { unfold MnemonicOmit32.i_vcmpgepd_xo, Mnemonic32.i_vcmpgepd_xxo, Mnemonic32.i_vcmppd_xxoi. ss. }
arow. { unfold MnemonicOmit32.i_vcmpgeps_xo, Mnemonic32.i_vcmpgeps_xxo, Mnemonic32.i_vcmpps_xxoi. ss. }
arow. { unfold MnemonicOmit32.i_vcmpgesd_xo, Mnemonic32.i_vcmpgesd_xxo, Mnemonic32.i_vcmpsd_xxoi. ss. }
arow. { unfold MnemonicOmit32.i_vcmpgess_xo, Mnemonic32.i_vcmpgess_xxo, Mnemonic32.i_vcmpss_xxoi. ss. }
arow. { unfold MnemonicOmit32.i_vcmpgt_oqpd_xo, Mnemonic32.i_vcmpgt_oqpd_xxo, Mnemonic32.i_vcmppd_xxoi. ss. }
arow. { unfold MnemonicOmit32.i_vcmpgt_oqps_xo, Mnemonic32.i_vcmpgt_oqps_xxo, Mnemonic32.i_vcmpps_xxoi. ss. }
apply Forall_nil. Qed.
Lemma start80 : Forall entry_a sims80.
Proof. unfold sims80.
arow. { unfold MnemonicOmit32.i_vcmpgt_oqsd_xo, Mnemonic32.i_vcmpgt_oqsd_xxo, Mnemonic32.i_vcmpsd_xxoi. ss. }
arow. { unfold MnemonicOmit32.i_vcmpgt_oqss_xo, Mnemonic32.i_vcmpgt_oqss_xxo, Mnemonic32.i_vcmpss_xxoi. ss. }
arow. { unfold MnemonicOmit32.i_vcmpgtpd_xo, Mnemonic32.i_vcmpgtpd_xxo, Mnemonic32.i_vcmppd_xxoi. ss. }
arow. { unfold MnemonicOmit32.i_vcmpgtps_xo, Mnemonic32.i_vcmpgtps_xxo, Mnemonic32.i_vcmpps_xxoi. ss. }
arow. { unfold MnemonicOmit32.i_vcmpgtsd_xo, Mnemonic32.i_vcmpgtsd_xxo, Mnemonic32.i_vcmpsd_xxoi. ss. }
arow. { unfold MnemonicOmit32.i_vcmpgtss_xo, Mnemonic32.i_vcmpgtss_xxo, Mnemonic32.i_vcmpss_xxoi. ss. }
arow. { unfold MnemonicOmit32.i_vcmple_oqpd_xo, Mnemonic32.i_vcmple_oqpd_xxo, Mnemonic32.i_vcmppd_xxoi. ss. }
arow. { unfold MnemonicOmit32.i_vcmple_oqps_xo, Mnemonic32.i_vcmple_oqps_xxo, Mnemonic32.i_vcmpps_xxoi. ss. }
arow. { unfold MnemonicOmit32.i_vcmple_oqsd_xo, Mnemonic32.i_vcmple_oqsd_xxo, Mnemonic32.i_vcmpsd_xxoi. ss. }
arow. { unfold MnemonicOmit32.i_vcmple_oqss_xo, Mnemonic32.i_vcmple_oqss_xxo, Mnemonic32.i_vcmpss_xxoi. ss. }
arow. { unfold MnemonicOmit32.i_vcmplepd_xo, Mnemonic32.i_vcmplepd_xxo, Mnemonic32.i_vcmppd_xxoi. ss. }
arow. { unfold MnemonicOmit32.i_vcmpleps_xo, Mnemonic32.i_vcmpleps_xxo, Mnemonic32.i_vcmpps_xxoi. ss. }
arow. { unfold MnemonicOmit32.i_vcmplesd_xo, Mnemonic32.i_vcmplesd_xxo, Mnemonic32.i_vcmpsd_xxoi. ss. }
arow. { unfold MnemonicOmit32.i_vcmpless_xo, Mnemonic32.i_vcmpless_xxo, Mnemonic32.i_vcmpss_xxoi. ss. }
arow. { unfold MnemonicOmit32.i_vcmplt_oqpd_xo, Mnemonic32.i_vcmplt_oqpd_xxo, Mnemonic32.i_vcmppd_xxoi. ss. }
arow. { unfold MnemonicOmit32.i_vcmplt_oqps_xo, Mnemonic32.i_vcmplt_oqps_xxo, Mnemonic32.i_vcmpps_xxoi. ss. }
arow. { unfold MnemonicOmit32.i_vcmplt_oqsd_xo, Mnemonic32.i_vcmplt_oqsd_xxo, Mnemonic32.i_vcmpsd_xxoi. ss. }
arow. { unfold MnemonicOmit32.i_vcmplt_oqss_xo, Mnemonic32.i_vcmplt_oqss_xxo, Mnemonic32.i_vcmpss_xxoi. ss. }
arow. { unfold MnemonicOmit32.i_vcmpltpd_xo, Mnemonic32.i_vcmpltpd_xxo, Mnemonic32.i_vcmppd_xxoi. ss. }
arow. { unfold MnemonicOmit32.i_vcmpltps_xo, Mnemonic32.i_vcmpltps_xxo, Mnemonic32.i_vcmpps_xxoi. ss. }
arow. { unfold MnemonicOmit32.i_vcmpltsd_xo, Mnemonic32.i_vcmpltsd_xxo, Mnemonic32.i_vcmpsd_xxoi. ss. }
arow. { unfold MnemonicOmit32.i_vcmpltss_xo, Mnemonic32.i_vcmpltss_xxo, Mnemonic32.i_vcmpss_xxoi. ss. }
arow. { unfold MnemonicOmit32.i_vcmpneq_oqpd_xo, Mnemonic32.i_vcmpneq_oqpd_xxo, Mnemonic32.i_vcmppd_xxoi. ss. }
arow. { unfold MnemonicOmit32.i_vcmpneq_oqps_xo, Mnemonic32.i_vcmpneq_oqps_xxo, Mnemonic32.i_vcmpps_xxoi. ss. }
arow. { unfold MnemonicOmit32.i_vcmpneq_oqsd_xo, Mnemonic32.i_vcmpneq_oqsd_xxo, Mnemonic32.i_vcmpsd_xxoi. ss. }
apply Forall_nil. Qed.
Lemma start81 : Forall entry_a sims81.
Proof. unfold sims81.
arow. { unfold MnemonicOmit32.i_vcmpneq_oqss_xo, Mnemonic32.i_vcmpneq_oqss_xxo, Mnemonic32.i_vcmpss_xxoi. ss. }
arow. { unfold MnemonicOmit32.i_vcmpneq_ospd_xo, Mnemonic32.i_vcmpneq_ospd_xxo, Mnemonic32.i_vcmppd_xxoi. ss. }
arow. { unfold MnemonicOmit32.i_vcmpneq_osps_xo, Mnemonic32.i_vcmpneq_osps_xxo, Mnemonic32.i_vcmpps_xxoi. ss. }
arow. { unfold MnemonicOmit32.i_vcmpneq_ossd_xo, Mnemonic32.i_vcmpneq_ossd_xxo, Mnemonic32.i_vcmpsd_xxoi. ss. }
arow. { unfold MnemonicOmit32.i_vcmpneq_osss_xo, Mnemonic32.i_vcmpneq_osss_xxo, Mnemonic32.i_vcmpss_xxoi. ss. }
arow. { unfold MnemonicOmit32.i_vcmpneq_uspd_xo, Mnemonic32.i_vcmpneq_uspd_xxo, Mnemonic32.i_vcmppd_xxoi. ss. }
arow. { unfold MnemonicOmit32.i_vcmpneq_usps_xo, Mnemonic32.i_vcmpneq_usps_xxo, Mnemonic32.i_vcmpps_xxoi. ss. }
arow. { unfold MnemonicOmit32.i_vcmpneq_ussd_xo, Mnemonic32.i_vcmpneq_ussd_xxo, Mnemonic32.i_vcmpsd_xxoi. ss. }
arow. { unfold MnemonicOmit32.i_vcmpneq_usss_xo, Mnemonic32.i_vcmpneq_usss_xxo, Mnemonic32.i_vcmpss_xxoi. ss. }
arow. { unfold MnemonicOmit32.i_vcmpneqpd_xo, Mnemonic32.i_vcmpneqpd_xxo, Mnemonic32.i_vcmppd_xxoi. ss. }
arow. { unfold MnemonicOmit32.i_vcmpneqps_xo, Mnemonic32.i_vcmpneqps_xxo, Mnemonic32.i_vcmpps_xxoi. ss. }
arow. { unfold MnemonicOmit32.i_vcmpneqsd_xo, Mnemonic32.i_vcmpneqsd_xxo, Mnemonic32.i_vcmpsd_xxoi. ss. }
arow. { unfold MnemonicOmit32.i_vcmpneqss_xo, Mnemonic32.i_vcmpneqss_xxo, Mnemonic32.i_vcmpss_xxoi. ss. }
arow. { unfold MnemonicOmit32.i_vcmpnge_uqpd_xo, Mnemonic32.i_vcmpnge_uqpd_xxo, Mnemonic32.i_vcmppd_xxoi. ss. }
arow. { unfold MnemonicOmit32.i_vcmpnge_uqps_xo, Mnemonic32.i_vcmpnge_uqps_xxo, Mnemonic32.i_vcmpps_xxoi. ss. }
arow. { unfold MnemonicOmit32.i_vcmpnge_uqsd_xo, Mnemonic32.i_vcmpnge_uqsd_xxo, Mnemonic32.i_vcmpsd_xxoi. ss. }
arow. { unfold MnemonicOmit32.i_vcmpnge_uqss_xo, Mnemonic32.i_vcmpnge_uqss_xxo, Mnemonic32.i_vcmpss_xxoi. ss. }
arow. { unfold MnemonicOmit32.i_vcmpngepd_xo, Mnemonic32.i_vcmpngepd_xxo, Mnemonic32.i_vcmppd_xxoi. ss. }
arow. { unfold MnemonicOmit32.i_vcmpngeps_xo, Mnemonic32.i_vcmpngeps_xxo, Mnemonic32.i_vcmpps_xxoi. ss. }
arow. { unfold MnemonicOmit32.i_vcmpngesd_xo, Mnemonic32.i_vcmpngesd_xxo, Mnemonic32.i_vcmpsd_xxoi. ss. }
arow. { unfold MnemonicOmit32.i_vcmpngess_xo, Mnemonic32.i_vcmpngess_xxo, Mnemonic32.i_vcmpss_xxoi. ss. }
arow. { unfold MnemonicOmit32.i_vcmpngt_uqpd_xo, Mnemonic32.i_vcmpngt_uqpd_xxo, Mnemonic32.i_vcmppd_xxoi. ss. }
arow. { unfold MnemonicOmit32.i_vcmpngt_uqps_xo, Mnemonic32.i_vcmpngt_uqps_xxo, Mnemonic32.i_vcmpps_xxoi. ss. }
arow. { unfold MnemonicOmit32.i_vcmpngt_uqsd_xo, Mnemonic32.i_vcmpngt_uqsd_xxo, Mnemonic32.i_vcmpsd_xxoi. ss. }
arow. { unfold MnemonicOmit32.i_vcmpngt_uqss_xo, Mnemonic32.i_vcmpngt_uqss_xxo, Mnemonic32.i_vcmpss_xxoi. ss. }
apply Forall_nil. Qed.
Lemma start82 : Forall entry_a sims82.
Proof. unfold sims82.
arow. { unfold MnemonicOmit32.i_vcmpngtpd_xo, Mnemonic32.i_vcmpngtpd_xxo, Mnemonic32.i_vcmppd_xxoi. ss. }
arow. { unfold MnemonicOmit32.i_vcmpngtps_xo, Mnemonic32.i_vcmpngtps_xxo, Mnemonic32.i_vcmpps_xxoi. ss. }
arow. { unfold MnemonicOmit32.i_vcmpngtsd_xo, Mnemonic32.i_vcmpngtsd_xxo, Mnemonic32.i_vcmpsd_xxoi. ss. }
arow. { unfold MnemonicOmit32.i_vcmpngtss_xo, Mnemonic32.i_vcmpngtss_xxo, Mnemonic32.i_vcmpss_xxoi. ss. }
arow. { unfold MnemonicOmit32.i_vcmpnle_uqpd_xo, Mnemonic32.i_vcmpnle_uqpd_xxo, Mnemonic32.i_vcmppd_xxoi. ss. }
arow. { unfold MnemonicOmit32.i_vcmpnle_uqps_xo, Mnemonic32.i_vcmpnle_uqps_xxo, Mnemonic32.i_vcmpps_xxoi. ss. }
arow. { unfold MnemonicOmit32.i_vcmpnle_uqsd_xo, Mnemonic32.i_vcmpnle_uqsd_xxo, Mnemonic32.i_vcmpsd_xxoi. ss. }
arow. { unfold MnemonicOmit32.i_vcmpnle_uqss_xo, Mnemonic32.i_vcmpnle_uqss_xxo, Mnemonic32.i_vcmpss_xxoi. ss. }
arow. { unfold MnemonicOmit32.i_vcmpnlepd_xo, Mnemonic32.i_vcmpnlepd_xxo, Mnemonic32.i_vcmppd_xxoi. ss. }
arow. { unfold MnemonicOmit32.i_vcmpnleps_xo, Mnemonic32.i_vcmpnleps_xxo, Mnemonic32.i_vcmpps_xxoi. ss. }
arow. { unfold MnemonicOmit32.i_vcmpnlesd_xo, Mnemonic32.i_vcmpnlesd_xxo, Mnemonic32.i_vcmpsd_xxoi. ss. }
arow. { unfold MnemonicOmit32.i_vcmpnless_xo, Mnemonic32.i_vcmpnless_xxo, Mnemonic32.i_vcmpss_xxoi. ss. }
arow. { unfold MnemonicOmit32.i_vcmpnlt_uqpd_xo, Mnemonic32.i_vcmpnlt_uqpd_xxo, Mnemonic32.i_vcmppd_xxoi. ss. }
arow. { unfold MnemonicOmit32.i_vcmpnlt_uqps_xo, Mnemonic32.i_vcmpnlt_uqps_xxo, Mnemonic32.i_vcmpps_xxoi. ss. }
arow. { unfold MnemonicOmit32.i_vcmpnlt_uqsd_xo, Mnemonic32.i_vcmpnlt_uqsd_xxo, Mnemonic32.i_vcmpsd_xxoi. ss. }
arow. { unfold MnemonicOmit32.i_vcmpnlt_uqss_xo, Mnemonic32.i_vcmpnlt_uqss_xxo, Mnemonic32.i_vcmpss_xxoi. ss. }
arow. { unfold MnemonicOmit32.i_vcmpnltpd_xo, Mnemonic32.i_vcmpnltpd_xxo, Mnemonic32.i_vcmppd_xxoi. ss. }
arow. { unfold MnemonicOmit32.i_vcmpnltps_xo, Mnemonic32.i_vcmpnltps_xxo, Mnemonic32.i_vcmpps_xxoi. ss. }
arow. { unfold MnemonicOmit32.i_vcmpnltsd_xo, Mnemonic32.i_vcmpnltsd_xxo, Mnemonic32.i_vcmpsd_xxoi. ss. }
arow. { unfold MnemonicOmit32.i_vcmpnltss_xo, Mnemonic32.i_vcmpnltss_xxo, Mnemonic32.i_vcmpss_xxoi. ss. }
arow. { unfold MnemonicOmit32.i_vcmpord_spd_xo, Mnemonic32.i_vcmpord_spd_xxo, Mnemonic32.i_vcmppd_xxoi. ss. }
arow. { unfold MnemonicOmit32.i_vcmpord_sps_xo, Mnemonic32.i_vcmpord_sps_xxo, Mnemonic32.i_vcmpps_xxoi. ss. }
arow. { unfold MnemonicOmit32.i_vcmpord_ssd_xo, Mnemonic32.i_vcmpord_ssd_xxo, Mnemonic32.i_vcmpsd_xxoi. ss. }
arow. { unfold MnemonicOmit32.i_vcmpord_sss_xo, Mnemonic32.i_vcmpord_sss_xxo, Mnemonic32.i_vcmpss_xxoi. ss. }
arow. { unfold MnemonicOmit32.i_vcmpordpd_xo, Mnemonic32.i_vcmpordpd_xxo, Mnemonic32.i_vcmppd_xxoi. ss. }
apply Forall_nil. Qed.
Lemma start83 : Forall entry_a sims83.
Proof. unfold sims83.
arow. { unfold MnemonicOmit32.i_vcmpordps_xo, Mnemonic32.i_vcmpordps_xxo, Mnemonic32.i_vcmpps_xxoi. ss. }
arow. { unfold MnemonicOmit32.i_vcmpordsd_xo, Mnemonic32.i_vcmpordsd_xxo, Mnemonic32.i_vcmpsd_xxoi. ss. }
arow. { unfold MnemonicOmit32.i_vcmpordss_xo, Mnemonic32.i_vcmpordss_xxo, Mnemonic32.i_vcmpss_xxoi. ss. }
arow. { unfold MnemonicOmit32.i_vcmppd_xoi, Mnemonic32.i_vcmppd_xxoi. ss. }
arow. { unfold MnemonicOmit32.i_vcmpps_xoi, Mnemonic32.i_vcmpps_xxoi. ss. }
arow. { unfold MnemonicOmit32.i_vcmpsd_xoi, Mnemonic32.i_vcmpsd_xxoi. ss. }
arow. { unfold MnemonicOmit32.i_vcmpss_xoi, Mnemonic32.i_vcmpss_xxoi. ss. }
arow. { unfold MnemonicOmit32.i_vcmptrue_uspd_xo, Mnemonic32.i_vcmptrue_uspd_xxo, Mnemonic32.i_vcmppd_xxoi. ss. }
arow. { unfold MnemonicOmit32.i_vcmptrue_usps_xo, Mnemonic32.i_vcmptrue_usps_xxo, Mnemonic32.i_vcmpps_xxoi. ss. }
arow. { unfold MnemonicOmit32.i_vcmptrue_ussd_xo, Mnemonic32.i_vcmptrue_ussd_xxo, Mnemonic32.i_vcmpsd_xxoi. ss. }
arow. { unfold MnemonicOmit32.i_vcmptrue_usss_xo, Mnemonic32.i_vcmptrue_usss_xxo, Mnemonic32.i_vcmpss_xxoi. ss. }
arow. { unfold MnemonicOmit32.i_vcmptruepd_xo, Mnemonic32.i_vcmptruepd_xxo, Mnemonic32.i_vcmppd_xxoi. ss. }
arow. { unfold MnemonicOmit32.i_vcmptrueps_xo, Mnemonic32.i_vcmptrueps_xxo, Mnemonic32.i_vcmpps_xxoi. ss. }
arow. { unfold MnemonicOmit32.i_vcmptruesd_xo, Mnemonic32.i_vcmptruesd_xxo, Mnemonic32.i_vcmpsd_xxoi. ss. }
arow. { unfold MnemonicOmit32.i_vcmptruess_xo, Mnemonic32.i_vcmptruess_xxo, Mnemonic32.i_vcmpss_xxoi. ss. }
arow. { unfold MnemonicOmit32.i_vcmpunord_spd_xo, Mnemonic32.i_vcmpunord_spd_xxo, Mnemonic32.i_vcmppd_xxoi. ss. }
arow. { unfold MnemonicOmit32.i_vcmpunord_sps_xo, Mnemonic32.i_vcmpunord_sps_xxo, Mnemonic32.i_vcmpps_xxoi. ss. }
arow. { unfold MnemonicOmit32.i_vcmpunord_ssd_xo, Mnemonic32.i_vcmpunord_ssd_xxo, Mnemonic32.i_vcmpsd_xxoi. ss. }
arow. { unfold MnemonicOmit32.i_vcmpunord_sss_xo, Mnemonic32.i_vcmpunord_sss_xxo, Mnemonic32.i_vcmpss_xxoi. ss. }
arow. { unfold MnemonicOmit32.i_vcmpunordpd_xo, Mnemonic32.i_vcmpunordpd_xxo, Mnemonic32.i_vcmppd_xxoi. ss. }
arow. { unfold MnemonicOmit32.i_vcmpunordps_xo, Mnemonic32.i_vcmpunordps_xxo, Mnemonic32.i_vcmpps_xxoi. ss. }
arow. { unfold MnemonicOmit32.i_vcmpunordsd_xo, Mnemonic32.i_vcmpunordsd_xxo, Mnemonic32.i_vcmpsd_xxoi. ss. }
arow. { unfold MnemonicOmit32.i_vcmpunordss_xo, Mnemonic32.i_vcmpunordss_xxo, Mnemonic32.i_vcmpss_xxoi. ss. }
arow. { unfold MnemonicOmit32.i_vcvtsd2ss_xo, Mnemonic32.i_vcvtsd2ss_xxo. ss. }
arow. { unfold MnemonicOmit32.i_vcvtsi2sd_xo, Mnemonic32.i_vcvtsi2sd_xxo. ss. }
apply Forall_nil. Qed.
Lemma start84 : Forall entry_a sims84.
Proof. unfold sims84.
arow. { unfold MnemonicOmit32.i_vcvtsi2ss_xo, Mnemonic32.i_vcvtsi2ss_xxo. ss. }
arow. { unfold MnemonicOmit32.i_vcvtss2sd_xo, Mnemonic32.i_vcvtss2sd_xxo. ss. }
arow. { unfold MnemonicOmit32.i_vdppd_xoi, Mnemonic32.i_vdppd_xxoi. ss. }
arow. { unfold MnemonicOmit32.i_vdpps_xoi, Mnemonic32.i_vdpps_xxoi. ss. }
arow. { unfold MnemonicOmit32.i_vinsertps_xoi, Mnemonic32.i_vinsertps_xxoi. ss. }
arow. { unfold MnemonicOmit32.i_vmpsadbw_xoi, MnemonicAvx32.i_vmpsadbw_xxoip. ss. }
arow. { unfold MnemonicOmit32.i_vpackssdw_xo, Mnemonic32.i_vpackssdw_xxo. ss. }
arow. { unfold MnemonicOmit32.i_vpacksswb_xo, Mnemonic32.i_vpacksswb_xxo. ss. }
arow. { unfold MnemonicOmit32.i_vpackusdw_xo, Mnemonic32.i_vpackusdw_xxo. ss. }
arow. { unfold MnemonicOmit32.i_vpackuswb_xo, Mnemonic32.i_vpackuswb_xxo. ss. }
arow. { unfold MnemonicOmit32.i_vpaddb_xo, Mnemonic32.i_vpaddb_xxo. ss. }
arow. { unfold MnemonicOmit32.i_vpaddd_xo, Mnemonic32.i_vpaddd_xxo. ss. }
arow. { unfold MnemonicOmit32.i_vpaddq_xo, Mnemonic32.i_vpaddq_xxo. ss. }
arow. { unfold MnemonicOmit32.i_vpaddsb_xo, Mnemonic32.i_vpaddsb_xxo. ss. }
arow. { unfold MnemonicOmit32.i_vpaddsw_xo, Mnemonic32.i_vpaddsw_xxo. ss. }
arow. { unfold MnemonicOmit32.i_vpaddusb_xo, Mnemonic32.i_vpaddusb_xxo. ss. }
arow. { unfold MnemonicOmit32.i_vpaddusw_xo, Mnemonic32.i_vpaddusw_xxo. ss. }
arow. { unfold MnemonicOmit32.i_vpaddw_xo, Mnemonic32.i_vpaddw_xxo. ss. }
arow. { unfold MnemonicOmit32.i_vpalignr_xoi, Mnemonic32.i_vpalignr_xxoi. ss. }
arow. { unfold MnemonicOmit32.i_vpand_xo, Mnemonic32.i_vpand_xxo. ss. }
arow. { unfold MnemonicOmit32.i_vpandn_xo, Mnemonic32.i_vpandn_xxo. ss. }
arow. { unfold MnemonicOmit32.i_vpavgb_xo, Mnemonic32.i_vpavgb_xxo. ss. }
arow. { unfold MnemonicOmit32.i_vpavgw_xo, Mnemonic32.i_vpavgw_xxo. ss. }
arow. { unfold MnemonicOmit32.i_vpblendd_xoi, Mnemonic32.i_vpblendd_xxoi. ss. }
arow. { unfold MnemonicOmit32.i_vpblendvb_xox, Mnemonic32.i_vpblendvb_xxox. ss. }
apply Forall_nil. Qed.
Lemma start85 : Forall entry_a sims85.
Proof. unfold sims85.
arow. { unfold MnemonicOmit32.i_vpblendw_xoi, Mnemonic32.i_vpblendw_xxoi. ss. }
arow. { unfold MnemonicOmit32.i_vpclmulqdq_xoi, Mnemonic32.i_vpclmulqdq_xxoi. ss. }
arow. { unfold MnemonicOmit32.i_vpcmpeqb_xo, Mnemonic32.i_vpcmpeqb_xxo. ss. }
arow. { unfold MnemonicOmit32.i_vpcmpeqd_xo, Mnemonic32.i_vpcmpeqd_xxo. ss. }
arow. { unfold MnemonicOmit32.i_vpcmpeqq_xo, Mnemonic32.i_vpcmpeqq_xxo. ss. }
arow. { unfold MnemonicOmit32.i_vpcmpeqw_xo, Mnemonic32.i_vpcmpeqw_xxo. ss. }
arow. { unfold MnemonicOmit32.i_vpcmpgtb_xo, Mnemonic32.i_vpcmpgtb_xxo. ss. }
arow. { unfold MnemonicOmit32.i_vpcmpgtd_xo, Mnemonic32.i_vpcmpgtd_xxo. ss. }
arow. { unfold MnemonicOmit32.i_vpcmpgtq_xo, Mnemonic32.i_vpcmpgtq_xxo. ss. }
arow. { unfold MnemonicOmit32.i_vpcmpgtw_xo, Mnemonic32.i_vpcmpgtw_xxo. ss. }
arow. { unfold MnemonicOmit32.i_vphaddd_xo, Mnemonic32.i_vphaddd_xxo. ss. }
arow. { unfold MnemonicOmit32.i_vphaddsw_xo, Mnemonic32.i_vphaddsw_xxo. ss. }
arow. { unfold MnemonicOmit32.i_vphaddw_xo, Mnemonic32.i_vphaddw_xxo. ss. }
arow. { unfold MnemonicOmit32.i_vphsubd_xo, Mnemonic32.i_vphsubd_xxo. ss. }
arow. { unfold MnemonicOmit32.i_vphsubsw_xo, Mnemonic32.i_vphsubsw_xxo. ss. }
arow. { unfold MnemonicOmit32.i_vphsubw_xo, Mnemonic32.i_vphsubw_xxo. ss. }
arow. { unfold MnemonicOmit32.i_vpinsrb_xoi, Mnemonic32.i_vpinsrb_xxoi. ss. }
arow. { unfold MnemonicOmit32.i_vpinsrd_xoi, Mnemonic32.i_vpinsrd_xxoi. ss. }
arow. { unfold MnemonicOmit32.i_vpinsrq_xoi, Mnemonic32.i_vpinsrq_xxoi. ss. }
arow. { unfold MnemonicOmit32.i_vpinsrw_xoi, Mnemonic32.i_vpinsrw_xxoi. ss. }
arow. { unfold MnemonicOmit32.i_vpmaddubsw_xo, Mnemonic32.i_vpmaddubsw_xxo. ss. }
arow. { unfold MnemonicOmit32.i_vpmaddwd_xo, Mnemonic32.i_vpmaddwd_xxo. ss. }
arow. { unfold MnemonicOmit32.i_vpmaxsb_xo, Mnemonic32.i_vpmaxsb_xxo. ss. }
arow. { unfold MnemonicOmit32.i_vpmaxsd_xo, Mnemonic32.i_vpmaxsd_xxo. ss. }
arow. { unfold MnemonicOmit32.i_vpmaxsw_xo, Mnemonic32.i_vpmaxsw_xxo. ss. }
apply Forall_nil. Qed.
Lemma start86 : Forall entry_a sims86.
Proof. unfold sims86.
arow. { unfold MnemonicOmit32.i_vpmaxub_xo, Mnemonic32.i_vpmaxub_xxo. ss. }
arow. { unfold MnemonicOmit32.i_vpmaxud_xo, Mnemonic32.i_vpmaxud_xxo. ss. }
arow. { unfold MnemonicOmit32.i_vpmaxuw_xo, Mnemonic32.i_vpmaxuw_xxo. ss. }
arow. { unfold MnemonicOmit32.i_vpminsb_xo, Mnemonic32.i_vpminsb_xxo. ss. }
arow. { unfold MnemonicOmit32.i_vpminsd_xo, Mnemonic32.i_vpminsd_xxo. ss. }
arow. { unfold MnemonicOmit32.i_vpminsw_xo, Mnemonic32.i_vpminsw_xxo. ss. }
arow. { unfold MnemonicOmit32.i_vpminub_xo, Mnemonic32.i_vpminub_xxo. ss. }
arow. { unfold MnemonicOmit32.i_vpminud_xo, Mnemonic32.i_vpminud_xxo. ss. }
arow. { unfold MnemonicOmit32.i_vpminuw_xo, Mnemonic32.i_vpminuw_xxo. ss. }
arow. { unfold MnemonicOmit32.i_vpmuldq_xo, Mnemonic32.i_vpmuldq_xxo. ss. }
arow. { unfold MnemonicOmit32.i_vpmulhrsw_xo, Mnemonic32.i_vpmulhrsw_xxo. ss. }
arow. { unfold MnemonicOmit32.i_vpmulhuw_xo, Mnemonic32.i_vpmulhuw_xxo. ss. }
arow. { unfold MnemonicOmit32.i_vpmulhw_xo, Mnemonic32.i_vpmulhw_xxo. ss. }
arow. { unfold MnemonicOmit32.i_vpmulld_xo, Mnemonic32.i_vpmulld_xxo. ss. }
arow. { unfold MnemonicOmit32.i_vpmullw_xo, Mnemonic32.i_vpmullw_xxo. ss. }
arow. { unfold MnemonicOmit32.i_vpmuludq_xo, Mnemonic32.i_vpmuludq_xxo. ss. }
arow. { unfold MnemonicOmit32.i_vpor_xo, Mnemonic32.i_vpor_xxo. ss. }
arow. { unfold MnemonicOmit32.i_vpsadbw_xo, Mnemonic32.i_vpsadbw_xxo. ss. }
arow. { unfold MnemonicOmit32.i_vpsignb_xo, Mnemonic32.i_vpsignb_xxo. ss. }
arow. { unfold MnemonicOmit32.i_vpsignd_xo, Mnemonic32.i_vpsignd_xxo. ss. }
arow. { unfold MnemonicOmit32.i_vpsignw_xo, Mnemonic32.i_vpsignw_xxo. ss. }
arow. { unfold MnemonicOmit32.i_vpslld_xo, Mnemonic32.i_vpslld_xxo. ss. }
arow. { unfold MnemonicOmit32.i_vpslld_xi, Mnemonic32.i_vpslld_xoi. ss. }
arow. { unfold MnemonicOmit32.i_vpslldq_xi, Mnemonic32.i_vpslldq_xoi. ss. }
arow. { unfold MnemonicOmit32.i_vpsllq_xo, Mnemonic32.i_vpsllq_xxo. ss. }
apply Forall_nil. Qed.
Lemma start87 : Forall entry_a sims87.
Proof. unfold sims87.
arow. { unfold MnemonicOmit32.i_vpsllq_xi, Mnemonic32.i_vpsllq_xoi. ss. }
arow. { unfold MnemonicOmit32.i_vpsllw_xo, Mnemonic32.i_vpsllw_xxo. ss. }
arow. { unfold MnemonicOmit32.i_vpsllw_xi, Mnemonic32.i_vpsllw_xoi. ss. }
arow. { unfold MnemonicOmit32.i_vpsrad_xo, Mnemonic32.i_vpsrad_xxo. ss. }
arow. { unfold MnemonicOmit32.i_vpsrad_xi, Mnemonic32.i_vpsrad_xoi. ss. }
arow. { unfold MnemonicOmit32.i_vpsraw_xo, Mnemonic32.i_vpsraw_xxo. ss. }
arow. { unfold MnemonicOmit32.i_vpsraw_xi, Mnemonic32.i_vpsraw_xoi. ss. }
arow. { unfold MnemonicOmit32.i_vpsrld_xo, Mnemonic32.i_vpsrld_xxo. ss. }
arow. { unfold MnemonicOmit32.i_vpsrld_xi, Mnemonic32.i_vpsrld_xoi. ss. }
arow. { unfold MnemonicOmit32.i_vpsrldq_xi, Mnemonic32.i_vpsrldq_xoi. ss. }
arow. { unfold MnemonicOmit32.i_vpsrlq_xo, Mnemonic32.i_vpsrlq_xxo. ss. }
arow. { unfold MnemonicOmit32.i_vpsrlq_xi, Mnemonic32.i_vpsrlq_xoi. ss. }
arow. { unfold MnemonicOmit32.i_vpsrlw_xo, Mnemonic32.i_vpsrlw_xxo. ss. }
arow. { unfold MnemonicOmit32.i_vpsrlw_xi, Mnemonic32.i_vpsrlw_xoi. ss. }
arow. { unfold MnemonicOmit32.i_vpsubb_xo, Mnemonic32.i_vpsubb_xxo. ss. }
arow. { unfold MnemonicOmit32.i_vpsubd_xo, Mnemonic32.i_vpsubd_xxo. ss. }
arow. { unfold MnemonicOmit32.i_vpsubq_xo, Mnemonic32.i_vpsubq_xxo. ss. }
arow. { unfold MnemonicOmit32.i_vpsubsb_xo, Mnemonic32.i_vpsubsb_xxo. ss. }
arow. { unfold MnemonicOmit32.i_vpsubsw_xo, Mnemonic32.i_vpsubsw_xxo. ss. }
arow. { unfold MnemonicOmit32.i_vpsubusb_xo, Mnemonic32.i_vpsubusb_xxo. ss. }
arow. { unfold MnemonicOmit32.i_vpsubusw_xo, Mnemonic32.i_vpsubusw_xxo. ss. }
arow. { unfold MnemonicOmit32.i_vpsubw_xo, Mnemonic32.i_vpsubw_xxo. ss. }
arow. { unfold MnemonicOmit32.i_vpunpckhbw_xo, Mnemonic32.i_vpunpckhbw_xxo. ss. }
arow. { unfold MnemonicOmit32.i_vpunpckhdq_xo, Mnemonic32.i_vpunpckhdq_xxo. ss. }
arow. { unfold MnemonicOmit32.i_vpunpckhqdq_xo, Mnemonic32.i_vpunpckhqdq_xxo. ss. }
apply Forall_nil. Qed.
Lemma start88 : Forall entry_a sims88.
Proof. unfold sims88.
arow. { unfold MnemonicOmit32.i_vpunpckhwd_xo, Mnemonic32.i_vpunpckhwd_xxo. ss. }
arow. { unfold MnemonicOmit32.i_vpunpcklbw_xo, Mnemonic32.i_vpunpcklbw_xxo. ss. }
arow. { unfold MnemonicOmit32.i_vpunpckldq_xo, Mnemonic32.i_vpunpckldq_xxo. ss. }
arow. { unfold MnemonicOmit32.i_vpunpcklqdq_xo, Mnemonic32.i_vpunpcklqdq_xxo. ss. }
arow. { unfold MnemonicOmit32.i_vpunpcklwd_xo, Mnemonic32.i_vpunpcklwd_xxo. ss. }
arow. { unfold MnemonicOmit32.i_vpxor_xo, Mnemonic32.i_vpxor_xxo. ss. }
arow. { unfold MnemonicOmit32.i_vrcpss_xo, Mnemonic32.i_vrcpss_xxo. ss. }
arow. { unfold MnemonicOmit32.i_vroundsd_xoi, Mnemonic32.i_vroundsd_xxoi. ss. }
arow. { unfold MnemonicOmit32.i_vroundss_xoi, Mnemonic32.i_vroundss_xxoi. ss. }
arow. { unfold MnemonicOmit32.i_vrsqrtss_xo, Mnemonic32.i_vrsqrtss_xxo. ss. }
arow. { unfold MnemonicOmit32.i_vshufpd_xoi, Mnemonic32.i_vshufpd_xxoi. ss. }
arow. { unfold MnemonicOmit32.i_vshufps_xoi, Mnemonic32.i_vshufps_xxoi. ss. }
arow. { unfold MnemonicOmit32.i_vsqrtsd_xo, Mnemonic32.i_vsqrtsd_xxo. ss. }
arow. { unfold MnemonicOmit32.i_vsqrtss_xo, Mnemonic32.i_vsqrtss_xxo. ss. }
arow. { unfold MnemonicOmit32.i_vunpckhpd_xo, Mnemonic32.i_vunpckhpd_xxo. ss. }
arow. { unfold MnemonicOmit32.i_vunpckhps_xo, Mnemonic32.i_vunpckhps_xxo. ss. }
arow. { unfold MnemonicOmit32.i_vunpcklpd_xo, Mnemonic32.i_vunpcklpd_xxo. ss. }
arow. { unfold MnemonicOmit32.i_vunpcklps_xo, Mnemonic32.i_vunpcklps_xxo. ss. }
arow. { ss. }
srow. { ss. }
arow. { ss. }
srow. { ss. }
arow. { ss. }
arow. { ss. }
arow. { ss. }
apply Forall_nil. Qed.
Lemma start89 : Forall entry_a sims89.
Proof. unfold sims89.
arow. { ss. }
apply Forall_nil. Qed.
Lemma start_ok : Forall entry_a b_methods.
Proof. unfold b_methods. repeat (apply Forall_app; split); auto using start0, start1, start2, start3, start4, start5, start6, start7, start8, start9, start10, start11, start12, start13, start14, start15, start16, start17, start18, start19, start20, start21, start22, start23, start24, start25, start26, start27, start28, start29, start30, start31, start32, start33, start34, start35, start36, start37, start38, start39, start40, start41, start42, start43, start44, start45, start46, start47, start48, start49, start50, start51, start52, start53, start54, start55, start56, start57, start58, start59, start60, start61, start62, start63, start64, start65, start66, start67, start68, start69, start70, start71, start72, start73, start74, start75, start76, start77, start78, start79, start80, start81, start82, start83, start84, start85, start86, start87, start88, start89. Qed.
