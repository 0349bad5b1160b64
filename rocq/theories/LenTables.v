(* Every method of CodeGenerator that emits an instruction, all parameters arbitrary.  Not in the table: jumps to labels and
   addresses (MnemonicJmp.v), nop(n) and align(n), which emit several instructions.  Produced by tools/lentab.py. *)
From Coq Require Import ZArith List Bool String Lia.
From Verif Require Import Base Types Emit Encode Mnemonic MnemonicAvx MnemonicOmit SpecLen LenFacts.
Import ListNotations.
Open Scope Z_scope. Open Scope string_scope.

Record len_args := mkArgs { ar_o : Z -> Operand; ar_a : Z -> Address; ar_r : Z -> Reg; ar_n : Z -> Z;
  ar_e : PreferredEncoding; ar_j : LabelType; ar_l : LabelRef; ar_s : Segment }.
Definition args_ok (x : len_args) : Prop := (forall i, narrow (ar_o x i)) /\ (forall i, narrow (OReg (ar_r x i))).
Record len_entry := mkLen { ln_name : string; ln_fun : len_args -> E unit }.
Definition entry_within (x : len_entry) : Prop := forall v, args_ok v -> within max_length (ln_fun x v).

Ltac row := apply Forall_cons; [intros [o a r n e j l s] [Ho Hr]; cbn [ln_fun ar_o ar_a ar_r ar_n ar_e ar_j ar_l ar_s] in *; unfold max_length|].

Definition lens0 : list len_entry :=
  [mkLen "aadd" (fun v => let (o, a, r, n, e, j, l, s) := v in i_aadd (a 0) (r 1));
   mkLen "aand" (fun v => let (o, a, r, n, e, j, l, s) := v in i_aand (a 0) (r 1));
   mkLen "adc_oi" (fun v => let (o, a, r, n, e, j, l, s) := v in i_adc_oi (o 0) (n 1));
   mkLen "adc_oo" (fun v => let (o, a, r, n, e, j, l, s) := v in i_adc_oo (o 0) (o 1));
   mkLen "adc_roi" (fun v => let (o, a, r, n, e, j, l, s) := v in i_adc_roi (r 0) (o 1) (n 2));
   mkLen "adc_roo" (fun v => let (o, a, r, n, e, j, l, s) := v in i_adc_roo (r 0) (o 1) (o 2));
   mkLen "adcx_eeo" (fun v => let (o, a, r, n, e, j, l, s) := v in i_adcx_eeo (r 0) (r 1) (o 2));
   mkLen "adcx_eo" (fun v => let (o, a, r, n, e, j, l, s) := v in i_adcx_eo (r 0) (o 1));
   mkLen "add_oi" (fun v => let (o, a, r, n, e, j, l, s) := v in i_add_oi (o 0) (n 1));
   mkLen "add_oo" (fun v => let (o, a, r, n, e, j, l, s) := v in i_add_oo (o 0) (o 1));
   mkLen "add_roi" (fun v => let (o, a, r, n, e, j, l, s) := v in i_add_roi (r 0) (o 1) (n 2));
   mkLen "add_roo" (fun v => let (o, a, r, n, e, j, l, s) := v in i_add_roo (r 0) (o 1) (o 2));
   mkLen "addpd" (fun v => let (o, a, r, n, e, j, l, s) := v in i_addpd (r 0) (o 1));
   mkLen "addps" (fun v => let (o, a, r, n, e, j, l, s) := v in i_addps (r 0) (o 1));
   mkLen "addsd" (fun v => let (o, a, r, n, e, j, l, s) := v in i_addsd (r 0) (o 1));
   mkLen "addss" (fun v => let (o, a, r, n, e, j, l, s) := v in i_addss (r 0) (o 1));
   mkLen "addsubpd" (fun v => let (o, a, r, n, e, j, l, s) := v in i_addsubpd (r 0) (o 1));
   mkLen "addsubps" (fun v => let (o, a, r, n, e, j, l, s) := v in i_addsubps (r 0) (o 1));
   mkLen "adox_eeo" (fun v => let (o, a, r, n, e, j, l, s) := v in i_adox_eeo (r 0) (r 1) (o 2));
   mkLen "adox_eo" (fun v => let (o, a, r, n, e, j, l, s) := v in i_adox_eo (r 0) (o 1));
   mkLen "aesdec" (fun v => let (o, a, r, n, e, j, l, s) := v in i_aesdec (r 0) (o 1));
   mkLen "aesdeclast" (fun v => let (o, a, r, n, e, j, l, s) := v in i_aesdeclast (r 0) (o 1));
   mkLen "aesenc" (fun v => let (o, a, r, n, e, j, l, s) := v in i_aesenc (r 0) (o 1));
   mkLen "aesenclast" (fun v => let (o, a, r, n, e, j, l, s) := v in i_aesenclast (r 0) (o 1));
   mkLen "aesimc" (fun v => let (o, a, r, n, e, j, l, s) := v in i_aesimc (r 0) (o 1))].
Lemma lens0_ok : Forall entry_within lens0.
Proof. unfold lens0.
row. { unfold i_aadd. row_len. }
row. { unfold i_aand. row_len. }
row. { unfold i_adc_oi. row_len. }
row. { unfold i_adc_oo. row_len. }
row. { unfold i_adc_roi. row_len. }
row. { unfold i_adc_roo. row_len. }
row. { unfold i_adcx_eeo. row_len. }
row. { unfold i_adcx_eo. row_len. }
row. { unfold i_add_oi. row_len. }
row. { unfold i_add_oo. row_len. }
row. { unfold i_add_roi. row_len. }
row. { unfold i_add_roo. row_len. }
row. { unfold i_addpd. row_len. }
row. { unfold i_addps. row_len. }
row. { unfold i_addsd. row_len. }
row. { unfold i_addss. row_len. }
row. { unfold i_addsubpd. row_len. }
row. { unfold i_addsubps. row_len. }
row. { unfold i_adox_eeo. row_len. }
row. { unfold i_adox_eo. row_len. }
row. { unfold i_aesdec. row_len. }
row. { unfold i_aesdeclast. row_len. }
row. { unfold i_aesenc. row_len. }
row. { unfold i_aesenclast. row_len. }
row. { unfold i_aesimc. row_len. }
apply Forall_nil. Qed.
Definition lens1 : list len_entry :=
  [mkLen "aeskeygenassist" (fun v => let (o, a, r, n, e, j, l, s) := v in i_aeskeygenassist (r 0) (o 1) (n 2));
   mkLen "and__oi" (fun v => let (o, a, r, n, e, j, l, s) := v in i_and__oi (o 0) (n 1));
   mkLen "and__oo" (fun v => let (o, a, r, n, e, j, l, s) := v in i_and__oo (o 0) (o 1));
   mkLen "and__roi" (fun v => let (o, a, r, n, e, j, l, s) := v in i_and__roi (r 0) (o 1) (n 2));
   mkLen "and__roo" (fun v => let (o, a, r, n, e, j, l, s) := v in i_and__roo (r 0) (o 1) (o 2));
   mkLen "andn" (fun v => let (o, a, r, n, e, j, l, s) := v in i_andn (r 0) (r 1) (o 2));
   mkLen "andnpd" (fun v => let (o, a, r, n, e, j, l, s) := v in i_andnpd (r 0) (o 1));
   mkLen "andnps" (fun v => let (o, a, r, n, e, j, l, s) := v in i_andnps (r 0) (o 1));
   mkLen "andpd" (fun v => let (o, a, r, n, e, j, l, s) := v in i_andpd (r 0) (o 1));
   mkLen "andps" (fun v => let (o, a, r, n, e, j, l, s) := v in i_andps (r 0) (o 1));
   mkLen "aor" (fun v => let (o, a, r, n, e, j, l, s) := v in i_aor (a 0) (r 1));
   mkLen "axor" (fun v => let (o, a, r, n, e, j, l, s) := v in i_axor (a 0) (r 1));
   mkLen "bextr" (fun v => let (o, a, r, n, e, j, l, s) := v in i_bextr (r 0) (o 1) (r 2));
   mkLen "blendpd" (fun v => let (o, a, r, n, e, j, l, s) := v in i_blendpd (r 0) (o 1) (n 2));
   mkLen "blendps" (fun v => let (o, a, r, n, e, j, l, s) := v in i_blendps (r 0) (o 1) (n 2));
   mkLen "blendvpd" (fun v => let (o, a, r, n, e, j, l, s) := v in i_blendvpd (r 0) (o 1));
   mkLen "blendvps" (fun v => let (o, a, r, n, e, j, l, s) := v in i_blendvps (r 0) (o 1));
   mkLen "blsi" (fun v => let (o, a, r, n, e, j, l, s) := v in i_blsi (r 0) (o 1));
   mkLen "blsmsk" (fun v => let (o, a, r, n, e, j, l, s) := v in i_blsmsk (r 0) (o 1));
   mkLen "blsr" (fun v => let (o, a, r, n, e, j, l, s) := v in i_blsr (r 0) (o 1));
   mkLen "bnd" (fun v => let (o, a, r, n, e, j, l, s) := v in i_bnd);
   mkLen "bndcl" (fun v => let (o, a, r, n, e, j, l, s) := v in i_bndcl (r 0) (o 1));
   mkLen "bndcn" (fun v => let (o, a, r, n, e, j, l, s) := v in i_bndcn (r 0) (o 1));
   mkLen "bndcu" (fun v => let (o, a, r, n, e, j, l, s) := v in i_bndcu (r 0) (o 1));
   mkLen "bndldx" (fun v => let (o, a, r, n, e, j, l, s) := v in i_bndldx (r 0) (a 1))].
Lemma lens1_ok : Forall entry_within lens1.
Proof. unfold lens1.
row. { unfold i_aeskeygenassist. row_len. }
row. { unfold i_and__oi. row_len. }
row. { unfold i_and__oo. row_len. }
row. { unfold i_and__roi. row_len. }
row. { unfold i_and__roo. row_len. }
row. { unfold i_andn. row_len. }
row. { unfold i_andnpd. row_len. }
row. { unfold i_andnps. row_len. }
row. { unfold i_andpd. row_len. }
row. { unfold i_andps. row_len. }
row. { unfold i_aor. row_len. }
row. { unfold i_axor. row_len. }
row. { unfold i_bextr. row_len. }
row. { unfold i_blendpd. row_len. }
row. { unfold i_blendps. row_len. }
row. { unfold i_blendvpd. row_len. }
row. { unfold i_blendvps. row_len. }
row. { unfold i_blsi. row_len. }
row. { unfold i_blsmsk. row_len. }
row. { unfold i_blsr. row_len. }
row. { unfold i_bnd. row_len. }
row. { unfold i_bndcl. row_len. }
row. { unfold i_bndcn. row_len. }
row. { unfold i_bndcu. row_len. }
row. { unfold i_bndldx. row_len. }
apply Forall_nil. Qed.
Definition lens2 : list len_entry :=
  [mkLen "bndmk" (fun v => let (o, a, r, n, e, j, l, s) := v in i_bndmk (r 0) (a 1));
   mkLen "bndmov_an" (fun v => let (o, a, r, n, e, j, l, s) := v in i_bndmov_an (a 0) (r 1));
   mkLen "bndmov_no" (fun v => let (o, a, r, n, e, j, l, s) := v in i_bndmov_no (r 0) (o 1));
   mkLen "bndstx" (fun v => let (o, a, r, n, e, j, l, s) := v in i_bndstx (a 0) (r 1));
   mkLen "bsf" (fun v => let (o, a, r, n, e, j, l, s) := v in i_bsf (r 0) (o 1));
   mkLen "bsr" (fun v => let (o, a, r, n, e, j, l, s) := v in i_bsr (r 0) (o 1));
   mkLen "bt_or" (fun v => let (o, a, r, n, e, j, l, s) := v in i_bt_or (o 0) (r 1));
   mkLen "bt_oi" (fun v => let (o, a, r, n, e, j, l, s) := v in i_bt_oi (o 0) (n 1));
   mkLen "btc_or" (fun v => let (o, a, r, n, e, j, l, s) := v in i_btc_or (o 0) (r 1));
   mkLen "btc_oi" (fun v => let (o, a, r, n, e, j, l, s) := v in i_btc_oi (o 0) (n 1));
   mkLen "btr_or" (fun v => let (o, a, r, n, e, j, l, s) := v in i_btr_or (o 0) (r 1));
   mkLen "btr_oi" (fun v => let (o, a, r, n, e, j, l, s) := v in i_btr_oi (o 0) (n 1));
   mkLen "bts_or" (fun v => let (o, a, r, n, e, j, l, s) := v in i_bts_or (o 0) (r 1));
   mkLen "bts_oi" (fun v => let (o, a, r, n, e, j, l, s) := v in i_bts_oi (o 0) (n 1));
   mkLen "bzhi" (fun v => let (o, a, r, n, e, j, l, s) := v in i_bzhi (r 0) (o 1) (r 2));
   mkLen "cbw" (fun v => let (o, a, r, n, e, j, l, s) := v in i_cbw);
   mkLen "ccmpa_oii" (fun v => let (o, a, r, n, e, j, l, s) := v in i_ccmpa_oii (o 0) (n 1) (n 2));
   mkLen "ccmpa_ooi" (fun v => let (o, a, r, n, e, j, l, s) := v in i_ccmpa_ooi (o 0) (o 1) (n 2));
   mkLen "ccmpae_oii" (fun v => let (o, a, r, n, e, j, l, s) := v in i_ccmpae_oii (o 0) (n 1) (n 2));
   mkLen "ccmpae_ooi" (fun v => let (o, a, r, n, e, j, l, s) := v in i_ccmpae_ooi (o 0) (o 1) (n 2));
   mkLen "ccmpb_oii" (fun v => let (o, a, r, n, e, j, l, s) := v in i_ccmpb_oii (o 0) (n 1) (n 2));
   mkLen "ccmpb_ooi" (fun v => let (o, a, r, n, e, j, l, s) := v in i_ccmpb_ooi (o 0) (o 1) (n 2));
   mkLen "ccmpbe_oii" (fun v => let (o, a, r, n, e, j, l, s) := v in i_ccmpbe_oii (o 0) (n 1) (n 2));
   mkLen "ccmpbe_ooi" (fun v => let (o, a, r, n, e, j, l, s) := v in i_ccmpbe_ooi (o 0) (o 1) (n 2));
   mkLen "ccmpc_oii" (fun v => let (o, a, r, n, e, j, l, s) := v in i_ccmpc_oii (o 0) (n 1) (n 2))].
Lemma lens2_ok : Forall entry_within lens2.
Proof. unfold lens2.
row. { unfold i_bndmk. row_len. }
row. { unfold i_bndmov_an. row_len. }
row. { unfold i_bndmov_no. row_len. }
row. { unfold i_bndstx. row_len. }
row. { unfold i_bsf. row_len. }
row. { unfold i_bsr. row_len. }
row. { unfold i_bt_or. row_len. }
row. { unfold i_bt_oi. row_len. }
row. { unfold i_btc_or. row_len. }
row. { unfold i_btc_oi. row_len. }
row. { unfold i_btr_or. row_len. }
row. { unfold i_btr_oi. row_len. }
row. { unfold i_bts_or. row_len. }
row. { unfold i_bts_oi. row_len. }
row. { unfold i_bzhi. row_len. }
row. { unfold i_cbw. row_len. }
row. { unfold i_ccmpa_oii. row_len. }
row. { unfold i_ccmpa_ooi. row_len. }
row. { unfold i_ccmpae_oii. row_len. }
row. { unfold i_ccmpae_ooi. row_len. }
row. { unfold i_ccmpb_oii. row_len. }
row. { unfold i_ccmpb_ooi. row_len. }
row. { unfold i_ccmpbe_oii. row_len. }
row. { unfold i_ccmpbe_ooi. row_len. }
row. { unfold i_ccmpc_oii. row_len. }
apply Forall_nil. Qed.
Definition lens3 : list len_entry :=
  [mkLen "ccmpc_ooi" (fun v => let (o, a, r, n, e, j, l, s) := v in i_ccmpc_ooi (o 0) (o 1) (n 2));
   mkLen "ccmpe_oii" (fun v => let (o, a, r, n, e, j, l, s) := v in i_ccmpe_oii (o 0) (n 1) (n 2));
   mkLen "ccmpe_ooi" (fun v => let (o, a, r, n, e, j, l, s) := v in i_ccmpe_ooi (o 0) (o 1) (n 2));
   mkLen "ccmpf_oii" (fun v => let (o, a, r, n, e, j, l, s) := v in i_ccmpf_oii (o 0) (n 1) (n 2));
   mkLen "ccmpf_ooi" (fun v => let (o, a, r, n, e, j, l, s) := v in i_ccmpf_ooi (o 0) (o 1) (n 2));
   mkLen "ccmpg_oii" (fun v => let (o, a, r, n, e, j, l, s) := v in i_ccmpg_oii (o 0) (n 1) (n 2));
   mkLen "ccmpg_ooi" (fun v => let (o, a, r, n, e, j, l, s) := v in i_ccmpg_ooi (o 0) (o 1) (n 2));
   mkLen "ccmpge_oii" (fun v => let (o, a, r, n, e, j, l, s) := v in i_ccmpge_oii (o 0) (n 1) (n 2));
   mkLen "ccmpge_ooi" (fun v => let (o, a, r, n, e, j, l, s) := v in i_ccmpge_ooi (o 0) (o 1) (n 2));
   mkLen "ccmpl_oii" (fun v => let (o, a, r, n, e, j, l, s) := v in i_ccmpl_oii (o 0) (n 1) (n 2));
   mkLen "ccmpl_ooi" (fun v => let (o, a, r, n, e, j, l, s) := v in i_ccmpl_ooi (o 0) (o 1) (n 2));
   mkLen "ccmple_oii" (fun v => let (o, a, r, n, e, j, l, s) := v in i_ccmple_oii (o 0) (n 1) (n 2));
   mkLen "ccmple_ooi" (fun v => let (o, a, r, n, e, j, l, s) := v in i_ccmple_ooi (o 0) (o 1) (n 2));
   mkLen "ccmpna_oii" (fun v => let (o, a, r, n, e, j, l, s) := v in i_ccmpna_oii (o 0) (n 1) (n 2));
   mkLen "ccmpna_ooi" (fun v => let (o, a, r, n, e, j, l, s) := v in i_ccmpna_ooi (o 0) (o 1) (n 2));
   mkLen "ccmpnae_oii" (fun v => let (o, a, r, n, e, j, l, s) := v in i_ccmpnae_oii (o 0) (n 1) (n 2));
   mkLen "ccmpnae_ooi" (fun v => let (o, a, r, n, e, j, l, s) := v in i_ccmpnae_ooi (o 0) (o 1) (n 2));
   mkLen "ccmpnb_oii" (fun v => let (o, a, r, n, e, j, l, s) := v in i_ccmpnb_oii (o 0) (n 1) (n 2));
   mkLen "ccmpnb_ooi" (fun v => let (o, a, r, n, e, j, l, s) := v in i_ccmpnb_ooi (o 0) (o 1) (n 2));
   mkLen "ccmpnbe_oii" (fun v => let (o, a, r, n, e, j, l, s) := v in i_ccmpnbe_oii (o 0) (n 1) (n 2));
   mkLen "ccmpnbe_ooi" (fun v => let (o, a, r, n, e, j, l, s) := v in i_ccmpnbe_ooi (o 0) (o 1) (n 2));
   mkLen "ccmpnc_oii" (fun v => let (o, a, r, n, e, j, l, s) := v in i_ccmpnc_oii (o 0) (n 1) (n 2));
   mkLen "ccmpnc_ooi" (fun v => let (o, a, r, n, e, j, l, s) := v in i_ccmpnc_ooi (o 0) (o 1) (n 2));
   mkLen "ccmpne_oii" (fun v => let (o, a, r, n, e, j, l, s) := v in i_ccmpne_oii (o 0) (n 1) (n 2));
   mkLen "ccmpne_ooi" (fun v => let (o, a, r, n, e, j, l, s) := v in i_ccmpne_ooi (o 0) (o 1) (n 2))].
Lemma lens3_ok : Forall entry_within lens3.
Proof. unfold lens3.
row. { unfold i_ccmpc_ooi. row_len. }
row. { unfold i_ccmpe_oii. row_len. }
row. { unfold i_ccmpe_ooi. row_len. }
row. { unfold i_ccmpf_oii. row_len. }
row. { unfold i_ccmpf_ooi. row_len. }
row. { unfold i_ccmpg_oii. row_len. }
row. { unfold i_ccmpg_ooi. row_len. }
row. { unfold i_ccmpge_oii. row_len. }
row. { unfold i_ccmpge_ooi. row_len. }
row. { unfold i_ccmpl_oii. row_len. }
row. { unfold i_ccmpl_ooi. row_len. }
row. { unfold i_ccmple_oii. row_len. }
row. { unfold i_ccmple_ooi. row_len. }
row. { unfold i_ccmpna_oii. row_len. }
row. { unfold i_ccmpna_ooi. row_len. }
row. { unfold i_ccmpnae_oii. row_len. }
row. { unfold i_ccmpnae_ooi. row_len. }
row. { unfold i_ccmpnb_oii. row_len. }
row. { unfold i_ccmpnb_ooi. row_len. }
row. { unfold i_ccmpnbe_oii. row_len. }
row. { unfold i_ccmpnbe_ooi. row_len. }
row. { unfold i_ccmpnc_oii. row_len. }
row. { unfold i_ccmpnc_ooi. row_len. }
row. { unfold i_ccmpne_oii. row_len. }
row. { unfold i_ccmpne_ooi. row_len. }
apply Forall_nil. Qed.
Definition lens4 : list len_entry :=
  [mkLen "ccmpng_oii" (fun v => let (o, a, r, n, e, j, l, s) := v in i_ccmpng_oii (o 0) (n 1) (n 2));
   mkLen "ccmpng_ooi" (fun v => let (o, a, r, n, e, j, l, s) := v in i_ccmpng_ooi (o 0) (o 1) (n 2));
   mkLen "ccmpnge_oii" (fun v => let (o, a, r, n, e, j, l, s) := v in i_ccmpnge_oii (o 0) (n 1) (n 2));
   mkLen "ccmpnge_ooi" (fun v => let (o, a, r, n, e, j, l, s) := v in i_ccmpnge_ooi (o 0) (o 1) (n 2));
   mkLen "ccmpnl_oii" (fun v => let (o, a, r, n, e, j, l, s) := v in i_ccmpnl_oii (o 0) (n 1) (n 2));
   mkLen "ccmpnl_ooi" (fun v => let (o, a, r, n, e, j, l, s) := v in i_ccmpnl_ooi (o 0) (o 1) (n 2));
   mkLen "ccmpnle_oii" (fun v => let (o, a, r, n, e, j, l, s) := v in i_ccmpnle_oii (o 0) (n 1) (n 2));
   mkLen "ccmpnle_ooi" (fun v => let (o, a, r, n, e, j, l, s) := v in i_ccmpnle_ooi (o 0) (o 1) (n 2));
   mkLen "ccmpno_oii" (fun v => let (o, a, r, n, e, j, l, s) := v in i_ccmpno_oii (o 0) (n 1) (n 2));
   mkLen "ccmpno_ooi" (fun v => let (o, a, r, n, e, j, l, s) := v in i_ccmpno_ooi (o 0) (o 1) (n 2));
   mkLen "ccmpns_oii" (fun v => let (o, a, r, n, e, j, l, s) := v in i_ccmpns_oii (o 0) (n 1) (n 2));
   mkLen "ccmpns_ooi" (fun v => let (o, a, r, n, e, j, l, s) := v in i_ccmpns_ooi (o 0) (o 1) (n 2));
   mkLen "ccmpnz_oii" (fun v => let (o, a, r, n, e, j, l, s) := v in i_ccmpnz_oii (o 0) (n 1) (n 2));
   mkLen "ccmpnz_ooi" (fun v => let (o, a, r, n, e, j, l, s) := v in i_ccmpnz_ooi (o 0) (o 1) (n 2));
   mkLen "ccmpo_oii" (fun v => let (o, a, r, n, e, j, l, s) := v in i_ccmpo_oii (o 0) (n 1) (n 2));
   mkLen "ccmpo_ooi" (fun v => let (o, a, r, n, e, j, l, s) := v in i_ccmpo_ooi (o 0) (o 1) (n 2));
   mkLen "ccmps_oii" (fun v => let (o, a, r, n, e, j, l, s) := v in i_ccmps_oii (o 0) (n 1) (n 2));
   mkLen "ccmps_ooi" (fun v => let (o, a, r, n, e, j, l, s) := v in i_ccmps_ooi (o 0) (o 1) (n 2));
   mkLen "ccmpt_oii" (fun v => let (o, a, r, n, e, j, l, s) := v in i_ccmpt_oii (o 0) (n 1) (n 2));
   mkLen "ccmpt_ooi" (fun v => let (o, a, r, n, e, j, l, s) := v in i_ccmpt_ooi (o 0) (o 1) (n 2));
   mkLen "ccmpz_oii" (fun v => let (o, a, r, n, e, j, l, s) := v in i_ccmpz_oii (o 0) (n 1) (n 2));
   mkLen "ccmpz_ooi" (fun v => let (o, a, r, n, e, j, l, s) := v in i_ccmpz_ooi (o 0) (o 1) (n 2));
   mkLen "cdq" (fun v => let (o, a, r, n, e, j, l, s) := v in i_cdq);
   mkLen "cfcmovb_oo" (fun v => let (o, a, r, n, e, j, l, s) := v in i_cfcmovb_oo (o 0) (o 1));
   mkLen "cfcmovb_rro" (fun v => let (o, a, r, n, e, j, l, s) := v in i_cfcmovb_rro (r 0) (r 1) (o 2))].
Lemma lens4_ok : Forall entry_within lens4.
Proof. unfold lens4.
row. { unfold i_ccmpng_oii. row_len. }
row. { unfold i_ccmpng_ooi. row_len. }
row. { unfold i_ccmpnge_oii. row_len. }
row. { unfold i_ccmpnge_ooi. row_len. }
row. { unfold i_ccmpnl_oii. row_len. }
row. { unfold i_ccmpnl_ooi. row_len. }
row. { unfold i_ccmpnle_oii. row_len. }
row. { unfold i_ccmpnle_ooi. row_len. }
row. { unfold i_ccmpno_oii. row_len. }
row. { unfold i_ccmpno_ooi. row_len. }
row. { unfold i_ccmpns_oii. row_len. }
row. { unfold i_ccmpns_ooi. row_len. }
row. { unfold i_ccmpnz_oii. row_len. }
row. { unfold i_ccmpnz_ooi. row_len. }
row. { unfold i_ccmpo_oii. row_len. }
row. { unfold i_ccmpo_ooi. row_len. }
row. { unfold i_ccmps_oii. row_len. }
row. { unfold i_ccmps_ooi. row_len. }
row. { unfold i_ccmpt_oii. row_len. }
row. { unfold i_ccmpt_ooi. row_len. }
row. { unfold i_ccmpz_oii. row_len. }
row. { unfold i_ccmpz_ooi. row_len. }
row. { unfold i_cdq. row_len. }
row. { unfold i_cfcmovb_oo. row_len. }
row. { unfold i_cfcmovb_rro. row_len. }
apply Forall_nil. Qed.
Definition lens5 : list len_entry :=
  [mkLen "cfcmovbe_oo" (fun v => let (o, a, r, n, e, j, l, s) := v in i_cfcmovbe_oo (o 0) (o 1));
   mkLen "cfcmovbe_rro" (fun v => let (o, a, r, n, e, j, l, s) := v in i_cfcmovbe_rro (r 0) (r 1) (o 2));
   mkLen "cfcmovl_oo" (fun v => let (o, a, r, n, e, j, l, s) := v in i_cfcmovl_oo (o 0) (o 1));
   mkLen "cfcmovl_rro" (fun v => let (o, a, r, n, e, j, l, s) := v in i_cfcmovl_rro (r 0) (r 1) (o 2));
   mkLen "cfcmovle_oo" (fun v => let (o, a, r, n, e, j, l, s) := v in i_cfcmovle_oo (o 0) (o 1));
   mkLen "cfcmovle_rro" (fun v => let (o, a, r, n, e, j, l, s) := v in i_cfcmovle_rro (r 0) (r 1) (o 2));
   mkLen "cfcmovnb_oo" (fun v => let (o, a, r, n, e, j, l, s) := v in i_cfcmovnb_oo (o 0) (o 1));
   mkLen "cfcmovnb_rro" (fun v => let (o, a, r, n, e, j, l, s) := v in i_cfcmovnb_rro (r 0) (r 1) (o 2));
   mkLen "cfcmovnbe_oo" (fun v => let (o, a, r, n, e, j, l, s) := v in i_cfcmovnbe_oo (o 0) (o 1));
   mkLen "cfcmovnbe_rro" (fun v => let (o, a, r, n, e, j, l, s) := v in i_cfcmovnbe_rro (r 0) (r 1) (o 2));
   mkLen "cfcmovnl_oo" (fun v => let (o, a, r, n, e, j, l, s) := v in i_cfcmovnl_oo (o 0) (o 1));
   mkLen "cfcmovnl_rro" (fun v => let (o, a, r, n, e, j, l, s) := v in i_cfcmovnl_rro (r 0) (r 1) (o 2));
   mkLen "cfcmovnle_oo" (fun v => let (o, a, r, n, e, j, l, s) := v in i_cfcmovnle_oo (o 0) (o 1));
   mkLen "cfcmovnle_rro" (fun v => let (o, a, r, n, e, j, l, s) := v in i_cfcmovnle_rro (r 0) (r 1) (o 2));
   mkLen "cfcmovno_oo" (fun v => let (o, a, r, n, e, j, l, s) := v in i_cfcmovno_oo (o 0) (o 1));
   mkLen "cfcmovno_rro" (fun v => let (o, a, r, n, e, j, l, s) := v in i_cfcmovno_rro (r 0) (r 1) (o 2));
   mkLen "cfcmovnp_oo" (fun v => let (o, a, r, n, e, j, l, s) := v in i_cfcmovnp_oo (o 0) (o 1));
   mkLen "cfcmovnp_rro" (fun v => let (o, a, r, n, e, j, l, s) := v in i_cfcmovnp_rro (r 0) (r 1) (o 2));
   mkLen "cfcmovns_oo" (fun v => let (o, a, r, n, e, j, l, s) := v in i_cfcmovns_oo (o 0) (o 1));
   mkLen "cfcmovns_rro" (fun v => let (o, a, r, n, e, j, l, s) := v in i_cfcmovns_rro (r 0) (r 1) (o 2));
   mkLen "cfcmovnz_oo" (fun v => let (o, a, r, n, e, j, l, s) := v in i_cfcmovnz_oo (o 0) (o 1));
   mkLen "cfcmovnz_rro" (fun v => let (o, a, r, n, e, j, l, s) := v in i_cfcmovnz_rro (r 0) (r 1) (o 2));
   mkLen "cfcmovo_oo" (fun v => let (o, a, r, n, e, j, l, s) := v in i_cfcmovo_oo (o 0) (o 1));
   mkLen "cfcmovo_rro" (fun v => let (o, a, r, n, e, j, l, s) := v in i_cfcmovo_rro (r 0) (r 1) (o 2));
   mkLen "cfcmovp_oo" (fun v => let (o, a, r, n, e, j, l, s) := v in i_cfcmovp_oo (o 0) (o 1))].
Lemma lens5_ok : Forall entry_within lens5.
Proof. unfold lens5.
row. { unfold i_cfcmovbe_oo. row_len. }
row. { unfold i_cfcmovbe_rro. row_len. }
row. { unfold i_cfcmovl_oo. row_len. }
row. { unfold i_cfcmovl_rro. row_len. }
row. { unfold i_cfcmovle_oo. row_len. }
row. { unfold i_cfcmovle_rro. row_len. }
row. { unfold i_cfcmovnb_oo. row_len. }
row. { unfold i_cfcmovnb_rro. row_len. }
row. { unfold i_cfcmovnbe_oo. row_len. }
row. { unfold i_cfcmovnbe_rro. row_len. }
row. { unfold i_cfcmovnl_oo. row_len. }
row. { unfold i_cfcmovnl_rro. row_len. }
row. { unfold i_cfcmovnle_oo. row_len. }
row. { unfold i_cfcmovnle_rro. row_len. }
row. { unfold i_cfcmovno_oo. row_len. }
row. { unfold i_cfcmovno_rro. row_len. }
row. { unfold i_cfcmovnp_oo. row_len. }
row. { unfold i_cfcmovnp_rro. row_len. }
row. { unfold i_cfcmovns_oo. row_len. }
row. { unfold i_cfcmovns_rro. row_len. }
row. { unfold i_cfcmovnz_oo. row_len. }
row. { unfold i_cfcmovnz_rro. row_len. }
row. { unfold i_cfcmovo_oo. row_len. }
row. { unfold i_cfcmovo_rro. row_len. }
row. { unfold i_cfcmovp_oo. row_len. }
apply Forall_nil. Qed.
Definition lens6 : list len_entry :=
  [mkLen "cfcmovp_rro" (fun v => let (o, a, r, n, e, j, l, s) := v in i_cfcmovp_rro (r 0) (r 1) (o 2));
   mkLen "cfcmovs_oo" (fun v => let (o, a, r, n, e, j, l, s) := v in i_cfcmovs_oo (o 0) (o 1));
   mkLen "cfcmovs_rro" (fun v => let (o, a, r, n, e, j, l, s) := v in i_cfcmovs_rro (r 0) (r 1) (o 2));
   mkLen "cfcmovz_oo" (fun v => let (o, a, r, n, e, j, l, s) := v in i_cfcmovz_oo (o 0) (o 1));
   mkLen "cfcmovz_rro" (fun v => let (o, a, r, n, e, j, l, s) := v in i_cfcmovz_rro (r 0) (r 1) (o 2));
   mkLen "clc" (fun v => let (o, a, r, n, e, j, l, s) := v in i_clc);
   mkLen "cld" (fun v => let (o, a, r, n, e, j, l, s) := v in i_cld);
   mkLen "cldemote" (fun v => let (o, a, r, n, e, j, l, s) := v in i_cldemote (a 0));
   mkLen "clflush" (fun v => let (o, a, r, n, e, j, l, s) := v in i_clflush (a 0));
   mkLen "clflushopt" (fun v => let (o, a, r, n, e, j, l, s) := v in i_clflushopt (a 0));
   mkLen "cli" (fun v => let (o, a, r, n, e, j, l, s) := v in i_cli);
   mkLen "clwb" (fun v => let (o, a, r, n, e, j, l, s) := v in i_clwb (a 0));
   mkLen "clzero" (fun v => let (o, a, r, n, e, j, l, s) := v in i_clzero);
   mkLen "cmc" (fun v => let (o, a, r, n, e, j, l, s) := v in i_cmc);
   mkLen "cmova_rro" (fun v => let (o, a, r, n, e, j, l, s) := v in i_cmova_rro (r 0) (r 1) (o 2));
   mkLen "cmova_ro" (fun v => let (o, a, r, n, e, j, l, s) := v in i_cmova_ro (r 0) (o 1));
   mkLen "cmovae_rro" (fun v => let (o, a, r, n, e, j, l, s) := v in i_cmovae_rro (r 0) (r 1) (o 2));
   mkLen "cmovae_ro" (fun v => let (o, a, r, n, e, j, l, s) := v in i_cmovae_ro (r 0) (o 1));
   mkLen "cmovb_rro" (fun v => let (o, a, r, n, e, j, l, s) := v in i_cmovb_rro (r 0) (r 1) (o 2));
   mkLen "cmovb_ro" (fun v => let (o, a, r, n, e, j, l, s) := v in i_cmovb_ro (r 0) (o 1));
   mkLen "cmovbe_rro" (fun v => let (o, a, r, n, e, j, l, s) := v in i_cmovbe_rro (r 0) (r 1) (o 2));
   mkLen "cmovbe_ro" (fun v => let (o, a, r, n, e, j, l, s) := v in i_cmovbe_ro (r 0) (o 1));
   mkLen "cmovc_rro" (fun v => let (o, a, r, n, e, j, l, s) := v in i_cmovc_rro (r 0) (r 1) (o 2));
   mkLen "cmovc_ro" (fun v => let (o, a, r, n, e, j, l, s) := v in i_cmovc_ro (r 0) (o 1));
   mkLen "cmove_rro" (fun v => let (o, a, r, n, e, j, l, s) := v in i_cmove_rro (r 0) (r 1) (o 2))].
Lemma lens6_ok : Forall entry_within lens6.
Proof. unfold lens6.
row. { unfold i_cfcmovp_rro. row_len. }
row. { unfold i_cfcmovs_oo. row_len. }
row. { unfold i_cfcmovs_rro. row_len. }
row. { unfold i_cfcmovz_oo. row_len. }
row. { unfold i_cfcmovz_rro. row_len. }
row. { unfold i_clc. row_len. }
row. { unfold i_cld. row_len. }
row. { unfold i_cldemote. row_len. }
row. { unfold i_clflush. row_len. }
row. { unfold i_clflushopt. row_len. }
row. { unfold i_cli. row_len. }
row. { unfold i_clwb. row_len. }
row. { unfold i_clzero. row_len. }
row. { unfold i_cmc. row_len. }
row. { unfold i_cmova_rro. row_len. }
row. { unfold i_cmova_ro. row_len. }
row. { unfold i_cmovae_rro. row_len. }
row. { unfold i_cmovae_ro. row_len. }
row. { unfold i_cmovb_rro. row_len. }
row. { unfold i_cmovb_ro. row_len. }
row. { unfold i_cmovbe_rro. row_len. }
row. { unfold i_cmovbe_ro. row_len. }
row. { unfold i_cmovc_rro. row_len. }
row. { unfold i_cmovc_ro. row_len. }
row. { unfold i_cmove_rro. row_len. }
apply Forall_nil. Qed.
Definition lens7 : list len_entry :=
  [mkLen "cmove_ro" (fun v => let (o, a, r, n, e, j, l, s) := v in i_cmove_ro (r 0) (o 1));
   mkLen "cmovg_rro" (fun v => let (o, a, r, n, e, j, l, s) := v in i_cmovg_rro (r 0) (r 1) (o 2));
   mkLen "cmovg_ro" (fun v => let (o, a, r, n, e, j, l, s) := v in i_cmovg_ro (r 0) (o 1));
   mkLen "cmovge_rro" (fun v => let (o, a, r, n, e, j, l, s) := v in i_cmovge_rro (r 0) (r 1) (o 2));
   mkLen "cmovge_ro" (fun v => let (o, a, r, n, e, j, l, s) := v in i_cmovge_ro (r 0) (o 1));
   mkLen "cmovl_rro" (fun v => let (o, a, r, n, e, j, l, s) := v in i_cmovl_rro (r 0) (r 1) (o 2));
   mkLen "cmovl_ro" (fun v => let (o, a, r, n, e, j, l, s) := v in i_cmovl_ro (r 0) (o 1));
   mkLen "cmovle_rro" (fun v => let (o, a, r, n, e, j, l, s) := v in i_cmovle_rro (r 0) (r 1) (o 2));
   mkLen "cmovle_ro" (fun v => let (o, a, r, n, e, j, l, s) := v in i_cmovle_ro (r 0) (o 1));
   mkLen "cmovna_rro" (fun v => let (o, a, r, n, e, j, l, s) := v in i_cmovna_rro (r 0) (r 1) (o 2));
   mkLen "cmovna_ro" (fun v => let (o, a, r, n, e, j, l, s) := v in i_cmovna_ro (r 0) (o 1));
   mkLen "cmovnae_rro" (fun v => let (o, a, r, n, e, j, l, s) := v in i_cmovnae_rro (r 0) (r 1) (o 2));
   mkLen "cmovnae_ro" (fun v => let (o, a, r, n, e, j, l, s) := v in i_cmovnae_ro (r 0) (o 1));
   mkLen "cmovnb_rro" (fun v => let (o, a, r, n, e, j, l, s) := v in i_cmovnb_rro (r 0) (r 1) (o 2));
   mkLen "cmovnb_ro" (fun v => let (o, a, r, n, e, j, l, s) := v in i_cmovnb_ro (r 0) (o 1));
   mkLen "cmovnbe_rro" (fun v => let (o, a, r, n, e, j, l, s) := v in i_cmovnbe_rro (r 0) (r 1) (o 2));
   mkLen "cmovnbe_ro" (fun v => let (o, a, r, n, e, j, l, s) := v in i_cmovnbe_ro (r 0) (o 1));
   mkLen "cmovnc_rro" (fun v => let (o, a, r, n, e, j, l, s) := v in i_cmovnc_rro (r 0) (r 1) (o 2));
   mkLen "cmovnc_ro" (fun v => let (o, a, r, n, e, j, l, s) := v in i_cmovnc_ro (r 0) (o 1));
   mkLen "cmovne_rro" (fun v => let (o, a, r, n, e, j, l, s) := v in i_cmovne_rro (r 0) (r 1) (o 2));
   mkLen "cmovne_ro" (fun v => let (o, a, r, n, e, j, l, s) := v in i_cmovne_ro (r 0) (o 1));
   mkLen "cmovng_rro" (fun v => let (o, a, r, n, e, j, l, s) := v in i_cmovng_rro (r 0) (r 1) (o 2));
   mkLen "cmovng_ro" (fun v => let (o, a, r, n, e, j, l, s) := v in i_cmovng_ro (r 0) (o 1));
   mkLen "cmovnge_rro" (fun v => let (o, a, r, n, e, j, l, s) := v in i_cmovnge_rro (r 0) (r 1) (o 2));
   mkLen "cmovnge_ro" (fun v => let (o, a, r, n, e, j, l, s) := v in i_cmovnge_ro (r 0) (o 1))].
Lemma lens7_ok : Forall entry_within lens7.
Proof. unfold lens7.
row. { unfold i_cmove_ro. row_len. }
row. { unfold i_cmovg_rro. row_len. }
row. { unfold i_cmovg_ro. row_len. }
row. { unfold i_cmovge_rro. row_len. }
row. { unfold i_cmovge_ro. row_len. }
row. { unfold i_cmovl_rro. row_len. }
row. { unfold i_cmovl_ro. row_len. }
row. { unfold i_cmovle_rro. row_len. }
row. { unfold i_cmovle_ro. row_len. }
row. { unfold i_cmovna_rro. row_len. }
row. { unfold i_cmovna_ro. row_len. }
row. { unfold i_cmovnae_rro. row_len. }
row. { unfold i_cmovnae_ro. row_len. }
row. { unfold i_cmovnb_rro. row_len. }
row. { unfold i_cmovnb_ro. row_len. }
row. { unfold i_cmovnbe_rro. row_len. }
row. { unfold i_cmovnbe_ro. row_len. }
row. { unfold i_cmovnc_rro. row_len. }
row. { unfold i_cmovnc_ro. row_len. }
row. { unfold i_cmovne_rro. row_len. }
row. { unfold i_cmovne_ro. row_len. }
row. { unfold i_cmovng_rro. row_len. }
row. { unfold i_cmovng_ro. row_len. }
row. { unfold i_cmovnge_rro. row_len. }
row. { unfold i_cmovnge_ro. row_len. }
apply Forall_nil. Qed.
Definition lens8 : list len_entry :=
  [mkLen "cmovnl_rro" (fun v => let (o, a, r, n, e, j, l, s) := v in i_cmovnl_rro (r 0) (r 1) (o 2));
   mkLen "cmovnl_ro" (fun v => let (o, a, r, n, e, j, l, s) := v in i_cmovnl_ro (r 0) (o 1));
   mkLen "cmovnle_rro" (fun v => let (o, a, r, n, e, j, l, s) := v in i_cmovnle_rro (r 0) (r 1) (o 2));
   mkLen "cmovnle_ro" (fun v => let (o, a, r, n, e, j, l, s) := v in i_cmovnle_ro (r 0) (o 1));
   mkLen "cmovno_rro" (fun v => let (o, a, r, n, e, j, l, s) := v in i_cmovno_rro (r 0) (r 1) (o 2));
   mkLen "cmovno_ro" (fun v => let (o, a, r, n, e, j, l, s) := v in i_cmovno_ro (r 0) (o 1));
   mkLen "cmovnp_rro" (fun v => let (o, a, r, n, e, j, l, s) := v in i_cmovnp_rro (r 0) (r 1) (o 2));
   mkLen "cmovnp_ro" (fun v => let (o, a, r, n, e, j, l, s) := v in i_cmovnp_ro (r 0) (o 1));
   mkLen "cmovns_rro" (fun v => let (o, a, r, n, e, j, l, s) := v in i_cmovns_rro (r 0) (r 1) (o 2));
   mkLen "cmovns_ro" (fun v => let (o, a, r, n, e, j, l, s) := v in i_cmovns_ro (r 0) (o 1));
   mkLen "cmovnz_rro" (fun v => let (o, a, r, n, e, j, l, s) := v in i_cmovnz_rro (r 0) (r 1) (o 2));
   mkLen "cmovnz_ro" (fun v => let (o, a, r, n, e, j, l, s) := v in i_cmovnz_ro (r 0) (o 1));
   mkLen "cmovo_rro" (fun v => let (o, a, r, n, e, j, l, s) := v in i_cmovo_rro (r 0) (r 1) (o 2));
   mkLen "cmovo_ro" (fun v => let (o, a, r, n, e, j, l, s) := v in i_cmovo_ro (r 0) (o 1));
   mkLen "cmovp_rro" (fun v => let (o, a, r, n, e, j, l, s) := v in i_cmovp_rro (r 0) (r 1) (o 2));
   mkLen "cmovp_ro" (fun v => let (o, a, r, n, e, j, l, s) := v in i_cmovp_ro (r 0) (o 1));
   mkLen "cmovpe_rro" (fun v => let (o, a, r, n, e, j, l, s) := v in i_cmovpe_rro (r 0) (r 1) (o 2));
   mkLen "cmovpe_ro" (fun v => let (o, a, r, n, e, j, l, s) := v in i_cmovpe_ro (r 0) (o 1));
   mkLen "cmovpo_rro" (fun v => let (o, a, r, n, e, j, l, s) := v in i_cmovpo_rro (r 0) (r 1) (o 2));
   mkLen "cmovpo_ro" (fun v => let (o, a, r, n, e, j, l, s) := v in i_cmovpo_ro (r 0) (o 1));
   mkLen "cmovs_rro" (fun v => let (o, a, r, n, e, j, l, s) := v in i_cmovs_rro (r 0) (r 1) (o 2));
   mkLen "cmovs_ro" (fun v => let (o, a, r, n, e, j, l, s) := v in i_cmovs_ro (r 0) (o 1));
   mkLen "cmovz_rro" (fun v => let (o, a, r, n, e, j, l, s) := v in i_cmovz_rro (r 0) (r 1) (o 2));
   mkLen "cmovz_ro" (fun v => let (o, a, r, n, e, j, l, s) := v in i_cmovz_ro (r 0) (o 1));
   mkLen "cmp_oi" (fun v => let (o, a, r, n, e, j, l, s) := v in i_cmp_oi (o 0) (n 1))].
Lemma lens8_ok : Forall entry_within lens8.
Proof. unfold lens8.
row. { unfold i_cmovnl_rro. row_len. }
row. { unfold i_cmovnl_ro. row_len. }
row. { unfold i_cmovnle_rro. row_len. }
row. { unfold i_cmovnle_ro. row_len. }
row. { unfold i_cmovno_rro. row_len. }
row. { unfold i_cmovno_ro. row_len. }
row. { unfold i_cmovnp_rro. row_len. }
row. { unfold i_cmovnp_ro. row_len. }
row. { unfold i_cmovns_rro. row_len. }
row. { unfold i_cmovns_ro. row_len. }
row. { unfold i_cmovnz_rro. row_len. }
row. { unfold i_cmovnz_ro. row_len. }
row. { unfold i_cmovo_rro. row_len. }
row. { unfold i_cmovo_ro. row_len. }
row. { unfold i_cmovp_rro. row_len. }
row. { unfold i_cmovp_ro. row_len. }
row. { unfold i_cmovpe_rro. row_len. }
row. { unfold i_cmovpe_ro. row_len. }
row. { unfold i_cmovpo_rro. row_len. }
row. { unfold i_cmovpo_ro. row_len. }
row. { unfold i_cmovs_rro. row_len. }
row. { unfold i_cmovs_ro. row_len. }
row. { unfold i_cmovz_rro. row_len. }
row. { unfold i_cmovz_ro. row_len. }
row. { unfold i_cmp_oi. row_len. }
apply Forall_nil. Qed.
Definition lens9 : list len_entry :=
  [mkLen "cmp_oo" (fun v => let (o, a, r, n, e, j, l, s) := v in i_cmp_oo (o 0) (o 1));
   mkLen "cmppd" (fun v => let (o, a, r, n, e, j, l, s) := v in i_cmppd (r 0) (o 1) (n 2));
   mkLen "cmpeqpd" (fun v => let (o, a, r, n, e, j, l, s) := v in i_cmpeqpd (r 0) (o 1));
   mkLen "cmpps" (fun v => let (o, a, r, n, e, j, l, s) := v in i_cmpps (r 0) (o 1) (n 2));
   mkLen "cmpeqps" (fun v => let (o, a, r, n, e, j, l, s) := v in i_cmpeqps (r 0) (o 1));
   mkLen "cmpsd_xoi" (fun v => let (o, a, r, n, e, j, l, s) := v in i_cmpsd_xoi (r 0) (o 1) (n 2));
   mkLen "cmpeqsd" (fun v => let (o, a, r, n, e, j, l, s) := v in i_cmpeqsd (r 0) (o 1));
   mkLen "cmpss" (fun v => let (o, a, r, n, e, j, l, s) := v in i_cmpss (r 0) (o 1) (n 2));
   mkLen "cmpeqss" (fun v => let (o, a, r, n, e, j, l, s) := v in i_cmpeqss (r 0) (o 1));
   mkLen "cmplepd" (fun v => let (o, a, r, n, e, j, l, s) := v in i_cmplepd (r 0) (o 1));
   mkLen "cmpleps" (fun v => let (o, a, r, n, e, j, l, s) := v in i_cmpleps (r 0) (o 1));
   mkLen "cmplesd" (fun v => let (o, a, r, n, e, j, l, s) := v in i_cmplesd (r 0) (o 1));
   mkLen "cmpless" (fun v => let (o, a, r, n, e, j, l, s) := v in i_cmpless (r 0) (o 1));
   mkLen "cmpltpd" (fun v => let (o, a, r, n, e, j, l, s) := v in i_cmpltpd (r 0) (o 1));
   mkLen "cmpltps" (fun v => let (o, a, r, n, e, j, l, s) := v in i_cmpltps (r 0) (o 1));
   mkLen "cmpltsd" (fun v => let (o, a, r, n, e, j, l, s) := v in i_cmpltsd (r 0) (o 1));
   mkLen "cmpltss" (fun v => let (o, a, r, n, e, j, l, s) := v in i_cmpltss (r 0) (o 1));
   mkLen "cmpneqpd" (fun v => let (o, a, r, n, e, j, l, s) := v in i_cmpneqpd (r 0) (o 1));
   mkLen "cmpneqps" (fun v => let (o, a, r, n, e, j, l, s) := v in i_cmpneqps (r 0) (o 1));
   mkLen "cmpneqsd" (fun v => let (o, a, r, n, e, j, l, s) := v in i_cmpneqsd (r 0) (o 1));
   mkLen "cmpneqss" (fun v => let (o, a, r, n, e, j, l, s) := v in i_cmpneqss (r 0) (o 1));
   mkLen "cmpnlepd" (fun v => let (o, a, r, n, e, j, l, s) := v in i_cmpnlepd (r 0) (o 1));
   mkLen "cmpnleps" (fun v => let (o, a, r, n, e, j, l, s) := v in i_cmpnleps (r 0) (o 1));
   mkLen "cmpnlesd" (fun v => let (o, a, r, n, e, j, l, s) := v in i_cmpnlesd (r 0) (o 1));
   mkLen "cmpnless" (fun v => let (o, a, r, n, e, j, l, s) := v in i_cmpnless (r 0) (o 1))].
Lemma lens9_ok : Forall entry_within lens9.
Proof. unfold lens9.
row. { unfold i_cmp_oo. row_len. }
row. { unfold i_cmppd. row_len. }
row. { unfold i_cmpeqpd, i_cmppd. row_len. }
row. { unfold i_cmpps. row_len. }
row. { unfold i_cmpeqps, i_cmpps. row_len. }
row. { unfold i_cmpsd_xoi. row_len. }
row. { unfold i_cmpeqsd, i_cmpsd_xoi. row_len. }
row. { unfold i_cmpss. row_len. }
row. { unfold i_cmpeqss, i_cmpss. row_len. }
row. { unfold i_cmplepd, i_cmppd. row_len. }
row. { unfold i_cmpleps, i_cmpps. row_len. }
row. { unfold i_cmplesd, i_cmpsd_xoi. row_len. }
row. { unfold i_cmpless, i_cmpss. row_len. }
row. { unfold i_cmpltpd, i_cmppd. row_len. }
row. { unfold i_cmpltps, i_cmpps. row_len. }
row. { unfold i_cmpltsd, i_cmpsd_xoi. row_len. }
row. { unfold i_cmpltss, i_cmpss. row_len. }
row. { unfold i_cmpneqpd, i_cmppd. row_len. }
row. { unfold i_cmpneqps, i_cmpps. row_len. }
row. { unfold i_cmpneqsd, i_cmpsd_xoi. row_len. }
row. { unfold i_cmpneqss, i_cmpss. row_len. }
row. { unfold i_cmpnlepd, i_cmppd. row_len. }
row. { unfold i_cmpnleps, i_cmpps. row_len. }
row. { unfold i_cmpnlesd, i_cmpsd_xoi. row_len. }
row. { unfold i_cmpnless, i_cmpss. row_len. }
apply Forall_nil. Qed.
Definition lens10 : list len_entry :=
  [mkLen "cmpnltpd" (fun v => let (o, a, r, n, e, j, l, s) := v in i_cmpnltpd (r 0) (o 1));
   mkLen "cmpnltps" (fun v => let (o, a, r, n, e, j, l, s) := v in i_cmpnltps (r 0) (o 1));
   mkLen "cmpnltsd" (fun v => let (o, a, r, n, e, j, l, s) := v in i_cmpnltsd (r 0) (o 1));
   mkLen "cmpnltss" (fun v => let (o, a, r, n, e, j, l, s) := v in i_cmpnltss (r 0) (o 1));
   mkLen "cmpordpd" (fun v => let (o, a, r, n, e, j, l, s) := v in i_cmpordpd (r 0) (o 1));
   mkLen "cmpordps" (fun v => let (o, a, r, n, e, j, l, s) := v in i_cmpordps (r 0) (o 1));
   mkLen "cmpordsd" (fun v => let (o, a, r, n, e, j, l, s) := v in i_cmpordsd (r 0) (o 1));
   mkLen "cmpordss" (fun v => let (o, a, r, n, e, j, l, s) := v in i_cmpordss (r 0) (o 1));
   mkLen "cmpsb" (fun v => let (o, a, r, n, e, j, l, s) := v in i_cmpsb);
   mkLen "cmpsd_none" (fun v => let (o, a, r, n, e, j, l, s) := v in i_cmpsd_none);
   mkLen "cmpsw" (fun v => let (o, a, r, n, e, j, l, s) := v in i_cmpsw);
   mkLen "cmpunordpd" (fun v => let (o, a, r, n, e, j, l, s) := v in i_cmpunordpd (r 0) (o 1));
   mkLen "cmpunordps" (fun v => let (o, a, r, n, e, j, l, s) := v in i_cmpunordps (r 0) (o 1));
   mkLen "cmpunordsd" (fun v => let (o, a, r, n, e, j, l, s) := v in i_cmpunordsd (r 0) (o 1));
   mkLen "cmpunordss" (fun v => let (o, a, r, n, e, j, l, s) := v in i_cmpunordss (r 0) (o 1));
   mkLen "cmpxchg" (fun v => let (o, a, r, n, e, j, l, s) := v in i_cmpxchg (o 0) (r 1));
   mkLen "cmpxchg8b" (fun v => let (o, a, r, n, e, j, l, s) := v in i_cmpxchg8b (a 0));
   mkLen "comisd" (fun v => let (o, a, r, n, e, j, l, s) := v in i_comisd (r 0) (o 1));
   mkLen "comiss" (fun v => let (o, a, r, n, e, j, l, s) := v in i_comiss (r 0) (o 1));
   mkLen "cpuid" (fun v => let (o, a, r, n, e, j, l, s) := v in i_cpuid);
   mkLen "crc32" (fun v => let (o, a, r, n, e, j, l, s) := v in i_crc32 (r 0) (o 1));
   mkLen "ctesta_ori" (fun v => let (o, a, r, n, e, j, l, s) := v in i_ctesta_ori (o 0) (r 1) (n 2));
   mkLen "ctesta_oii" (fun v => let (o, a, r, n, e, j, l, s) := v in i_ctesta_oii (o 0) (n 1) (n 2));
   mkLen "ctestae_ori" (fun v => let (o, a, r, n, e, j, l, s) := v in i_ctestae_ori (o 0) (r 1) (n 2));
   mkLen "ctestae_oii" (fun v => let (o, a, r, n, e, j, l, s) := v in i_ctestae_oii (o 0) (n 1) (n 2))].
Lemma lens10_ok : Forall entry_within lens10.
Proof. unfold lens10.
row. { unfold i_cmpnltpd, i_cmppd. row_len. }
row. { unfold i_cmpnltps, i_cmpps. row_len. }
row. { unfold i_cmpnltsd, i_cmpsd_xoi. row_len. }
row. { unfold i_cmpnltss, i_cmpss. row_len. }
row. { unfold i_cmpordpd, i_cmppd. row_len. }
row. { unfold i_cmpordps, i_cmpps. row_len. }
row. { unfold i_cmpordsd, i_cmpsd_xoi. row_len. }
row. { unfold i_cmpordss, i_cmpss. row_len. }
row. { unfold i_cmpsb. row_len. }
row. { unfold i_cmpsd_none. row_len. }
row. { unfold i_cmpsw. row_len. }
row. { unfold i_cmpunordpd, i_cmppd. row_len. }
row. { unfold i_cmpunordps, i_cmpps. row_len. }
row. { unfold i_cmpunordsd, i_cmpsd_xoi. row_len. }
row. { unfold i_cmpunordss, i_cmpss. row_len. }
row. { unfold i_cmpxchg. row_len. }
row. { unfold i_cmpxchg8b. row_len. }
row. { unfold i_comisd. row_len. }
row. { unfold i_comiss. row_len. }
row. { unfold i_cpuid. row_len. }
row. { unfold i_crc32. row_len. }
row. { unfold i_ctesta_ori. row_len. }
row. { unfold i_ctesta_oii. row_len. }
row. { unfold i_ctestae_ori. row_len. }
row. { unfold i_ctestae_oii. row_len. }
apply Forall_nil. Qed.
Definition lens11 : list len_entry :=
  [mkLen "ctestb_ori" (fun v => let (o, a, r, n, e, j, l, s) := v in i_ctestb_ori (o 0) (r 1) (n 2));
   mkLen "ctestb_oii" (fun v => let (o, a, r, n, e, j, l, s) := v in i_ctestb_oii (o 0) (n 1) (n 2));
   mkLen "ctestbe_ori" (fun v => let (o, a, r, n, e, j, l, s) := v in i_ctestbe_ori (o 0) (r 1) (n 2));
   mkLen "ctestbe_oii" (fun v => let (o, a, r, n, e, j, l, s) := v in i_ctestbe_oii (o 0) (n 1) (n 2));
   mkLen "ctestc_ori" (fun v => let (o, a, r, n, e, j, l, s) := v in i_ctestc_ori (o 0) (r 1) (n 2));
   mkLen "ctestc_oii" (fun v => let (o, a, r, n, e, j, l, s) := v in i_ctestc_oii (o 0) (n 1) (n 2));
   mkLen "cteste_ori" (fun v => let (o, a, r, n, e, j, l, s) := v in i_cteste_ori (o 0) (r 1) (n 2));
   mkLen "cteste_oii" (fun v => let (o, a, r, n, e, j, l, s) := v in i_cteste_oii (o 0) (n 1) (n 2));
   mkLen "ctestf_ori" (fun v => let (o, a, r, n, e, j, l, s) := v in i_ctestf_ori (o 0) (r 1) (n 2));
   mkLen "ctestf_oii" (fun v => let (o, a, r, n, e, j, l, s) := v in i_ctestf_oii (o 0) (n 1) (n 2));
   mkLen "ctestg_ori" (fun v => let (o, a, r, n, e, j, l, s) := v in i_ctestg_ori (o 0) (r 1) (n 2));
   mkLen "ctestg_oii" (fun v => let (o, a, r, n, e, j, l, s) := v in i_ctestg_oii (o 0) (n 1) (n 2));
   mkLen "ctestge_ori" (fun v => let (o, a, r, n, e, j, l, s) := v in i_ctestge_ori (o 0) (r 1) (n 2));
   mkLen "ctestge_oii" (fun v => let (o, a, r, n, e, j, l, s) := v in i_ctestge_oii (o 0) (n 1) (n 2));
   mkLen "ctestl_ori" (fun v => let (o, a, r, n, e, j, l, s) := v in i_ctestl_ori (o 0) (r 1) (n 2));
   mkLen "ctestl_oii" (fun v => let (o, a, r, n, e, j, l, s) := v in i_ctestl_oii (o 0) (n 1) (n 2));
   mkLen "ctestle_ori" (fun v => let (o, a, r, n, e, j, l, s) := v in i_ctestle_ori (o 0) (r 1) (n 2));
   mkLen "ctestle_oii" (fun v => let (o, a, r, n, e, j, l, s) := v in i_ctestle_oii (o 0) (n 1) (n 2));
   mkLen "ctestna_ori" (fun v => let (o, a, r, n, e, j, l, s) := v in i_ctestna_ori (o 0) (r 1) (n 2));
   mkLen "ctestna_oii" (fun v => let (o, a, r, n, e, j, l, s) := v in i_ctestna_oii (o 0) (n 1) (n 2));
   mkLen "ctestnae_ori" (fun v => let (o, a, r, n, e, j, l, s) := v in i_ctestnae_ori (o 0) (r 1) (n 2));
   mkLen "ctestnae_oii" (fun v => let (o, a, r, n, e, j, l, s) := v in i_ctestnae_oii (o 0) (n 1) (n 2));
   mkLen "ctestnb_ori" (fun v => let (o, a, r, n, e, j, l, s) := v in i_ctestnb_ori (o 0) (r 1) (n 2));
   mkLen "ctestnb_oii" (fun v => let (o, a, r, n, e, j, l, s) := v in i_ctestnb_oii (o 0) (n 1) (n 2));
   mkLen "ctestnbe_ori" (fun v => let (o, a, r, n, e, j, l, s) := v in i_ctestnbe_ori (o 0) (r 1) (n 2))].
Lemma lens11_ok : Forall entry_within lens11.
Proof. unfold lens11.
row. { unfold i_ctestb_ori. row_len. }
row. { unfold i_ctestb_oii. row_len. }
row. { unfold i_ctestbe_ori. row_len. }
row. { unfold i_ctestbe_oii. row_len. }
row. { unfold i_ctestc_ori. row_len. }
row. { unfold i_ctestc_oii. row_len. }
row. { unfold i_cteste_ori. row_len. }
row. { unfold i_cteste_oii. row_len. }
row. { unfold i_ctestf_ori. row_len. }
row. { unfold i_ctestf_oii. row_len. }
row. { unfold i_ctestg_ori. row_len. }
row. { unfold i_ctestg_oii. row_len. }
row. { unfold i_ctestge_ori. row_len. }
row. { unfold i_ctestge_oii. row_len. }
row. { unfold i_ctestl_ori. row_len. }
row. { unfold i_ctestl_oii. row_len. }
row. { unfold i_ctestle_ori. row_len. }
row. { unfold i_ctestle_oii. row_len. }
row. { unfold i_ctestna_ori. row_len. }
row. { unfold i_ctestna_oii. row_len. }
row. { unfold i_ctestnae_ori. row_len. }
row. { unfold i_ctestnae_oii. row_len. }
row. { unfold i_ctestnb_ori. row_len. }
row. { unfold i_ctestnb_oii. row_len. }
row. { unfold i_ctestnbe_ori. row_len. }
apply Forall_nil. Qed.
Definition lens12 : list len_entry :=
  [mkLen "ctestnbe_oii" (fun v => let (o, a, r, n, e, j, l, s) := v in i_ctestnbe_oii (o 0) (n 1) (n 2));
   mkLen "ctestnc_ori" (fun v => let (o, a, r, n, e, j, l, s) := v in i_ctestnc_ori (o 0) (r 1) (n 2));
   mkLen "ctestnc_oii" (fun v => let (o, a, r, n, e, j, l, s) := v in i_ctestnc_oii (o 0) (n 1) (n 2));
   mkLen "ctestne_ori" (fun v => let (o, a, r, n, e, j, l, s) := v in i_ctestne_ori (o 0) (r 1) (n 2));
   mkLen "ctestne_oii" (fun v => let (o, a, r, n, e, j, l, s) := v in i_ctestne_oii (o 0) (n 1) (n 2));
   mkLen "ctestng_ori" (fun v => let (o, a, r, n, e, j, l, s) := v in i_ctestng_ori (o 0) (r 1) (n 2));
   mkLen "ctestng_oii" (fun v => let (o, a, r, n, e, j, l, s) := v in i_ctestng_oii (o 0) (n 1) (n 2));
   mkLen "ctestnge_ori" (fun v => let (o, a, r, n, e, j, l, s) := v in i_ctestnge_ori (o 0) (r 1) (n 2));
   mkLen "ctestnge_oii" (fun v => let (o, a, r, n, e, j, l, s) := v in i_ctestnge_oii (o 0) (n 1) (n 2));
   mkLen "ctestnl_ori" (fun v => let (o, a, r, n, e, j, l, s) := v in i_ctestnl_ori (o 0) (r 1) (n 2));
   mkLen "ctestnl_oii" (fun v => let (o, a, r, n, e, j, l, s) := v in i_ctestnl_oii (o 0) (n 1) (n 2));
   mkLen "ctestnle_ori" (fun v => let (o, a, r, n, e, j, l, s) := v in i_ctestnle_ori (o 0) (r 1) (n 2));
   mkLen "ctestnle_oii" (fun v => let (o, a, r, n, e, j, l, s) := v in i_ctestnle_oii (o 0) (n 1) (n 2));
   mkLen "ctestno_ori" (fun v => let (o, a, r, n, e, j, l, s) := v in i_ctestno_ori (o 0) (r 1) (n 2));
   mkLen "ctestno_oii" (fun v => let (o, a, r, n, e, j, l, s) := v in i_ctestno_oii (o 0) (n 1) (n 2));
   mkLen "ctestns_ori" (fun v => let (o, a, r, n, e, j, l, s) := v in i_ctestns_ori (o 0) (r 1) (n 2));
   mkLen "ctestns_oii" (fun v => let (o, a, r, n, e, j, l, s) := v in i_ctestns_oii (o 0) (n 1) (n 2));
   mkLen "ctestnz_ori" (fun v => let (o, a, r, n, e, j, l, s) := v in i_ctestnz_ori (o 0) (r 1) (n 2));
   mkLen "ctestnz_oii" (fun v => let (o, a, r, n, e, j, l, s) := v in i_ctestnz_oii (o 0) (n 1) (n 2));
   mkLen "ctesto_ori" (fun v => let (o, a, r, n, e, j, l, s) := v in i_ctesto_ori (o 0) (r 1) (n 2));
   mkLen "ctesto_oii" (fun v => let (o, a, r, n, e, j, l, s) := v in i_ctesto_oii (o 0) (n 1) (n 2));
   mkLen "ctests_ori" (fun v => let (o, a, r, n, e, j, l, s) := v in i_ctests_ori (o 0) (r 1) (n 2));
   mkLen "ctests_oii" (fun v => let (o, a, r, n, e, j, l, s) := v in i_ctests_oii (o 0) (n 1) (n 2));
   mkLen "ctestt_ori" (fun v => let (o, a, r, n, e, j, l, s) := v in i_ctestt_ori (o 0) (r 1) (n 2));
   mkLen "ctestt_oii" (fun v => let (o, a, r, n, e, j, l, s) := v in i_ctestt_oii (o 0) (n 1) (n 2))].
Lemma lens12_ok : Forall entry_within lens12.
Proof. unfold lens12.
row. { unfold i_ctestnbe_oii. row_len. }
row. { unfold i_ctestnc_ori. row_len. }
row. { unfold i_ctestnc_oii. row_len. }
row. { unfold i_ctestne_ori. row_len. }
row. { unfold i_ctestne_oii. row_len. }
row. { unfold i_ctestng_ori. row_len. }
row. { unfold i_ctestng_oii. row_len. }
row. { unfold i_ctestnge_ori. row_len. }
row. { unfold i_ctestnge_oii. row_len. }
row. { unfold i_ctestnl_ori. row_len. }
row. { unfold i_ctestnl_oii. row_len. }
row. { unfold i_ctestnle_ori. row_len. }
row. { unfold i_ctestnle_oii. row_len. }
row. { unfold i_ctestno_ori. row_len. }
row. { unfold i_ctestno_oii. row_len. }
row. { unfold i_ctestns_ori. row_len. }
row. { unfold i_ctestns_oii. row_len. }
row. { unfold i_ctestnz_ori. row_len. }
row. { unfold i_ctestnz_oii. row_len. }
row. { unfold i_ctesto_ori. row_len. }
row. { unfold i_ctesto_oii. row_len. }
row. { unfold i_ctests_ori. row_len. }
row. { unfold i_ctests_oii. row_len. }
row. { unfold i_ctestt_ori. row_len. }
row. { unfold i_ctestt_oii. row_len. }
apply Forall_nil. Qed.
Definition lens13 : list len_entry :=
  [mkLen "ctestz_ori" (fun v => let (o, a, r, n, e, j, l, s) := v in i_ctestz_ori (o 0) (r 1) (n 2));
   mkLen "ctestz_oii" (fun v => let (o, a, r, n, e, j, l, s) := v in i_ctestz_oii (o 0) (n 1) (n 2));
   mkLen "cvtdq2pd" (fun v => let (o, a, r, n, e, j, l, s) := v in i_cvtdq2pd (r 0) (o 1));
   mkLen "cvtdq2ps" (fun v => let (o, a, r, n, e, j, l, s) := v in i_cvtdq2ps (r 0) (o 1));
   mkLen "cvtpd2dq" (fun v => let (o, a, r, n, e, j, l, s) := v in i_cvtpd2dq (r 0) (o 1));
   mkLen "cvtpd2pi" (fun v => let (o, a, r, n, e, j, l, s) := v in i_cvtpd2pi (r 0) (o 1));
   mkLen "cvtpd2ps" (fun v => let (o, a, r, n, e, j, l, s) := v in i_cvtpd2ps (r 0) (o 1));
   mkLen "cvtpi2pd" (fun v => let (o, a, r, n, e, j, l, s) := v in i_cvtpi2pd (r 0) (o 1));
   mkLen "cvtpi2ps" (fun v => let (o, a, r, n, e, j, l, s) := v in i_cvtpi2ps (r 0) (o 1));
   mkLen "cvtps2dq" (fun v => let (o, a, r, n, e, j, l, s) := v in i_cvtps2dq (r 0) (o 1));
   mkLen "cvtps2pd" (fun v => let (o, a, r, n, e, j, l, s) := v in i_cvtps2pd (r 0) (o 1));
   mkLen "cvtps2pi" (fun v => let (o, a, r, n, e, j, l, s) := v in i_cvtps2pi (r 0) (o 1));
   mkLen "cvtsd2si" (fun v => let (o, a, r, n, e, j, l, s) := v in i_cvtsd2si (r 0) (o 1));
   mkLen "cvtsd2ss" (fun v => let (o, a, r, n, e, j, l, s) := v in i_cvtsd2ss (r 0) (o 1));
   mkLen "cvtsi2sd" (fun v => let (o, a, r, n, e, j, l, s) := v in i_cvtsi2sd (r 0) (o 1));
   mkLen "cvtsi2ss" (fun v => let (o, a, r, n, e, j, l, s) := v in i_cvtsi2ss (r 0) (o 1));
   mkLen "cvtss2sd" (fun v => let (o, a, r, n, e, j, l, s) := v in i_cvtss2sd (r 0) (o 1));
   mkLen "cvtss2si" (fun v => let (o, a, r, n, e, j, l, s) := v in i_cvtss2si (r 0) (o 1));
   mkLen "cvttpd2dq" (fun v => let (o, a, r, n, e, j, l, s) := v in i_cvttpd2dq (r 0) (o 1));
   mkLen "cvttpd2pi" (fun v => let (o, a, r, n, e, j, l, s) := v in i_cvttpd2pi (r 0) (o 1));
   mkLen "cvttps2dq" (fun v => let (o, a, r, n, e, j, l, s) := v in i_cvttps2dq (r 0) (o 1));
   mkLen "cvttps2pi" (fun v => let (o, a, r, n, e, j, l, s) := v in i_cvttps2pi (r 0) (o 1));
   mkLen "cvttsd2si" (fun v => let (o, a, r, n, e, j, l, s) := v in i_cvttsd2si (r 0) (o 1));
   mkLen "cvttss2si" (fun v => let (o, a, r, n, e, j, l, s) := v in i_cvttss2si (r 0) (o 1));
   mkLen "cwd" (fun v => let (o, a, r, n, e, j, l, s) := v in i_cwd)].
Lemma lens13_ok : Forall entry_within lens13.
Proof. unfold lens13.
row. { unfold i_ctestz_ori. row_len. }
row. { unfold i_ctestz_oii. row_len. }
row. { unfold i_cvtdq2pd. row_len. }
row. { unfold i_cvtdq2ps. row_len. }
row. { unfold i_cvtpd2dq. row_len. }
row. { unfold i_cvtpd2pi. row_len. }
row. { unfold i_cvtpd2ps. row_len. }
row. { unfold i_cvtpi2pd. row_len. }
row. { unfold i_cvtpi2ps. row_len. }
row. { unfold i_cvtps2dq. row_len. }
row. { unfold i_cvtps2pd. row_len. }
row. { unfold i_cvtps2pi. row_len. }
row. { unfold i_cvtsd2si. row_len. }
row. { unfold i_cvtsd2ss. row_len. }
row. { unfold i_cvtsi2sd. row_len. }
row. { unfold i_cvtsi2ss. row_len. }
row. { unfold i_cvtss2sd. row_len. }
row. { unfold i_cvtss2si. row_len. }
row. { unfold i_cvttpd2dq. row_len. }
row. { unfold i_cvttpd2pi. row_len. }
row. { unfold i_cvttps2dq. row_len. }
row. { unfold i_cvttps2pi. row_len. }
row. { unfold i_cvttsd2si. row_len. }
row. { unfold i_cvttss2si. row_len. }
row. { unfold i_cwd. row_len. }
apply Forall_nil. Qed.
Definition lens14 : list len_entry :=
  [mkLen "cwde" (fun v => let (o, a, r, n, e, j, l, s) := v in i_cwde);
   mkLen "dec_o" (fun v => let (o, a, r, n, e, j, l, s) := v in i_dec_o (o 0));
   mkLen "dec_ro" (fun v => let (o, a, r, n, e, j, l, s) := v in i_dec_ro (r 0) (o 1));
   mkLen "div" (fun v => let (o, a, r, n, e, j, l, s) := v in i_div (o 0));
   mkLen "divpd" (fun v => let (o, a, r, n, e, j, l, s) := v in i_divpd (r 0) (o 1));
   mkLen "divps" (fun v => let (o, a, r, n, e, j, l, s) := v in i_divps (r 0) (o 1));
   mkLen "divsd" (fun v => let (o, a, r, n, e, j, l, s) := v in i_divsd (r 0) (o 1));
   mkLen "divss" (fun v => let (o, a, r, n, e, j, l, s) := v in i_divss (r 0) (o 1));
   mkLen "dppd" (fun v => let (o, a, r, n, e, j, l, s) := v in i_dppd (r 0) (o 1) (n 2));
   mkLen "dpps" (fun v => let (o, a, r, n, e, j, l, s) := v in i_dpps (r 0) (o 1) (n 2));
   mkLen "emms" (fun v => let (o, a, r, n, e, j, l, s) := v in i_emms);
   mkLen "endbr32" (fun v => let (o, a, r, n, e, j, l, s) := v in i_endbr32);
   mkLen "endbr64" (fun v => let (o, a, r, n, e, j, l, s) := v in i_endbr64);
   mkLen "enter" (fun v => let (o, a, r, n, e, j, l, s) := v in i_enter (n 0) (n 1));
   mkLen "extractps" (fun v => let (o, a, r, n, e, j, l, s) := v in i_extractps (o 0) (r 1) (n 2));
   mkLen "f2xm1" (fun v => let (o, a, r, n, e, j, l, s) := v in i_f2xm1);
   mkLen "fabs" (fun v => let (o, a, r, n, e, j, l, s) := v in i_fabs);
   mkLen "fadd_a" (fun v => let (o, a, r, n, e, j, l, s) := v in i_fadd_a (a 0));
   mkLen "fadd_f" (fun v => let (o, a, r, n, e, j, l, s) := v in i_fadd_f (r 0));
   mkLen "fadd_ff" (fun v => let (o, a, r, n, e, j, l, s) := v in i_fadd_ff (r 0) (r 1));
   mkLen "faddp_none" (fun v => let (o, a, r, n, e, j, l, s) := v in i_faddp_none);
   mkLen "faddp_f" (fun v => let (o, a, r, n, e, j, l, s) := v in i_faddp_f (r 0));
   mkLen "faddp_ff" (fun v => let (o, a, r, n, e, j, l, s) := v in i_faddp_ff (r 0) (r 1));
   mkLen "fbld" (fun v => let (o, a, r, n, e, j, l, s) := v in i_fbld (a 0));
   mkLen "fbstp" (fun v => let (o, a, r, n, e, j, l, s) := v in i_fbstp (a 0))].
Lemma lens14_ok : Forall entry_within lens14.
Proof. unfold lens14.
row. { unfold i_cwde. row_len. }
row. { unfold i_dec_o. row_len. }
row. { unfold i_dec_ro. row_len. }
row. { unfold i_div. row_len. }
row. { unfold i_divpd. row_len. }
row. { unfold i_divps. row_len. }
row. { unfold i_divsd. row_len. }
row. { unfold i_divss. row_len. }
row. { unfold i_dppd. row_len. }
row. { unfold i_dpps. row_len. }
row. { unfold i_emms. row_len. }
row. { unfold i_endbr32. row_len. }
row. { unfold i_endbr64. row_len. }
row. { unfold i_enter. row_len. }
row. { unfold i_extractps. row_len. }
row. { unfold i_f2xm1. row_len. }
row. { unfold i_fabs. row_len. }
row. { unfold i_fadd_a. row_len. }
row. { unfold i_fadd_f. row_len. }
row. { unfold i_fadd_ff. row_len. }
row. { unfold i_faddp_none. row_len. }
row. { unfold i_faddp_f. row_len. }
row. { unfold i_faddp_ff. row_len. }
row. { unfold i_fbld. row_len. }
row. { unfold i_fbstp. row_len. }
apply Forall_nil. Qed.
Definition lens15 : list len_entry :=
  [mkLen "fchs" (fun v => let (o, a, r, n, e, j, l, s) := v in i_fchs);
   mkLen "fclex" (fun v => let (o, a, r, n, e, j, l, s) := v in i_fclex);
   mkLen "fcmovb_f" (fun v => let (o, a, r, n, e, j, l, s) := v in i_fcmovb_f (r 0));
   mkLen "fcmovb_ff" (fun v => let (o, a, r, n, e, j, l, s) := v in i_fcmovb_ff (r 0) (r 1));
   mkLen "fcmovbe_f" (fun v => let (o, a, r, n, e, j, l, s) := v in i_fcmovbe_f (r 0));
   mkLen "fcmovbe_ff" (fun v => let (o, a, r, n, e, j, l, s) := v in i_fcmovbe_ff (r 0) (r 1));
   mkLen "fcmove_f" (fun v => let (o, a, r, n, e, j, l, s) := v in i_fcmove_f (r 0));
   mkLen "fcmove_ff" (fun v => let (o, a, r, n, e, j, l, s) := v in i_fcmove_ff (r 0) (r 1));
   mkLen "fcmovnb_f" (fun v => let (o, a, r, n, e, j, l, s) := v in i_fcmovnb_f (r 0));
   mkLen "fcmovnb_ff" (fun v => let (o, a, r, n, e, j, l, s) := v in i_fcmovnb_ff (r 0) (r 1));
   mkLen "fcmovnbe_f" (fun v => let (o, a, r, n, e, j, l, s) := v in i_fcmovnbe_f (r 0));
   mkLen "fcmovnbe_ff" (fun v => let (o, a, r, n, e, j, l, s) := v in i_fcmovnbe_ff (r 0) (r 1));
   mkLen "fcmovne_f" (fun v => let (o, a, r, n, e, j, l, s) := v in i_fcmovne_f (r 0));
   mkLen "fcmovne_ff" (fun v => let (o, a, r, n, e, j, l, s) := v in i_fcmovne_ff (r 0) (r 1));
   mkLen "fcmovnu_f" (fun v => let (o, a, r, n, e, j, l, s) := v in i_fcmovnu_f (r 0));
   mkLen "fcmovnu_ff" (fun v => let (o, a, r, n, e, j, l, s) := v in i_fcmovnu_ff (r 0) (r 1));
   mkLen "fcmovu_f" (fun v => let (o, a, r, n, e, j, l, s) := v in i_fcmovu_f (r 0));
   mkLen "fcmovu_ff" (fun v => let (o, a, r, n, e, j, l, s) := v in i_fcmovu_ff (r 0) (r 1));
   mkLen "fcom_none" (fun v => let (o, a, r, n, e, j, l, s) := v in i_fcom_none);
   mkLen "fcom_a" (fun v => let (o, a, r, n, e, j, l, s) := v in i_fcom_a (a 0));
   mkLen "fcom_f" (fun v => let (o, a, r, n, e, j, l, s) := v in i_fcom_f (r 0));
   mkLen "fcomi_f" (fun v => let (o, a, r, n, e, j, l, s) := v in i_fcomi_f (r 0));
   mkLen "fcomi_ff" (fun v => let (o, a, r, n, e, j, l, s) := v in i_fcomi_ff (r 0) (r 1));
   mkLen "fcomip_f" (fun v => let (o, a, r, n, e, j, l, s) := v in i_fcomip_f (r 0));
   mkLen "fcomip_ff" (fun v => let (o, a, r, n, e, j, l, s) := v in i_fcomip_ff (r 0) (r 1))].
Lemma lens15_ok : Forall entry_within lens15.
Proof. unfold lens15.
row. { unfold i_fchs. row_len. }
row. { unfold i_fclex. row_len. }
row. { unfold i_fcmovb_f. row_len. }
row. { unfold i_fcmovb_ff. row_len. }
row. { unfold i_fcmovbe_f. row_len. }
row. { unfold i_fcmovbe_ff. row_len. }
row. { unfold i_fcmove_f. row_len. }
row. { unfold i_fcmove_ff. row_len. }
row. { unfold i_fcmovnb_f. row_len. }
row. { unfold i_fcmovnb_ff. row_len. }
row. { unfold i_fcmovnbe_f. row_len. }
row. { unfold i_fcmovnbe_ff. row_len. }
row. { unfold i_fcmovne_f. row_len. }
row. { unfold i_fcmovne_ff. row_len. }
row. { unfold i_fcmovnu_f. row_len. }
row. { unfold i_fcmovnu_ff. row_len. }
row. { unfold i_fcmovu_f. row_len. }
row. { unfold i_fcmovu_ff. row_len. }
row. { unfold i_fcom_none. row_len. }
row. { unfold i_fcom_a. row_len. }
row. { unfold i_fcom_f. row_len. }
row. { unfold i_fcomi_f. row_len. }
row. { unfold i_fcomi_ff. row_len. }
row. { unfold i_fcomip_f. row_len. }
row. { unfold i_fcomip_ff. row_len. }
apply Forall_nil. Qed.
Definition lens16 : list len_entry :=
  [mkLen "fcomp_none" (fun v => let (o, a, r, n, e, j, l, s) := v in i_fcomp_none);
   mkLen "fcomp_a" (fun v => let (o, a, r, n, e, j, l, s) := v in i_fcomp_a (a 0));
   mkLen "fcomp_f" (fun v => let (o, a, r, n, e, j, l, s) := v in i_fcomp_f (r 0));
   mkLen "fcompp" (fun v => let (o, a, r, n, e, j, l, s) := v in i_fcompp);
   mkLen "fcos" (fun v => let (o, a, r, n, e, j, l, s) := v in i_fcos);
   mkLen "fdecstp" (fun v => let (o, a, r, n, e, j, l, s) := v in i_fdecstp);
   mkLen "fdiv_a" (fun v => let (o, a, r, n, e, j, l, s) := v in i_fdiv_a (a 0));
   mkLen "fdiv_f" (fun v => let (o, a, r, n, e, j, l, s) := v in i_fdiv_f (r 0));
   mkLen "fdiv_ff" (fun v => let (o, a, r, n, e, j, l, s) := v in i_fdiv_ff (r 0) (r 1));
   mkLen "fdivp_none" (fun v => let (o, a, r, n, e, j, l, s) := v in i_fdivp_none);
   mkLen "fdivp_f" (fun v => let (o, a, r, n, e, j, l, s) := v in i_fdivp_f (r 0));
   mkLen "fdivp_ff" (fun v => let (o, a, r, n, e, j, l, s) := v in i_fdivp_ff (r 0) (r 1));
   mkLen "fdivr_a" (fun v => let (o, a, r, n, e, j, l, s) := v in i_fdivr_a (a 0));
   mkLen "fdivr_f" (fun v => let (o, a, r, n, e, j, l, s) := v in i_fdivr_f (r 0));
   mkLen "fdivr_ff" (fun v => let (o, a, r, n, e, j, l, s) := v in i_fdivr_ff (r 0) (r 1));
   mkLen "fdivrp_none" (fun v => let (o, a, r, n, e, j, l, s) := v in i_fdivrp_none);
   mkLen "fdivrp_f" (fun v => let (o, a, r, n, e, j, l, s) := v in i_fdivrp_f (r 0));
   mkLen "fdivrp_ff" (fun v => let (o, a, r, n, e, j, l, s) := v in i_fdivrp_ff (r 0) (r 1));
   mkLen "ffree" (fun v => let (o, a, r, n, e, j, l, s) := v in i_ffree (r 0));
   mkLen "fiadd" (fun v => let (o, a, r, n, e, j, l, s) := v in i_fiadd (a 0));
   mkLen "ficom" (fun v => let (o, a, r, n, e, j, l, s) := v in i_ficom (a 0));
   mkLen "ficomp" (fun v => let (o, a, r, n, e, j, l, s) := v in i_ficomp (a 0));
   mkLen "fidiv" (fun v => let (o, a, r, n, e, j, l, s) := v in i_fidiv (a 0));
   mkLen "fidivr" (fun v => let (o, a, r, n, e, j, l, s) := v in i_fidivr (a 0));
   mkLen "fild" (fun v => let (o, a, r, n, e, j, l, s) := v in i_fild (a 0))].
Lemma lens16_ok : Forall entry_within lens16.
Proof. unfold lens16.
row. { unfold i_fcomp_none. row_len. }
row. { unfold i_fcomp_a. row_len. }
row. { unfold i_fcomp_f. row_len. }
row. { unfold i_fcompp. row_len. }
row. { unfold i_fcos. row_len. }
row. { unfold i_fdecstp. row_len. }
row. { unfold i_fdiv_a. row_len. }
row. { unfold i_fdiv_f. row_len. }
row. { unfold i_fdiv_ff. row_len. }
row. { unfold i_fdivp_none. row_len. }
row. { unfold i_fdivp_f. row_len. }
row. { unfold i_fdivp_ff. row_len. }
row. { unfold i_fdivr_a. row_len. }
row. { unfold i_fdivr_f. row_len. }
row. { unfold i_fdivr_ff. row_len. }
row. { unfold i_fdivrp_none. row_len. }
row. { unfold i_fdivrp_f. row_len. }
row. { unfold i_fdivrp_ff. row_len. }
row. { unfold i_ffree. row_len. }
row. { unfold i_fiadd. row_len. }
row. { unfold i_ficom. row_len. }
row. { unfold i_ficomp. row_len. }
row. { unfold i_fidiv. row_len. }
row. { unfold i_fidivr. row_len. }
row. { unfold i_fild. row_len. }
apply Forall_nil. Qed.
Definition lens17 : list len_entry :=
  [mkLen "fimul" (fun v => let (o, a, r, n, e, j, l, s) := v in i_fimul (a 0));
   mkLen "fincstp" (fun v => let (o, a, r, n, e, j, l, s) := v in i_fincstp);
   mkLen "finit" (fun v => let (o, a, r, n, e, j, l, s) := v in i_finit);
   mkLen "fist" (fun v => let (o, a, r, n, e, j, l, s) := v in i_fist (a 0));
   mkLen "fistp" (fun v => let (o, a, r, n, e, j, l, s) := v in i_fistp (a 0));
   mkLen "fisttp" (fun v => let (o, a, r, n, e, j, l, s) := v in i_fisttp (a 0));
   mkLen "fisub" (fun v => let (o, a, r, n, e, j, l, s) := v in i_fisub (a 0));
   mkLen "fisubr" (fun v => let (o, a, r, n, e, j, l, s) := v in i_fisubr (a 0));
   mkLen "fld_a" (fun v => let (o, a, r, n, e, j, l, s) := v in i_fld_a (a 0));
   mkLen "fld_f" (fun v => let (o, a, r, n, e, j, l, s) := v in i_fld_f (r 0));
   mkLen "fld1" (fun v => let (o, a, r, n, e, j, l, s) := v in i_fld1);
   mkLen "fldcw" (fun v => let (o, a, r, n, e, j, l, s) := v in i_fldcw (a 0));
   mkLen "fldenv" (fun v => let (o, a, r, n, e, j, l, s) := v in i_fldenv (a 0));
   mkLen "fldl2e" (fun v => let (o, a, r, n, e, j, l, s) := v in i_fldl2e);
   mkLen "fldl2t" (fun v => let (o, a, r, n, e, j, l, s) := v in i_fldl2t);
   mkLen "fldlg2" (fun v => let (o, a, r, n, e, j, l, s) := v in i_fldlg2);
   mkLen "fldln2" (fun v => let (o, a, r, n, e, j, l, s) := v in i_fldln2);
   mkLen "fldpi" (fun v => let (o, a, r, n, e, j, l, s) := v in i_fldpi);
   mkLen "fldz" (fun v => let (o, a, r, n, e, j, l, s) := v in i_fldz);
   mkLen "fmul_a" (fun v => let (o, a, r, n, e, j, l, s) := v in i_fmul_a (a 0));
   mkLen "fmul_f" (fun v => let (o, a, r, n, e, j, l, s) := v in i_fmul_f (r 0));
   mkLen "fmul_ff" (fun v => let (o, a, r, n, e, j, l, s) := v in i_fmul_ff (r 0) (r 1));
   mkLen "fmulp_none" (fun v => let (o, a, r, n, e, j, l, s) := v in i_fmulp_none);
   mkLen "fmulp_f" (fun v => let (o, a, r, n, e, j, l, s) := v in i_fmulp_f (r 0));
   mkLen "fmulp_ff" (fun v => let (o, a, r, n, e, j, l, s) := v in i_fmulp_ff (r 0) (r 1))].
Lemma lens17_ok : Forall entry_within lens17.
Proof. unfold lens17.
row. { unfold i_fimul. row_len. }
row. { unfold i_fincstp. row_len. }
row. { unfold i_finit. row_len. }
row. { unfold i_fist. row_len. }
row. { unfold i_fistp. row_len. }
row. { unfold i_fisttp. row_len. }
row. { unfold i_fisub. row_len. }
row. { unfold i_fisubr. row_len. }
row. { unfold i_fld_a. row_len. }
row. { unfold i_fld_f. row_len. }
row. { unfold i_fld1. row_len. }
row. { unfold i_fldcw. row_len. }
row. { unfold i_fldenv. row_len. }
row. { unfold i_fldl2e. row_len. }
row. { unfold i_fldl2t. row_len. }
row. { unfold i_fldlg2. row_len. }
row. { unfold i_fldln2. row_len. }
row. { unfold i_fldpi. row_len. }
row. { unfold i_fldz. row_len. }
row. { unfold i_fmul_a. row_len. }
row. { unfold i_fmul_f. row_len. }
row. { unfold i_fmul_ff. row_len. }
row. { unfold i_fmulp_none. row_len. }
row. { unfold i_fmulp_f. row_len. }
row. { unfold i_fmulp_ff. row_len. }
apply Forall_nil. Qed.
Definition lens18 : list len_entry :=
  [mkLen "fnclex" (fun v => let (o, a, r, n, e, j, l, s) := v in i_fnclex);
   mkLen "fninit" (fun v => let (o, a, r, n, e, j, l, s) := v in i_fninit);
   mkLen "fnop" (fun v => let (o, a, r, n, e, j, l, s) := v in i_fnop);
   mkLen "fnsave" (fun v => let (o, a, r, n, e, j, l, s) := v in i_fnsave (a 0));
   mkLen "fnstcw" (fun v => let (o, a, r, n, e, j, l, s) := v in i_fnstcw (a 0));
   mkLen "fnstenv" (fun v => let (o, a, r, n, e, j, l, s) := v in i_fnstenv (a 0));
   mkLen "fnstsw_a" (fun v => let (o, a, r, n, e, j, l, s) := v in i_fnstsw_a (a 0));
   mkLen "fnstsw_w" (fun v => let (o, a, r, n, e, j, l, s) := v in i_fnstsw_w (r 0));
   mkLen "fpatan" (fun v => let (o, a, r, n, e, j, l, s) := v in i_fpatan);
   mkLen "fprem" (fun v => let (o, a, r, n, e, j, l, s) := v in i_fprem);
   mkLen "fprem1" (fun v => let (o, a, r, n, e, j, l, s) := v in i_fprem1);
   mkLen "fptan" (fun v => let (o, a, r, n, e, j, l, s) := v in i_fptan);
   mkLen "frndint" (fun v => let (o, a, r, n, e, j, l, s) := v in i_frndint);
   mkLen "frstor" (fun v => let (o, a, r, n, e, j, l, s) := v in i_frstor (a 0));
   mkLen "fsave" (fun v => let (o, a, r, n, e, j, l, s) := v in i_fsave (a 0));
   mkLen "fscale" (fun v => let (o, a, r, n, e, j, l, s) := v in i_fscale);
   mkLen "fsin" (fun v => let (o, a, r, n, e, j, l, s) := v in i_fsin);
   mkLen "fsincos" (fun v => let (o, a, r, n, e, j, l, s) := v in i_fsincos);
   mkLen "fsqrt" (fun v => let (o, a, r, n, e, j, l, s) := v in i_fsqrt);
   mkLen "fst_a" (fun v => let (o, a, r, n, e, j, l, s) := v in i_fst_a (a 0));
   mkLen "fst_f" (fun v => let (o, a, r, n, e, j, l, s) := v in i_fst_f (r 0));
   mkLen "fstcw" (fun v => let (o, a, r, n, e, j, l, s) := v in i_fstcw (a 0));
   mkLen "fstenv" (fun v => let (o, a, r, n, e, j, l, s) := v in i_fstenv (a 0));
   mkLen "fstp_a" (fun v => let (o, a, r, n, e, j, l, s) := v in i_fstp_a (a 0));
   mkLen "fstp_f" (fun v => let (o, a, r, n, e, j, l, s) := v in i_fstp_f (r 0))].
Lemma lens18_ok : Forall entry_within lens18.
Proof. unfold lens18.
row. { unfold i_fnclex. row_len. }
row. { unfold i_fninit. row_len. }
row. { unfold i_fnop. row_len. }
row. { unfold i_fnsave. row_len. }
row. { unfold i_fnstcw. row_len. }
row. { unfold i_fnstenv. row_len. }
row. { unfold i_fnstsw_a. row_len. }
row. { unfold i_fnstsw_w. row_len. }
row. { unfold i_fpatan. row_len. }
row. { unfold i_fprem. row_len. }
row. { unfold i_fprem1. row_len. }
row. { unfold i_fptan. row_len. }
row. { unfold i_frndint. row_len. }
row. { unfold i_frstor. row_len. }
row. { unfold i_fsave. row_len. }
row. { unfold i_fscale. row_len. }
row. { unfold i_fsin. row_len. }
row. { unfold i_fsincos. row_len. }
row. { unfold i_fsqrt. row_len. }
row. { unfold i_fst_a. row_len. }
row. { unfold i_fst_f. row_len. }
row. { unfold i_fstcw. row_len. }
row. { unfold i_fstenv. row_len. }
row. { unfold i_fstp_a. row_len. }
row. { unfold i_fstp_f. row_len. }
apply Forall_nil. Qed.
Definition lens19 : list len_entry :=
  [mkLen "fstsw_a" (fun v => let (o, a, r, n, e, j, l, s) := v in i_fstsw_a (a 0));
   mkLen "fstsw_w" (fun v => let (o, a, r, n, e, j, l, s) := v in i_fstsw_w (r 0));
   mkLen "fsub_a" (fun v => let (o, a, r, n, e, j, l, s) := v in i_fsub_a (a 0));
   mkLen "fsub_f" (fun v => let (o, a, r, n, e, j, l, s) := v in i_fsub_f (r 0));
   mkLen "fsub_ff" (fun v => let (o, a, r, n, e, j, l, s) := v in i_fsub_ff (r 0) (r 1));
   mkLen "fsubp_none" (fun v => let (o, a, r, n, e, j, l, s) := v in i_fsubp_none);
   mkLen "fsubp_f" (fun v => let (o, a, r, n, e, j, l, s) := v in i_fsubp_f (r 0));
   mkLen "fsubp_ff" (fun v => let (o, a, r, n, e, j, l, s) := v in i_fsubp_ff (r 0) (r 1));
   mkLen "fsubr_a" (fun v => let (o, a, r, n, e, j, l, s) := v in i_fsubr_a (a 0));
   mkLen "fsubr_f" (fun v => let (o, a, r, n, e, j, l, s) := v in i_fsubr_f (r 0));
   mkLen "fsubr_ff" (fun v => let (o, a, r, n, e, j, l, s) := v in i_fsubr_ff (r 0) (r 1));
   mkLen "fsubrp_none" (fun v => let (o, a, r, n, e, j, l, s) := v in i_fsubrp_none);
   mkLen "fsubrp_f" (fun v => let (o, a, r, n, e, j, l, s) := v in i_fsubrp_f (r 0));
   mkLen "fsubrp_ff" (fun v => let (o, a, r, n, e, j, l, s) := v in i_fsubrp_ff (r 0) (r 1));
   mkLen "ftst" (fun v => let (o, a, r, n, e, j, l, s) := v in i_ftst);
   mkLen "fucom_none" (fun v => let (o, a, r, n, e, j, l, s) := v in i_fucom_none);
   mkLen "fucom_f" (fun v => let (o, a, r, n, e, j, l, s) := v in i_fucom_f (r 0));
   mkLen "fucomi_f" (fun v => let (o, a, r, n, e, j, l, s) := v in i_fucomi_f (r 0));
   mkLen "fucomi_ff" (fun v => let (o, a, r, n, e, j, l, s) := v in i_fucomi_ff (r 0) (r 1));
   mkLen "fucomip_f" (fun v => let (o, a, r, n, e, j, l, s) := v in i_fucomip_f (r 0));
   mkLen "fucomip_ff" (fun v => let (o, a, r, n, e, j, l, s) := v in i_fucomip_ff (r 0) (r 1));
   mkLen "fucomp_none" (fun v => let (o, a, r, n, e, j, l, s) := v in i_fucomp_none);
   mkLen "fucomp_f" (fun v => let (o, a, r, n, e, j, l, s) := v in i_fucomp_f (r 0));
   mkLen "fucompp" (fun v => let (o, a, r, n, e, j, l, s) := v in i_fucompp);
   mkLen "fwait" (fun v => let (o, a, r, n, e, j, l, s) := v in i_fwait)].
Lemma lens19_ok : Forall entry_within lens19.
Proof. unfold lens19.
row. { unfold i_fstsw_a. row_len. }
row. { unfold i_fstsw_w. row_len. }
row. { unfold i_fsub_a. row_len. }
row. { unfold i_fsub_f. row_len. }
row. { unfold i_fsub_ff. row_len. }
row. { unfold i_fsubp_none. row_len. }
row. { unfold i_fsubp_f. row_len. }
row. { unfold i_fsubp_ff. row_len. }
row. { unfold i_fsubr_a. row_len. }
row. { unfold i_fsubr_f. row_len. }
row. { unfold i_fsubr_ff. row_len. }
row. { unfold i_fsubrp_none. row_len. }
row. { unfold i_fsubrp_f. row_len. }
row. { unfold i_fsubrp_ff. row_len. }
row. { unfold i_ftst. row_len. }
row. { unfold i_fucom_none. row_len. }
row. { unfold i_fucom_f. row_len. }
row. { unfold i_fucomi_f. row_len. }
row. { unfold i_fucomi_ff. row_len. }
row. { unfold i_fucomip_f. row_len. }
row. { unfold i_fucomip_ff. row_len. }
row. { unfold i_fucomp_none. row_len. }
row. { unfold i_fucomp_f. row_len. }
row. { unfold i_fucompp. row_len. }
row. { unfold i_fwait. row_len. }
apply Forall_nil. Qed.
Definition lens20 : list len_entry :=
  [mkLen "fxam" (fun v => let (o, a, r, n, e, j, l, s) := v in i_fxam);
   mkLen "fxch_none" (fun v => let (o, a, r, n, e, j, l, s) := v in i_fxch_none);
   mkLen "fxch_f" (fun v => let (o, a, r, n, e, j, l, s) := v in i_fxch_f (r 0));
   mkLen "fxrstor" (fun v => let (o, a, r, n, e, j, l, s) := v in i_fxrstor (a 0));
   mkLen "fxtract" (fun v => let (o, a, r, n, e, j, l, s) := v in i_fxtract);
   mkLen "fyl2x" (fun v => let (o, a, r, n, e, j, l, s) := v in i_fyl2x);
   mkLen "fyl2xp1" (fun v => let (o, a, r, n, e, j, l, s) := v in i_fyl2xp1);
   mkLen "gf2p8affineinvqb" (fun v => let (o, a, r, n, e, j, l, s) := v in i_gf2p8affineinvqb (r 0) (o 1) (n 2));
   mkLen "gf2p8affineqb" (fun v => let (o, a, r, n, e, j, l, s) := v in i_gf2p8affineqb (r 0) (o 1) (n 2));
   mkLen "gf2p8mulb" (fun v => let (o, a, r, n, e, j, l, s) := v in i_gf2p8mulb (r 0) (o 1));
   mkLen "haddpd" (fun v => let (o, a, r, n, e, j, l, s) := v in i_haddpd (r 0) (o 1));
   mkLen "haddps" (fun v => let (o, a, r, n, e, j, l, s) := v in i_haddps (r 0) (o 1));
   mkLen "hlt" (fun v => let (o, a, r, n, e, j, l, s) := v in i_hlt);
   mkLen "hsubpd" (fun v => let (o, a, r, n, e, j, l, s) := v in i_hsubpd (r 0) (o 1));
   mkLen "hsubps" (fun v => let (o, a, r, n, e, j, l, s) := v in i_hsubps (r 0) (o 1));
   mkLen "idiv" (fun v => let (o, a, r, n, e, j, l, s) := v in i_idiv (o 0));
   mkLen "imul_o" (fun v => let (o, a, r, n, e, j, l, s) := v in i_imul_o (o 0));
   mkLen "imul_rro" (fun v => let (o, a, r, n, e, j, l, s) := v in i_imul_rro (r 0) (r 1) (o 2));
   mkLen "imul_ro" (fun v => let (o, a, r, n, e, j, l, s) := v in i_imul_ro (r 0) (o 1));
   mkLen "in__rr" (fun v => let (o, a, r, n, e, j, l, s) := v in i_in__rr (r 0) (r 1));
   mkLen "in__ri" (fun v => let (o, a, r, n, e, j, l, s) := v in i_in__ri (r 0) (n 1));
   mkLen "inc_o" (fun v => let (o, a, r, n, e, j, l, s) := v in i_inc_o (o 0));
   mkLen "inc_ro" (fun v => let (o, a, r, n, e, j, l, s) := v in i_inc_ro (r 0) (o 1));
   mkLen "insertps" (fun v => let (o, a, r, n, e, j, l, s) := v in i_insertps (r 0) (o 1) (n 2));
   mkLen "int3" (fun v => let (o, a, r, n, e, j, l, s) := v in i_int3)].
Lemma lens20_ok : Forall entry_within lens20.
Proof. unfold lens20.
row. { unfold i_fxam. row_len. }
row. { unfold i_fxch_none. row_len. }
row. { unfold i_fxch_f. row_len. }
row. { unfold i_fxrstor. row_len. }
row. { unfold i_fxtract. row_len. }
row. { unfold i_fyl2x. row_len. }
row. { unfold i_fyl2xp1. row_len. }
row. { unfold i_gf2p8affineinvqb. row_len. }
row. { unfold i_gf2p8affineqb. row_len. }
row. { unfold i_gf2p8mulb. row_len. }
row. { unfold i_haddpd. row_len. }
row. { unfold i_haddps. row_len. }
row. { unfold i_hlt. row_len. }
row. { unfold i_hsubpd. row_len. }
row. { unfold i_hsubps. row_len. }
row. { unfold i_idiv. row_len. }
row. { unfold i_imul_o. row_len. }
row. { unfold i_imul_rro. row_len. }
row. { unfold i_imul_ro. row_len. }
row. { unfold i_in__rr. row_len. }
row. { unfold i_in__ri. row_len. }
row. { unfold i_inc_o. row_len. }
row. { unfold i_inc_ro. row_len. }
row. { unfold i_insertps. row_len. }
row. { unfold i_int3. row_len. }
apply Forall_nil. Qed.
Definition lens21 : list len_entry :=
  [mkLen "int_" (fun v => let (o, a, r, n, e, j, l, s) := v in i_int_ (n 0));
   mkLen "lahf" (fun v => let (o, a, r, n, e, j, l, s) := v in i_lahf);
   mkLen "lddqu" (fun v => let (o, a, r, n, e, j, l, s) := v in i_lddqu (r 0) (a 1));
   mkLen "ldmxcsr" (fun v => let (o, a, r, n, e, j, l, s) := v in i_ldmxcsr (a 0));
   mkLen "lea" (fun v => let (o, a, r, n, e, j, l, s) := v in i_lea (r 0) (a 1));
   mkLen "leave" (fun v => let (o, a, r, n, e, j, l, s) := v in i_leave);
   mkLen "lfence" (fun v => let (o, a, r, n, e, j, l, s) := v in i_lfence);
   mkLen "lfs" (fun v => let (o, a, r, n, e, j, l, s) := v in i_lfs (r 0) (a 1));
   mkLen "lgs" (fun v => let (o, a, r, n, e, j, l, s) := v in i_lgs (r 0) (a 1));
   mkLen "lock" (fun v => let (o, a, r, n, e, j, l, s) := v in i_lock);
   mkLen "lodsb" (fun v => let (o, a, r, n, e, j, l, s) := v in i_lodsb);
   mkLen "lodsd" (fun v => let (o, a, r, n, e, j, l, s) := v in i_lodsd);
   mkLen "lodsw" (fun v => let (o, a, r, n, e, j, l, s) := v in i_lodsw);
   mkLen "lss" (fun v => let (o, a, r, n, e, j, l, s) := v in i_lss (r 0) (a 1));
   mkLen "lzcnt" (fun v => let (o, a, r, n, e, j, l, s) := v in i_lzcnt (r 0) (o 1));
   mkLen "maskmovdqu" (fun v => let (o, a, r, n, e, j, l, s) := v in i_maskmovdqu (r 0) (r 1));
   mkLen "maskmovq" (fun v => let (o, a, r, n, e, j, l, s) := v in i_maskmovq (r 0) (r 1));
   mkLen "maxpd" (fun v => let (o, a, r, n, e, j, l, s) := v in i_maxpd (r 0) (o 1));
   mkLen "maxps" (fun v => let (o, a, r, n, e, j, l, s) := v in i_maxps (r 0) (o 1));
   mkLen "maxsd" (fun v => let (o, a, r, n, e, j, l, s) := v in i_maxsd (r 0) (o 1));
   mkLen "maxss" (fun v => let (o, a, r, n, e, j, l, s) := v in i_maxss (r 0) (o 1));
   mkLen "mfence" (fun v => let (o, a, r, n, e, j, l, s) := v in i_mfence);
   mkLen "minpd" (fun v => let (o, a, r, n, e, j, l, s) := v in i_minpd (r 0) (o 1));
   mkLen "minps" (fun v => let (o, a, r, n, e, j, l, s) := v in i_minps (r 0) (o 1));
   mkLen "minsd" (fun v => let (o, a, r, n, e, j, l, s) := v in i_minsd (r 0) (o 1))].
Lemma lens21_ok : Forall entry_within lens21.
Proof. unfold lens21.
row. { unfold i_int_. row_len. }
row. { unfold i_lahf. row_len. }
row. { unfold i_lddqu. row_len. }
row. { unfold i_ldmxcsr. row_len. }
row. { unfold i_lea. row_len. }
row. { unfold i_leave. row_len. }
row. { unfold i_lfence. row_len. }
row. { unfold i_lfs. row_len. }
row. { unfold i_lgs. row_len. }
row. { unfold i_lock. row_len. }
row. { unfold i_lodsb. row_len. }
row. { unfold i_lodsd. row_len. }
row. { unfold i_lodsw. row_len. }
row. { unfold i_lss. row_len. }
row. { unfold i_lzcnt. row_len. }
row. { unfold i_maskmovdqu. row_len. }
row. { unfold i_maskmovq. row_len. }
row. { unfold i_maxpd. row_len. }
row. { unfold i_maxps. row_len. }
row. { unfold i_maxsd. row_len. }
row. { unfold i_maxss. row_len. }
row. { unfold i_mfence. row_len. }
row. { unfold i_minpd. row_len. }
row. { unfold i_minps. row_len. }
row. { unfold i_minsd. row_len. }
apply Forall_nil. Qed.
Definition lens22 : list len_entry :=
  [mkLen "minss" (fun v => let (o, a, r, n, e, j, l, s) := v in i_minss (r 0) (o 1));
   mkLen "monitor" (fun v => let (o, a, r, n, e, j, l, s) := v in i_monitor);
   mkLen "monitorx" (fun v => let (o, a, r, n, e, j, l, s) := v in i_monitorx);
   mkLen "movapd_ax" (fun v => let (o, a, r, n, e, j, l, s) := v in i_movapd_ax (a 0) (r 1));
   mkLen "movapd_xo" (fun v => let (o, a, r, n, e, j, l, s) := v in i_movapd_xo (r 0) (o 1));
   mkLen "movaps_ax" (fun v => let (o, a, r, n, e, j, l, s) := v in i_movaps_ax (a 0) (r 1));
   mkLen "movaps_xo" (fun v => let (o, a, r, n, e, j, l, s) := v in i_movaps_xo (r 0) (o 1));
   mkLen "movbe_ar" (fun v => let (o, a, r, n, e, j, l, s) := v in i_movbe_ar (a 0) (r 1));
   mkLen "movbe_ra" (fun v => let (o, a, r, n, e, j, l, s) := v in i_movbe_ra (r 0) (a 1));
   mkLen "movd_mo" (fun v => let (o, a, r, n, e, j, l, s) := v in i_movd_mo (r 0) (o 1));
   mkLen "movd_om" (fun v => let (o, a, r, n, e, j, l, s) := v in i_movd_om (o 0) (r 1));
   mkLen "movddup" (fun v => let (o, a, r, n, e, j, l, s) := v in i_movddup (r 0) (o 1));
   mkLen "movdir64b" (fun v => let (o, a, r, n, e, j, l, s) := v in i_movdir64b (r 0) (a 1));
   mkLen "movdiri" (fun v => let (o, a, r, n, e, j, l, s) := v in i_movdiri (a 0) (r 1));
   mkLen "movdq2q" (fun v => let (o, a, r, n, e, j, l, s) := v in i_movdq2q (r 0) (r 1));
   mkLen "movdqa_ax" (fun v => let (o, a, r, n, e, j, l, s) := v in i_movdqa_ax (a 0) (r 1));
   mkLen "movdqa_xo" (fun v => let (o, a, r, n, e, j, l, s) := v in i_movdqa_xo (r 0) (o 1));
   mkLen "movdqu_ax" (fun v => let (o, a, r, n, e, j, l, s) := v in i_movdqu_ax (a 0) (r 1));
   mkLen "movdqu_xo" (fun v => let (o, a, r, n, e, j, l, s) := v in i_movdqu_xo (r 0) (o 1));
   mkLen "movhlps" (fun v => let (o, a, r, n, e, j, l, s) := v in i_movhlps (r 0) (r 1));
   mkLen "movhpd" (fun v => let (o, a, r, n, e, j, l, s) := v in i_movhpd (o 0) (o 1));
   mkLen "movhps" (fun v => let (o, a, r, n, e, j, l, s) := v in i_movhps (o 0) (o 1));
   mkLen "movlhps" (fun v => let (o, a, r, n, e, j, l, s) := v in i_movlhps (r 0) (r 1));
   mkLen "movlpd" (fun v => let (o, a, r, n, e, j, l, s) := v in i_movlpd (o 0) (o 1));
   mkLen "movlps" (fun v => let (o, a, r, n, e, j, l, s) := v in i_movlps (o 0) (o 1))].
Lemma lens22_ok : Forall entry_within lens22.
Proof. unfold lens22.
row. { unfold i_minss. row_len. }
row. { unfold i_monitor. row_len. }
row. { unfold i_monitorx. row_len. }
row. { unfold i_movapd_ax. row_len. }
row. { unfold i_movapd_xo. row_len. }
row. { unfold i_movaps_ax. row_len. }
row. { unfold i_movaps_xo. row_len. }
row. { unfold i_movbe_ar. row_len. }
row. { unfold i_movbe_ra. row_len. }
row. { unfold i_movd_mo. row_len. }
row. { unfold i_movd_om. row_len. }
row. { unfold i_movddup. row_len. }
row. { unfold i_movdir64b. row_len. }
row. { unfold i_movdiri. row_len. }
row. { unfold i_movdq2q. row_len. }
row. { unfold i_movdqa_ax. row_len. }
row. { unfold i_movdqa_xo. row_len. }
row. { unfold i_movdqu_ax. row_len. }
row. { unfold i_movdqu_xo. row_len. }
row. { unfold i_movhlps. row_len. }
row. { unfold i_movhpd. row_len. }
row. { unfold i_movhps. row_len. }
row. { unfold i_movlhps. row_len. }
row. { unfold i_movlpd. row_len. }
row. { unfold i_movlps. row_len. }
apply Forall_nil. Qed.
Definition lens23 : list len_entry :=
  [mkLen "movmskps" (fun v => let (o, a, r, n, e, j, l, s) := v in i_movmskps (r 0) (r 1));
   mkLen "movmskpd" (fun v => let (o, a, r, n, e, j, l, s) := v in i_movmskpd (r 0) (r 1));
   mkLen "movntdq" (fun v => let (o, a, r, n, e, j, l, s) := v in i_movntdq (a 0) (r 1));
   mkLen "movntdqa" (fun v => let (o, a, r, n, e, j, l, s) := v in i_movntdqa (r 0) (a 1));
   mkLen "movnti" (fun v => let (o, a, r, n, e, j, l, s) := v in i_movnti (a 0) (r 1));
   mkLen "movntpd" (fun v => let (o, a, r, n, e, j, l, s) := v in i_movntpd (a 0) (r 1));
   mkLen "movntps" (fun v => let (o, a, r, n, e, j, l, s) := v in i_movntps (a 0) (r 1));
   mkLen "movntq" (fun v => let (o, a, r, n, e, j, l, s) := v in i_movntq (a 0) (r 1));
   mkLen "movq_am" (fun v => let (o, a, r, n, e, j, l, s) := v in i_movq_am (a 0) (r 1));
   mkLen "movq_mo" (fun v => let (o, a, r, n, e, j, l, s) := v in i_movq_mo (r 0) (o 1));
   mkLen "movq2dq" (fun v => let (o, a, r, n, e, j, l, s) := v in i_movq2dq (r 0) (r 1));
   mkLen "movsb" (fun v => let (o, a, r, n, e, j, l, s) := v in i_movsb);
   mkLen "movsd_none" (fun v => let (o, a, r, n, e, j, l, s) := v in i_movsd_none);
   mkLen "movsd_ax" (fun v => let (o, a, r, n, e, j, l, s) := v in i_movsd_ax (a 0) (r 1));
   mkLen "movsd_xo" (fun v => let (o, a, r, n, e, j, l, s) := v in i_movsd_xo (r 0) (o 1));
   mkLen "movshdup" (fun v => let (o, a, r, n, e, j, l, s) := v in i_movshdup (r 0) (o 1));
   mkLen "movsldup" (fun v => let (o, a, r, n, e, j, l, s) := v in i_movsldup (r 0) (o 1));
   mkLen "movss_ax" (fun v => let (o, a, r, n, e, j, l, s) := v in i_movss_ax (a 0) (r 1));
   mkLen "movss_xo" (fun v => let (o, a, r, n, e, j, l, s) := v in i_movss_xo (r 0) (o 1));
   mkLen "movsw" (fun v => let (o, a, r, n, e, j, l, s) := v in i_movsw);
   mkLen "movsx" (fun v => let (o, a, r, n, e, j, l, s) := v in i_movsx (r 0) (o 1));
   mkLen "movupd_ax" (fun v => let (o, a, r, n, e, j, l, s) := v in i_movupd_ax (a 0) (r 1));
   mkLen "movupd_xo" (fun v => let (o, a, r, n, e, j, l, s) := v in i_movupd_xo (r 0) (o 1));
   mkLen "movups_ax" (fun v => let (o, a, r, n, e, j, l, s) := v in i_movups_ax (a 0) (r 1));
   mkLen "movups_xo" (fun v => let (o, a, r, n, e, j, l, s) := v in i_movups_xo (r 0) (o 1))].
Lemma lens23_ok : Forall entry_within lens23.
Proof. unfold lens23.
row. { unfold i_movmskps. row_len. }
row. { unfold i_movmskpd, i_movmskps. row_len. }
row. { unfold i_movntdq. row_len. }
row. { unfold i_movntdqa. row_len. }
row. { unfold i_movnti. row_len. }
row. { unfold i_movntpd. row_len. }
row. { unfold i_movntps. row_len. }
row. { unfold i_movntq. row_len. }
row. { unfold i_movq_am. row_len. }
row. { unfold i_movq_mo. row_len. }
row. { unfold i_movq2dq. row_len. }
row. { unfold i_movsb. row_len. }
row. { unfold i_movsd_none. row_len. }
row. { unfold i_movsd_ax. row_len. }
row. { unfold i_movsd_xo. row_len. }
row. { unfold i_movshdup. row_len. }
row. { unfold i_movsldup. row_len. }
row. { unfold i_movss_ax. row_len. }
row. { unfold i_movss_xo. row_len. }
row. { unfold i_movsw. row_len. }
row. { unfold i_movsx. row_len. }
row. { unfold i_movupd_ax. row_len. }
row. { unfold i_movupd_xo. row_len. }
row. { unfold i_movups_ax. row_len. }
row. { unfold i_movups_xo. row_len. }
apply Forall_nil. Qed.
Definition lens24 : list len_entry :=
  [mkLen "movzx" (fun v => let (o, a, r, n, e, j, l, s) := v in i_movzx (r 0) (o 1));
   mkLen "mpsadbw" (fun v => let (o, a, r, n, e, j, l, s) := v in i_mpsadbw (r 0) (o 1) (n 2));
   mkLen "mul" (fun v => let (o, a, r, n, e, j, l, s) := v in i_mul (o 0));
   mkLen "mulpd" (fun v => let (o, a, r, n, e, j, l, s) := v in i_mulpd (r 0) (o 1));
   mkLen "mulps" (fun v => let (o, a, r, n, e, j, l, s) := v in i_mulps (r 0) (o 1));
   mkLen "mulsd" (fun v => let (o, a, r, n, e, j, l, s) := v in i_mulsd (r 0) (o 1));
   mkLen "mulss" (fun v => let (o, a, r, n, e, j, l, s) := v in i_mulss (r 0) (o 1));
   mkLen "mulx" (fun v => let (o, a, r, n, e, j, l, s) := v in i_mulx (r 0) (r 1) (o 2));
   mkLen "mwait" (fun v => let (o, a, r, n, e, j, l, s) := v in i_mwait);
   mkLen "mwaitx" (fun v => let (o, a, r, n, e, j, l, s) := v in i_mwaitx);
   mkLen "neg_o" (fun v => let (o, a, r, n, e, j, l, s) := v in i_neg_o (o 0));
   mkLen "neg_ro" (fun v => let (o, a, r, n, e, j, l, s) := v in i_neg_ro (r 0) (o 1));
   mkLen "not__o" (fun v => let (o, a, r, n, e, j, l, s) := v in i_not__o (o 0));
   mkLen "not__ro" (fun v => let (o, a, r, n, e, j, l, s) := v in i_not__ro (r 0) (o 1));
   mkLen "or__oi" (fun v => let (o, a, r, n, e, j, l, s) := v in i_or__oi (o 0) (n 1));
   mkLen "or__oo" (fun v => let (o, a, r, n, e, j, l, s) := v in i_or__oo (o 0) (o 1));
   mkLen "or__roi" (fun v => let (o, a, r, n, e, j, l, s) := v in i_or__roi (r 0) (o 1) (n 2));
   mkLen "or__roo" (fun v => let (o, a, r, n, e, j, l, s) := v in i_or__roo (r 0) (o 1) (o 2));
   mkLen "orpd" (fun v => let (o, a, r, n, e, j, l, s) := v in i_orpd (r 0) (o 1));
   mkLen "orps" (fun v => let (o, a, r, n, e, j, l, s) := v in i_orps (r 0) (o 1));
   mkLen "out__rr" (fun v => let (o, a, r, n, e, j, l, s) := v in i_out__rr (r 0) (r 1));
   mkLen "out__ir" (fun v => let (o, a, r, n, e, j, l, s) := v in i_out__ir (n 0) (r 1));
   mkLen "outsb" (fun v => let (o, a, r, n, e, j, l, s) := v in i_outsb);
   mkLen "outsd" (fun v => let (o, a, r, n, e, j, l, s) := v in i_outsd);
   mkLen "outsw" (fun v => let (o, a, r, n, e, j, l, s) := v in i_outsw)].
Lemma lens24_ok : Forall entry_within lens24.
Proof. unfold lens24.
row. { unfold i_movzx. row_len. }
row. { unfold i_mpsadbw. row_len. }
row. { unfold i_mul. row_len. }
row. { unfold i_mulpd. row_len. }
row. { unfold i_mulps. row_len. }
row. { unfold i_mulsd. row_len. }
row. { unfold i_mulss. row_len. }
row. { unfold i_mulx. row_len. }
row. { unfold i_mwait. row_len. }
row. { unfold i_mwaitx. row_len. }
row. { unfold i_neg_o. row_len. }
row. { unfold i_neg_ro. row_len. }
row. { unfold i_not__o. row_len. }
row. { unfold i_not__ro. row_len. }
row. { unfold i_or__oi. row_len. }
row. { unfold i_or__oo. row_len. }
row. { unfold i_or__roi. row_len. }
row. { unfold i_or__roo. row_len. }
row. { unfold i_orpd. row_len. }
row. { unfold i_orps. row_len. }
row. { unfold i_out__rr. row_len. }
row. { unfold i_out__ir. row_len. }
row. { unfold i_outsb. row_len. }
row. { unfold i_outsd. row_len. }
row. { unfold i_outsw. row_len. }
apply Forall_nil. Qed.
Definition lens25 : list len_entry :=
  [mkLen "pabsb" (fun v => let (o, a, r, n, e, j, l, s) := v in i_pabsb (r 0) (o 1));
   mkLen "pabsd" (fun v => let (o, a, r, n, e, j, l, s) := v in i_pabsd (r 0) (o 1));
   mkLen "pabsw" (fun v => let (o, a, r, n, e, j, l, s) := v in i_pabsw (r 0) (o 1));
   mkLen "packssdw" (fun v => let (o, a, r, n, e, j, l, s) := v in i_packssdw (r 0) (o 1));
   mkLen "packsswb" (fun v => let (o, a, r, n, e, j, l, s) := v in i_packsswb (r 0) (o 1));
   mkLen "packusdw" (fun v => let (o, a, r, n, e, j, l, s) := v in i_packusdw (r 0) (o 1));
   mkLen "packuswb" (fun v => let (o, a, r, n, e, j, l, s) := v in i_packuswb (r 0) (o 1));
   mkLen "paddb" (fun v => let (o, a, r, n, e, j, l, s) := v in i_paddb (r 0) (o 1));
   mkLen "paddd" (fun v => let (o, a, r, n, e, j, l, s) := v in i_paddd (r 0) (o 1));
   mkLen "paddq" (fun v => let (o, a, r, n, e, j, l, s) := v in i_paddq (r 0) (o 1));
   mkLen "paddsb" (fun v => let (o, a, r, n, e, j, l, s) := v in i_paddsb (r 0) (o 1));
   mkLen "paddsw" (fun v => let (o, a, r, n, e, j, l, s) := v in i_paddsw (r 0) (o 1));
   mkLen "paddusb" (fun v => let (o, a, r, n, e, j, l, s) := v in i_paddusb (r 0) (o 1));
   mkLen "paddusw" (fun v => let (o, a, r, n, e, j, l, s) := v in i_paddusw (r 0) (o 1));
   mkLen "paddw" (fun v => let (o, a, r, n, e, j, l, s) := v in i_paddw (r 0) (o 1));
   mkLen "palignr" (fun v => let (o, a, r, n, e, j, l, s) := v in i_palignr (r 0) (o 1) (n 2));
   mkLen "pand" (fun v => let (o, a, r, n, e, j, l, s) := v in i_pand (r 0) (o 1));
   mkLen "pandn" (fun v => let (o, a, r, n, e, j, l, s) := v in i_pandn (r 0) (o 1));
   mkLen "pause" (fun v => let (o, a, r, n, e, j, l, s) := v in i_pause);
   mkLen "pavgb" (fun v => let (o, a, r, n, e, j, l, s) := v in i_pavgb (r 0) (o 1));
   mkLen "pavgw" (fun v => let (o, a, r, n, e, j, l, s) := v in i_pavgw (r 0) (o 1));
   mkLen "pblendvb" (fun v => let (o, a, r, n, e, j, l, s) := v in i_pblendvb (r 0) (o 1));
   mkLen "pblendw" (fun v => let (o, a, r, n, e, j, l, s) := v in i_pblendw (r 0) (o 1) (n 2));
   mkLen "pclmulqdq" (fun v => let (o, a, r, n, e, j, l, s) := v in i_pclmulqdq (r 0) (o 1) (n 2));
   mkLen "pclmulhqhqdq" (fun v => let (o, a, r, n, e, j, l, s) := v in i_pclmulhqhqdq (r 0) (o 1))].
Lemma lens25_ok : Forall entry_within lens25.
Proof. unfold lens25.
row. { unfold i_pabsb. row_len. }
row. { unfold i_pabsd. row_len. }
row. { unfold i_pabsw. row_len. }
row. { unfold i_packssdw. row_len. }
row. { unfold i_packsswb. row_len. }
row. { unfold i_packusdw. row_len. }
row. { unfold i_packuswb. row_len. }
row. { unfold i_paddb. row_len. }
row. { unfold i_paddd. row_len. }
row. { unfold i_paddq. row_len. }
row. { unfold i_paddsb. row_len. }
row. { unfold i_paddsw. row_len. }
row. { unfold i_paddusb. row_len. }
row. { unfold i_paddusw. row_len. }
row. { unfold i_paddw. row_len. }
row. { unfold i_palignr. row_len. }
row. { unfold i_pand. row_len. }
row. { unfold i_pandn. row_len. }
row. { unfold i_pause. row_len. }
row. { unfold i_pavgb. row_len. }
row. { unfold i_pavgw. row_len. }
row. { unfold i_pblendvb. row_len. }
row. { unfold i_pblendw. row_len. }
row. { unfold i_pclmulqdq. row_len. }
row. { unfold i_pclmulhqhqdq, i_pclmulqdq. row_len. }
apply Forall_nil. Qed.
Definition lens26 : list len_entry :=
  [mkLen "pclmulhqlqdq" (fun v => let (o, a, r, n, e, j, l, s) := v in i_pclmulhqlqdq (r 0) (o 1));
   mkLen "pclmullqhqdq" (fun v => let (o, a, r, n, e, j, l, s) := v in i_pclmullqhqdq (r 0) (o 1));
   mkLen "pclmullqlqdq" (fun v => let (o, a, r, n, e, j, l, s) := v in i_pclmullqlqdq (r 0) (o 1));
   mkLen "pcmpeqb" (fun v => let (o, a, r, n, e, j, l, s) := v in i_pcmpeqb (r 0) (o 1));
   mkLen "pcmpeqd" (fun v => let (o, a, r, n, e, j, l, s) := v in i_pcmpeqd (r 0) (o 1));
   mkLen "pcmpeqq" (fun v => let (o, a, r, n, e, j, l, s) := v in i_pcmpeqq (r 0) (o 1));
   mkLen "pcmpeqw" (fun v => let (o, a, r, n, e, j, l, s) := v in i_pcmpeqw (r 0) (o 1));
   mkLen "pcmpestri" (fun v => let (o, a, r, n, e, j, l, s) := v in i_pcmpestri (r 0) (o 1) (n 2));
   mkLen "pcmpestrm" (fun v => let (o, a, r, n, e, j, l, s) := v in i_pcmpestrm (r 0) (o 1) (n 2));
   mkLen "pcmpgtb" (fun v => let (o, a, r, n, e, j, l, s) := v in i_pcmpgtb (r 0) (o 1));
   mkLen "pcmpgtd" (fun v => let (o, a, r, n, e, j, l, s) := v in i_pcmpgtd (r 0) (o 1));
   mkLen "pcmpgtq" (fun v => let (o, a, r, n, e, j, l, s) := v in i_pcmpgtq (r 0) (o 1));
   mkLen "pcmpgtw" (fun v => let (o, a, r, n, e, j, l, s) := v in i_pcmpgtw (r 0) (o 1));
   mkLen "pcmpistri" (fun v => let (o, a, r, n, e, j, l, s) := v in i_pcmpistri (r 0) (o 1) (n 2));
   mkLen "pcmpistrm" (fun v => let (o, a, r, n, e, j, l, s) := v in i_pcmpistrm (r 0) (o 1) (n 2));
   mkLen "pdep" (fun v => let (o, a, r, n, e, j, l, s) := v in i_pdep (r 0) (r 1) (o 2));
   mkLen "pext" (fun v => let (o, a, r, n, e, j, l, s) := v in i_pext (r 0) (r 1) (o 2));
   mkLen "pextrb" (fun v => let (o, a, r, n, e, j, l, s) := v in i_pextrb (o 0) (r 1) (n 2));
   mkLen "pextrd" (fun v => let (o, a, r, n, e, j, l, s) := v in i_pextrd (o 0) (r 1) (n 2));
   mkLen "pextrw" (fun v => let (o, a, r, n, e, j, l, s) := v in i_pextrw (o 0) (r 1) (n 2));
   mkLen "phaddd" (fun v => let (o, a, r, n, e, j, l, s) := v in i_phaddd (r 0) (o 1));
   mkLen "phaddsw" (fun v => let (o, a, r, n, e, j, l, s) := v in i_phaddsw (r 0) (o 1));
   mkLen "phaddw" (fun v => let (o, a, r, n, e, j, l, s) := v in i_phaddw (r 0) (o 1));
   mkLen "phminposuw" (fun v => let (o, a, r, n, e, j, l, s) := v in i_phminposuw (r 0) (o 1));
   mkLen "phsubd" (fun v => let (o, a, r, n, e, j, l, s) := v in i_phsubd (r 0) (o 1))].
Lemma lens26_ok : Forall entry_within lens26.
Proof. unfold lens26.
row. { unfold i_pclmulhqlqdq, i_pclmulqdq. row_len. }
row. { unfold i_pclmullqhqdq, i_pclmulqdq. row_len. }
row. { unfold i_pclmullqlqdq, i_pclmulqdq. row_len. }
row. { unfold i_pcmpeqb. row_len. }
row. { unfold i_pcmpeqd. row_len. }
row. { unfold i_pcmpeqq. row_len. }
row. { unfold i_pcmpeqw. row_len. }
row. { unfold i_pcmpestri. row_len. }
row. { unfold i_pcmpestrm. row_len. }
row. { unfold i_pcmpgtb. row_len. }
row. { unfold i_pcmpgtd. row_len. }
row. { unfold i_pcmpgtq. row_len. }
row. { unfold i_pcmpgtw. row_len. }
row. { unfold i_pcmpistri. row_len. }
row. { unfold i_pcmpistrm. row_len. }
row. { unfold i_pdep. row_len. }
row. { unfold i_pext. row_len. }
row. { unfold i_pextrb. row_len. }
row. { unfold i_pextrd. row_len. }
row. { unfold i_pextrw. row_len. }
row. { unfold i_phaddd. row_len. }
row. { unfold i_phaddsw. row_len. }
row. { unfold i_phaddw. row_len. }
row. { unfold i_phminposuw. row_len. }
row. { unfold i_phsubd. row_len. }
apply Forall_nil. Qed.
Definition lens27 : list len_entry :=
  [mkLen "phsubsw" (fun v => let (o, a, r, n, e, j, l, s) := v in i_phsubsw (r 0) (o 1));
   mkLen "phsubw" (fun v => let (o, a, r, n, e, j, l, s) := v in i_phsubw (r 0) (o 1));
   mkLen "pinsrb" (fun v => let (o, a, r, n, e, j, l, s) := v in i_pinsrb (r 0) (o 1) (n 2));
   mkLen "pinsrd" (fun v => let (o, a, r, n, e, j, l, s) := v in i_pinsrd (r 0) (o 1) (n 2));
   mkLen "pinsrw" (fun v => let (o, a, r, n, e, j, l, s) := v in i_pinsrw (r 0) (o 1) (n 2));
   mkLen "pmaddubsw" (fun v => let (o, a, r, n, e, j, l, s) := v in i_pmaddubsw (r 0) (o 1));
   mkLen "pmaddwd" (fun v => let (o, a, r, n, e, j, l, s) := v in i_pmaddwd (r 0) (o 1));
   mkLen "pmaxsb" (fun v => let (o, a, r, n, e, j, l, s) := v in i_pmaxsb (r 0) (o 1));
   mkLen "pmaxsd" (fun v => let (o, a, r, n, e, j, l, s) := v in i_pmaxsd (r 0) (o 1));
   mkLen "pmaxsw" (fun v => let (o, a, r, n, e, j, l, s) := v in i_pmaxsw (r 0) (o 1));
   mkLen "pmaxub" (fun v => let (o, a, r, n, e, j, l, s) := v in i_pmaxub (r 0) (o 1));
   mkLen "pmaxud" (fun v => let (o, a, r, n, e, j, l, s) := v in i_pmaxud (r 0) (o 1));
   mkLen "pmaxuw" (fun v => let (o, a, r, n, e, j, l, s) := v in i_pmaxuw (r 0) (o 1));
   mkLen "pminsb" (fun v => let (o, a, r, n, e, j, l, s) := v in i_pminsb (r 0) (o 1));
   mkLen "pminsd" (fun v => let (o, a, r, n, e, j, l, s) := v in i_pminsd (r 0) (o 1));
   mkLen "pminsw" (fun v => let (o, a, r, n, e, j, l, s) := v in i_pminsw (r 0) (o 1));
   mkLen "pminub" (fun v => let (o, a, r, n, e, j, l, s) := v in i_pminub (r 0) (o 1));
   mkLen "pminud" (fun v => let (o, a, r, n, e, j, l, s) := v in i_pminud (r 0) (o 1));
   mkLen "pminuw" (fun v => let (o, a, r, n, e, j, l, s) := v in i_pminuw (r 0) (o 1));
   mkLen "pmovmskb" (fun v => let (o, a, r, n, e, j, l, s) := v in i_pmovmskb (r 0) (r 1));
   mkLen "pmovsxbd" (fun v => let (o, a, r, n, e, j, l, s) := v in i_pmovsxbd (r 0) (o 1));
   mkLen "pmovsxbq" (fun v => let (o, a, r, n, e, j, l, s) := v in i_pmovsxbq (r 0) (o 1));
   mkLen "pmovsxbw" (fun v => let (o, a, r, n, e, j, l, s) := v in i_pmovsxbw (r 0) (o 1));
   mkLen "pmovsxdq" (fun v => let (o, a, r, n, e, j, l, s) := v in i_pmovsxdq (r 0) (o 1));
   mkLen "pmovsxwd" (fun v => let (o, a, r, n, e, j, l, s) := v in i_pmovsxwd (r 0) (o 1))].
Lemma lens27_ok : Forall entry_within lens27.
Proof. unfold lens27.
row. { unfold i_phsubsw. row_len. }
row. { unfold i_phsubw. row_len. }
row. { unfold i_pinsrb. row_len. }
row. { unfold i_pinsrd. row_len. }
row. { unfold i_pinsrw. row_len. }
row. { unfold i_pmaddubsw. row_len. }
row. { unfold i_pmaddwd. row_len. }
row. { unfold i_pmaxsb. row_len. }
row. { unfold i_pmaxsd. row_len. }
row. { unfold i_pmaxsw. row_len. }
row. { unfold i_pmaxub. row_len. }
row. { unfold i_pmaxud. row_len. }
row. { unfold i_pmaxuw. row_len. }
row. { unfold i_pminsb. row_len. }
row. { unfold i_pminsd. row_len. }
row. { unfold i_pminsw. row_len. }
row. { unfold i_pminub. row_len. }
row. { unfold i_pminud. row_len. }
row. { unfold i_pminuw. row_len. }
row. { unfold i_pmovmskb. row_len. }
row. { unfold i_pmovsxbd. row_len. }
row. { unfold i_pmovsxbq. row_len. }
row. { unfold i_pmovsxbw. row_len. }
row. { unfold i_pmovsxdq. row_len. }
row. { unfold i_pmovsxwd. row_len. }
apply Forall_nil. Qed.
Definition lens28 : list len_entry :=
  [mkLen "pmovsxwq" (fun v => let (o, a, r, n, e, j, l, s) := v in i_pmovsxwq (r 0) (o 1));
   mkLen "pmovzxbd" (fun v => let (o, a, r, n, e, j, l, s) := v in i_pmovzxbd (r 0) (o 1));
   mkLen "pmovzxbq" (fun v => let (o, a, r, n, e, j, l, s) := v in i_pmovzxbq (r 0) (o 1));
   mkLen "pmovzxbw" (fun v => let (o, a, r, n, e, j, l, s) := v in i_pmovzxbw (r 0) (o 1));
   mkLen "pmovzxdq" (fun v => let (o, a, r, n, e, j, l, s) := v in i_pmovzxdq (r 0) (o 1));
   mkLen "pmovzxwd" (fun v => let (o, a, r, n, e, j, l, s) := v in i_pmovzxwd (r 0) (o 1));
   mkLen "pmovzxwq" (fun v => let (o, a, r, n, e, j, l, s) := v in i_pmovzxwq (r 0) (o 1));
   mkLen "pmuldq" (fun v => let (o, a, r, n, e, j, l, s) := v in i_pmuldq (r 0) (o 1));
   mkLen "pmulhrsw" (fun v => let (o, a, r, n, e, j, l, s) := v in i_pmulhrsw (r 0) (o 1));
   mkLen "pmulhuw" (fun v => let (o, a, r, n, e, j, l, s) := v in i_pmulhuw (r 0) (o 1));
   mkLen "pmulhw" (fun v => let (o, a, r, n, e, j, l, s) := v in i_pmulhw (r 0) (o 1));
   mkLen "pmulld" (fun v => let (o, a, r, n, e, j, l, s) := v in i_pmulld (r 0) (o 1));
   mkLen "pmullw" (fun v => let (o, a, r, n, e, j, l, s) := v in i_pmullw (r 0) (o 1));
   mkLen "pmuludq" (fun v => let (o, a, r, n, e, j, l, s) := v in i_pmuludq (r 0) (o 1));
   mkLen "popcnt" (fun v => let (o, a, r, n, e, j, l, s) := v in i_popcnt (r 0) (o 1));
   mkLen "popf" (fun v => let (o, a, r, n, e, j, l, s) := v in i_popf);
   mkLen "por" (fun v => let (o, a, r, n, e, j, l, s) := v in i_por (r 0) (o 1));
   mkLen "prefetchit0" (fun v => let (o, a, r, n, e, j, l, s) := v in i_prefetchit0 (a 0));
   mkLen "prefetchit1" (fun v => let (o, a, r, n, e, j, l, s) := v in i_prefetchit1 (a 0));
   mkLen "prefetchnta" (fun v => let (o, a, r, n, e, j, l, s) := v in i_prefetchnta (a 0));
   mkLen "prefetcht0" (fun v => let (o, a, r, n, e, j, l, s) := v in i_prefetcht0 (a 0));
   mkLen "prefetcht1" (fun v => let (o, a, r, n, e, j, l, s) := v in i_prefetcht1 (a 0));
   mkLen "prefetcht2" (fun v => let (o, a, r, n, e, j, l, s) := v in i_prefetcht2 (a 0));
   mkLen "prefetchw" (fun v => let (o, a, r, n, e, j, l, s) := v in i_prefetchw (a 0));
   mkLen "prefetchwt1" (fun v => let (o, a, r, n, e, j, l, s) := v in i_prefetchwt1 (a 0))].
Lemma lens28_ok : Forall entry_within lens28.
Proof. unfold lens28.
row. { unfold i_pmovsxwq. row_len. }
row. { unfold i_pmovzxbd. row_len. }
row. { unfold i_pmovzxbq. row_len. }
row. { unfold i_pmovzxbw. row_len. }
row. { unfold i_pmovzxdq. row_len. }
row. { unfold i_pmovzxwd. row_len. }
row. { unfold i_pmovzxwq. row_len. }
row. { unfold i_pmuldq. row_len. }
row. { unfold i_pmulhrsw. row_len. }
row. { unfold i_pmulhuw. row_len. }
row. { unfold i_pmulhw. row_len. }
row. { unfold i_pmulld. row_len. }
row. { unfold i_pmullw. row_len. }
row. { unfold i_pmuludq. row_len. }
row. { unfold i_popcnt. row_len. }
row. { unfold i_popf. row_len. }
row. { unfold i_por. row_len. }
row. { unfold i_prefetchit0. row_len. }
row. { unfold i_prefetchit1. row_len. }
row. { unfold i_prefetchnta. row_len. }
row. { unfold i_prefetcht0. row_len. }
row. { unfold i_prefetcht1. row_len. }
row. { unfold i_prefetcht2. row_len. }
row. { unfold i_prefetchw. row_len. }
row. { unfold i_prefetchwt1. row_len. }
apply Forall_nil. Qed.
Definition lens29 : list len_entry :=
  [mkLen "psadbw" (fun v => let (o, a, r, n, e, j, l, s) := v in i_psadbw (r 0) (o 1));
   mkLen "pshufb" (fun v => let (o, a, r, n, e, j, l, s) := v in i_pshufb (r 0) (o 1));
   mkLen "pshufd" (fun v => let (o, a, r, n, e, j, l, s) := v in i_pshufd (r 0) (o 1) (n 2));
   mkLen "pshufhw" (fun v => let (o, a, r, n, e, j, l, s) := v in i_pshufhw (r 0) (o 1) (n 2));
   mkLen "pshuflw" (fun v => let (o, a, r, n, e, j, l, s) := v in i_pshuflw (r 0) (o 1) (n 2));
   mkLen "pshufw" (fun v => let (o, a, r, n, e, j, l, s) := v in i_pshufw (r 0) (o 1) (n 2));
   mkLen "psignb" (fun v => let (o, a, r, n, e, j, l, s) := v in i_psignb (r 0) (o 1));
   mkLen "psignd" (fun v => let (o, a, r, n, e, j, l, s) := v in i_psignd (r 0) (o 1));
   mkLen "psignw" (fun v => let (o, a, r, n, e, j, l, s) := v in i_psignw (r 0) (o 1));
   mkLen "pslld_mo" (fun v => let (o, a, r, n, e, j, l, s) := v in i_pslld_mo (r 0) (o 1));
   mkLen "pslld_mi" (fun v => let (o, a, r, n, e, j, l, s) := v in i_pslld_mi (r 0) (n 1));
   mkLen "pslldq" (fun v => let (o, a, r, n, e, j, l, s) := v in i_pslldq (r 0) (n 1));
   mkLen "psllq_mo" (fun v => let (o, a, r, n, e, j, l, s) := v in i_psllq_mo (r 0) (o 1));
   mkLen "psllq_mi" (fun v => let (o, a, r, n, e, j, l, s) := v in i_psllq_mi (r 0) (n 1));
   mkLen "psllw_mo" (fun v => let (o, a, r, n, e, j, l, s) := v in i_psllw_mo (r 0) (o 1));
   mkLen "psllw_mi" (fun v => let (o, a, r, n, e, j, l, s) := v in i_psllw_mi (r 0) (n 1));
   mkLen "psrad_mo" (fun v => let (o, a, r, n, e, j, l, s) := v in i_psrad_mo (r 0) (o 1));
   mkLen "psrad_mi" (fun v => let (o, a, r, n, e, j, l, s) := v in i_psrad_mi (r 0) (n 1));
   mkLen "psraw_mo" (fun v => let (o, a, r, n, e, j, l, s) := v in i_psraw_mo (r 0) (o 1));
   mkLen "psraw_mi" (fun v => let (o, a, r, n, e, j, l, s) := v in i_psraw_mi (r 0) (n 1));
   mkLen "psrld_mo" (fun v => let (o, a, r, n, e, j, l, s) := v in i_psrld_mo (r 0) (o 1));
   mkLen "psrld_mi" (fun v => let (o, a, r, n, e, j, l, s) := v in i_psrld_mi (r 0) (n 1));
   mkLen "psrldq" (fun v => let (o, a, r, n, e, j, l, s) := v in i_psrldq (r 0) (n 1));
   mkLen "psrlq_mo" (fun v => let (o, a, r, n, e, j, l, s) := v in i_psrlq_mo (r 0) (o 1));
   mkLen "psrlq_mi" (fun v => let (o, a, r, n, e, j, l, s) := v in i_psrlq_mi (r 0) (n 1))].
Lemma lens29_ok : Forall entry_within lens29.
Proof. unfold lens29.
row. { unfold i_psadbw. row_len. }
row. { unfold i_pshufb. row_len. }
row. { unfold i_pshufd. row_len. }
row. { unfold i_pshufhw. row_len. }
row. { unfold i_pshuflw. row_len. }
row. { unfold i_pshufw. row_len. }
row. { unfold i_psignb. row_len. }
row. { unfold i_psignd. row_len. }
row. { unfold i_psignw. row_len. }
row. { unfold i_pslld_mo. row_len. }
row. { unfold i_pslld_mi. row_len. }
row. { unfold i_pslldq. row_len. }
row. { unfold i_psllq_mo. row_len. }
row. { unfold i_psllq_mi. row_len. }
row. { unfold i_psllw_mo. row_len. }
row. { unfold i_psllw_mi. row_len. }
row. { unfold i_psrad_mo. row_len. }
row. { unfold i_psrad_mi. row_len. }
row. { unfold i_psraw_mo. row_len. }
row. { unfold i_psraw_mi. row_len. }
row. { unfold i_psrld_mo. row_len. }
row. { unfold i_psrld_mi. row_len. }
row. { unfold i_psrldq. row_len. }
row. { unfold i_psrlq_mo. row_len. }
row. { unfold i_psrlq_mi. row_len. }
apply Forall_nil. Qed.
Definition lens30 : list len_entry :=
  [mkLen "psrlw_mo" (fun v => let (o, a, r, n, e, j, l, s) := v in i_psrlw_mo (r 0) (o 1));
   mkLen "psrlw_mi" (fun v => let (o, a, r, n, e, j, l, s) := v in i_psrlw_mi (r 0) (n 1));
   mkLen "psubb" (fun v => let (o, a, r, n, e, j, l, s) := v in i_psubb (r 0) (o 1));
   mkLen "psubd" (fun v => let (o, a, r, n, e, j, l, s) := v in i_psubd (r 0) (o 1));
   mkLen "psubq" (fun v => let (o, a, r, n, e, j, l, s) := v in i_psubq (r 0) (o 1));
   mkLen "psubsb" (fun v => let (o, a, r, n, e, j, l, s) := v in i_psubsb (r 0) (o 1));
   mkLen "psubsw" (fun v => let (o, a, r, n, e, j, l, s) := v in i_psubsw (r 0) (o 1));
   mkLen "psubusb" (fun v => let (o, a, r, n, e, j, l, s) := v in i_psubusb (r 0) (o 1));
   mkLen "psubusw" (fun v => let (o, a, r, n, e, j, l, s) := v in i_psubusw (r 0) (o 1));
   mkLen "psubw" (fun v => let (o, a, r, n, e, j, l, s) := v in i_psubw (r 0) (o 1));
   mkLen "ptest" (fun v => let (o, a, r, n, e, j, l, s) := v in i_ptest (r 0) (o 1));
   mkLen "punpckhbw" (fun v => let (o, a, r, n, e, j, l, s) := v in i_punpckhbw (r 0) (o 1));
   mkLen "punpckhdq" (fun v => let (o, a, r, n, e, j, l, s) := v in i_punpckhdq (r 0) (o 1));
   mkLen "punpckhqdq" (fun v => let (o, a, r, n, e, j, l, s) := v in i_punpckhqdq (r 0) (o 1));
   mkLen "punpckhwd" (fun v => let (o, a, r, n, e, j, l, s) := v in i_punpckhwd (r 0) (o 1));
   mkLen "punpcklbw" (fun v => let (o, a, r, n, e, j, l, s) := v in i_punpcklbw (r 0) (o 1));
   mkLen "punpckldq" (fun v => let (o, a, r, n, e, j, l, s) := v in i_punpckldq (r 0) (o 1));
   mkLen "punpcklqdq" (fun v => let (o, a, r, n, e, j, l, s) := v in i_punpcklqdq (r 0) (o 1));
   mkLen "punpcklwd" (fun v => let (o, a, r, n, e, j, l, s) := v in i_punpcklwd (r 0) (o 1));
   mkLen "pushf" (fun v => let (o, a, r, n, e, j, l, s) := v in i_pushf);
   mkLen "pxor" (fun v => let (o, a, r, n, e, j, l, s) := v in i_pxor (r 0) (o 1));
   mkLen "rcl_ob" (fun v => let (o, a, r, n, e, j, l, s) := v in i_rcl_ob (o 0) (r 1));
   mkLen "rcl_oi" (fun v => let (o, a, r, n, e, j, l, s) := v in i_rcl_oi (o 0) (n 1));
   mkLen "rcl_rob" (fun v => let (o, a, r, n, e, j, l, s) := v in i_rcl_rob (r 0) (o 1) (r 2));
   mkLen "rcl_roi" (fun v => let (o, a, r, n, e, j, l, s) := v in i_rcl_roi (r 0) (o 1) (n 2))].
Lemma lens30_ok : Forall entry_within lens30.
Proof. unfold lens30.
row. { unfold i_psrlw_mo. row_len. }
row. { unfold i_psrlw_mi. row_len. }
row. { unfold i_psubb. row_len. }
row. { unfold i_psubd. row_len. }
row. { unfold i_psubq. row_len. }
row. { unfold i_psubsb. row_len. }
row. { unfold i_psubsw. row_len. }
row. { unfold i_psubusb. row_len. }
row. { unfold i_psubusw. row_len. }
row. { unfold i_psubw. row_len. }
row. { unfold i_ptest. row_len. }
row. { unfold i_punpckhbw. row_len. }
row. { unfold i_punpckhdq. row_len. }
row. { unfold i_punpckhqdq. row_len. }
row. { unfold i_punpckhwd. row_len. }
row. { unfold i_punpcklbw. row_len. }
row. { unfold i_punpckldq. row_len. }
row. { unfold i_punpcklqdq. row_len. }
row. { unfold i_punpcklwd. row_len. }
row. { unfold i_pushf. row_len. }
row. { unfold i_pxor. row_len. }
row. { unfold i_rcl_ob. row_len. }
row. { unfold i_rcl_oi. row_len. }
row. { unfold i_rcl_rob. row_len. }
row. { unfold i_rcl_roi. row_len. }
apply Forall_nil. Qed.
Definition lens31 : list len_entry :=
  [mkLen "rcpps" (fun v => let (o, a, r, n, e, j, l, s) := v in i_rcpps (r 0) (o 1));
   mkLen "rcpss" (fun v => let (o, a, r, n, e, j, l, s) := v in i_rcpss (r 0) (o 1));
   mkLen "rcr_ob" (fun v => let (o, a, r, n, e, j, l, s) := v in i_rcr_ob (o 0) (r 1));
   mkLen "rcr_oi" (fun v => let (o, a, r, n, e, j, l, s) := v in i_rcr_oi (o 0) (n 1));
   mkLen "rcr_rob" (fun v => let (o, a, r, n, e, j, l, s) := v in i_rcr_rob (r 0) (o 1) (r 2));
   mkLen "rcr_roi" (fun v => let (o, a, r, n, e, j, l, s) := v in i_rcr_roi (r 0) (o 1) (n 2));
   mkLen "rdmsr" (fun v => let (o, a, r, n, e, j, l, s) := v in i_rdmsr);
   mkLen "rdpmc" (fun v => let (o, a, r, n, e, j, l, s) := v in i_rdpmc);
   mkLen "rdrand" (fun v => let (o, a, r, n, e, j, l, s) := v in i_rdrand (r 0));
   mkLen "rdseed" (fun v => let (o, a, r, n, e, j, l, s) := v in i_rdseed (r 0));
   mkLen "rdtsc" (fun v => let (o, a, r, n, e, j, l, s) := v in i_rdtsc);
   mkLen "rdtscp" (fun v => let (o, a, r, n, e, j, l, s) := v in i_rdtscp);
   mkLen "rep" (fun v => let (o, a, r, n, e, j, l, s) := v in i_rep);
   mkLen "repe" (fun v => let (o, a, r, n, e, j, l, s) := v in i_repe);
   mkLen "repne" (fun v => let (o, a, r, n, e, j, l, s) := v in i_repne);
   mkLen "repnz" (fun v => let (o, a, r, n, e, j, l, s) := v in i_repnz);
   mkLen "repz" (fun v => let (o, a, r, n, e, j, l, s) := v in i_repz);
   mkLen "ret" (fun v => let (o, a, r, n, e, j, l, s) := v in i_ret (n 0));
   mkLen "retf" (fun v => let (o, a, r, n, e, j, l, s) := v in i_retf (n 0));
   mkLen "rol_ob" (fun v => let (o, a, r, n, e, j, l, s) := v in i_rol_ob (o 0) (r 1));
   mkLen "rol_oi" (fun v => let (o, a, r, n, e, j, l, s) := v in i_rol_oi (o 0) (n 1));
   mkLen "rol_rob" (fun v => let (o, a, r, n, e, j, l, s) := v in i_rol_rob (r 0) (o 1) (r 2));
   mkLen "rol_roi" (fun v => let (o, a, r, n, e, j, l, s) := v in i_rol_roi (r 0) (o 1) (n 2));
   mkLen "ror_ob" (fun v => let (o, a, r, n, e, j, l, s) := v in i_ror_ob (o 0) (r 1));
   mkLen "ror_oi" (fun v => let (o, a, r, n, e, j, l, s) := v in i_ror_oi (o 0) (n 1))].
Lemma lens31_ok : Forall entry_within lens31.
Proof. unfold lens31.
row. { unfold i_rcpps. row_len. }
row. { unfold i_rcpss. row_len. }
row. { unfold i_rcr_ob. row_len. }
row. { unfold i_rcr_oi. row_len. }
row. { unfold i_rcr_rob. row_len. }
row. { unfold i_rcr_roi. row_len. }
row. { unfold i_rdmsr. row_len. }
row. { unfold i_rdpmc. row_len. }
row. { unfold i_rdrand. row_len. }
row. { unfold i_rdseed. row_len. }
row. { unfold i_rdtsc. row_len. }
row. { unfold i_rdtscp. row_len. }
row. { unfold i_rep. row_len. }
row. { unfold i_repe. row_len. }
row. { unfold i_repne. row_len. }
row. { unfold i_repnz. row_len. }
row. { unfold i_repz. row_len. }
row. { unfold i_ret. row_len. }
row. { unfold i_retf. row_len. }
row. { unfold i_rol_ob. row_len. }
row. { unfold i_rol_oi. row_len. }
row. { unfold i_rol_rob. row_len. }
row. { unfold i_rol_roi. row_len. }
row. { unfold i_ror_ob. row_len. }
row. { unfold i_ror_oi. row_len. }
apply Forall_nil. Qed.
Definition lens32 : list len_entry :=
  [mkLen "ror_rob" (fun v => let (o, a, r, n, e, j, l, s) := v in i_ror_rob (r 0) (o 1) (r 2));
   mkLen "ror_roi" (fun v => let (o, a, r, n, e, j, l, s) := v in i_ror_roi (r 0) (o 1) (n 2));
   mkLen "rorx" (fun v => let (o, a, r, n, e, j, l, s) := v in i_rorx (r 0) (o 1) (n 2));
   mkLen "roundpd" (fun v => let (o, a, r, n, e, j, l, s) := v in i_roundpd (r 0) (o 1) (n 2));
   mkLen "roundps" (fun v => let (o, a, r, n, e, j, l, s) := v in i_roundps (r 0) (o 1) (n 2));
   mkLen "roundsd" (fun v => let (o, a, r, n, e, j, l, s) := v in i_roundsd (r 0) (o 1) (n 2));
   mkLen "roundss" (fun v => let (o, a, r, n, e, j, l, s) := v in i_roundss (r 0) (o 1) (n 2));
   mkLen "rsqrtps" (fun v => let (o, a, r, n, e, j, l, s) := v in i_rsqrtps (r 0) (o 1));
   mkLen "rsqrtss" (fun v => let (o, a, r, n, e, j, l, s) := v in i_rsqrtss (r 0) (o 1));
   mkLen "sahf" (fun v => let (o, a, r, n, e, j, l, s) := v in i_sahf);
   mkLen "sal_ob" (fun v => let (o, a, r, n, e, j, l, s) := v in i_sal_ob (o 0) (r 1));
   mkLen "sal_oi" (fun v => let (o, a, r, n, e, j, l, s) := v in i_sal_oi (o 0) (n 1));
   mkLen "sal_rob" (fun v => let (o, a, r, n, e, j, l, s) := v in i_sal_rob (r 0) (o 1) (r 2));
   mkLen "sal_roi" (fun v => let (o, a, r, n, e, j, l, s) := v in i_sal_roi (r 0) (o 1) (n 2));
   mkLen "sar_ob" (fun v => let (o, a, r, n, e, j, l, s) := v in i_sar_ob (o 0) (r 1));
   mkLen "sar_oi" (fun v => let (o, a, r, n, e, j, l, s) := v in i_sar_oi (o 0) (n 1));
   mkLen "sar_rob" (fun v => let (o, a, r, n, e, j, l, s) := v in i_sar_rob (r 0) (o 1) (r 2));
   mkLen "sar_roi" (fun v => let (o, a, r, n, e, j, l, s) := v in i_sar_roi (r 0) (o 1) (n 2));
   mkLen "sarx" (fun v => let (o, a, r, n, e, j, l, s) := v in i_sarx (r 0) (o 1) (r 2));
   mkLen "sbb_oi" (fun v => let (o, a, r, n, e, j, l, s) := v in i_sbb_oi (o 0) (n 1));
   mkLen "sbb_oo" (fun v => let (o, a, r, n, e, j, l, s) := v in i_sbb_oo (o 0) (o 1));
   mkLen "sbb_roi" (fun v => let (o, a, r, n, e, j, l, s) := v in i_sbb_roi (r 0) (o 1) (n 2));
   mkLen "sbb_roo" (fun v => let (o, a, r, n, e, j, l, s) := v in i_sbb_roo (r 0) (o 1) (o 2));
   mkLen "scasb" (fun v => let (o, a, r, n, e, j, l, s) := v in i_scasb);
   mkLen "scasd" (fun v => let (o, a, r, n, e, j, l, s) := v in i_scasd)].
Lemma lens32_ok : Forall entry_within lens32.
Proof. unfold lens32.
row. { unfold i_ror_rob. row_len. }
row. { unfold i_ror_roi. row_len. }
row. { unfold i_rorx. row_len. }
row. { unfold i_roundpd. row_len. }
row. { unfold i_roundps. row_len. }
row. { unfold i_roundsd. row_len. }
row. { unfold i_roundss. row_len. }
row. { unfold i_rsqrtps. row_len. }
row. { unfold i_rsqrtss. row_len. }
row. { unfold i_sahf. row_len. }
row. { unfold i_sal_ob. row_len. }
row. { unfold i_sal_oi. row_len. }
row. { unfold i_sal_rob. row_len. }
row. { unfold i_sal_roi. row_len. }
row. { unfold i_sar_ob. row_len. }
row. { unfold i_sar_oi. row_len. }
row. { unfold i_sar_rob. row_len. }
row. { unfold i_sar_roi. row_len. }
row. { unfold i_sarx. row_len. }
row. { unfold i_sbb_oi. row_len. }
row. { unfold i_sbb_oo. row_len. }
row. { unfold i_sbb_roi. row_len. }
row. { unfold i_sbb_roo. row_len. }
row. { unfold i_scasb. row_len. }
row. { unfold i_scasd. row_len. }
apply Forall_nil. Qed.
Definition lens33 : list len_entry :=
  [mkLen "scasw" (fun v => let (o, a, r, n, e, j, l, s) := v in i_scasw);
   mkLen "serialize" (fun v => let (o, a, r, n, e, j, l, s) := v in i_serialize);
   mkLen "seta" (fun v => let (o, a, r, n, e, j, l, s) := v in i_seta (o 0));
   mkLen "setae" (fun v => let (o, a, r, n, e, j, l, s) := v in i_setae (o 0));
   mkLen "setb" (fun v => let (o, a, r, n, e, j, l, s) := v in i_setb (o 0));
   mkLen "setbe" (fun v => let (o, a, r, n, e, j, l, s) := v in i_setbe (o 0));
   mkLen "setc" (fun v => let (o, a, r, n, e, j, l, s) := v in i_setc (o 0));
   mkLen "sete" (fun v => let (o, a, r, n, e, j, l, s) := v in i_sete (o 0));
   mkLen "setg" (fun v => let (o, a, r, n, e, j, l, s) := v in i_setg (o 0));
   mkLen "setge" (fun v => let (o, a, r, n, e, j, l, s) := v in i_setge (o 0));
   mkLen "setl" (fun v => let (o, a, r, n, e, j, l, s) := v in i_setl (o 0));
   mkLen "setle" (fun v => let (o, a, r, n, e, j, l, s) := v in i_setle (o 0));
   mkLen "setna" (fun v => let (o, a, r, n, e, j, l, s) := v in i_setna (o 0));
   mkLen "setnae" (fun v => let (o, a, r, n, e, j, l, s) := v in i_setnae (o 0));
   mkLen "setnb" (fun v => let (o, a, r, n, e, j, l, s) := v in i_setnb (o 0));
   mkLen "setnbe" (fun v => let (o, a, r, n, e, j, l, s) := v in i_setnbe (o 0));
   mkLen "setnc" (fun v => let (o, a, r, n, e, j, l, s) := v in i_setnc (o 0));
   mkLen "setne" (fun v => let (o, a, r, n, e, j, l, s) := v in i_setne (o 0));
   mkLen "setng" (fun v => let (o, a, r, n, e, j, l, s) := v in i_setng (o 0));
   mkLen "setnge" (fun v => let (o, a, r, n, e, j, l, s) := v in i_setnge (o 0));
   mkLen "setnl" (fun v => let (o, a, r, n, e, j, l, s) := v in i_setnl (o 0));
   mkLen "setnle" (fun v => let (o, a, r, n, e, j, l, s) := v in i_setnle (o 0));
   mkLen "setno" (fun v => let (o, a, r, n, e, j, l, s) := v in i_setno (o 0));
   mkLen "setnp" (fun v => let (o, a, r, n, e, j, l, s) := v in i_setnp (o 0));
   mkLen "setns" (fun v => let (o, a, r, n, e, j, l, s) := v in i_setns (o 0))].
Lemma lens33_ok : Forall entry_within lens33.
Proof. unfold lens33.
row. { unfold i_scasw. row_len. }
row. { unfold i_serialize. row_len. }
row. { unfold i_seta. row_len. }
row. { unfold i_setae. row_len. }
row. { unfold i_setb. row_len. }
row. { unfold i_setbe. row_len. }
row. { unfold i_setc. row_len. }
row. { unfold i_sete. row_len. }
row. { unfold i_setg. row_len. }
row. { unfold i_setge. row_len. }
row. { unfold i_setl. row_len. }
row. { unfold i_setle. row_len. }
row. { unfold i_setna. row_len. }
row. { unfold i_setnae. row_len. }
row. { unfold i_setnb. row_len. }
row. { unfold i_setnbe. row_len. }
row. { unfold i_setnc. row_len. }
row. { unfold i_setne. row_len. }
row. { unfold i_setng. row_len. }
row. { unfold i_setnge. row_len. }
row. { unfold i_setnl. row_len. }
row. { unfold i_setnle. row_len. }
row. { unfold i_setno. row_len. }
row. { unfold i_setnp. row_len. }
row. { unfold i_setns. row_len. }
apply Forall_nil. Qed.
Definition lens34 : list len_entry :=
  [mkLen "setnz" (fun v => let (o, a, r, n, e, j, l, s) := v in i_setnz (o 0));
   mkLen "seto" (fun v => let (o, a, r, n, e, j, l, s) := v in i_seto (o 0));
   mkLen "setp" (fun v => let (o, a, r, n, e, j, l, s) := v in i_setp (o 0));
   mkLen "setpe" (fun v => let (o, a, r, n, e, j, l, s) := v in i_setpe (o 0));
   mkLen "setpo" (fun v => let (o, a, r, n, e, j, l, s) := v in i_setpo (o 0));
   mkLen "sets" (fun v => let (o, a, r, n, e, j, l, s) := v in i_sets (o 0));
   mkLen "setz" (fun v => let (o, a, r, n, e, j, l, s) := v in i_setz (o 0));
   mkLen "sfence" (fun v => let (o, a, r, n, e, j, l, s) := v in i_sfence);
   mkLen "sha1msg1" (fun v => let (o, a, r, n, e, j, l, s) := v in i_sha1msg1 (r 0) (o 1));
   mkLen "sha1msg2" (fun v => let (o, a, r, n, e, j, l, s) := v in i_sha1msg2 (r 0) (o 1));
   mkLen "sha1nexte" (fun v => let (o, a, r, n, e, j, l, s) := v in i_sha1nexte (r 0) (o 1));
   mkLen "sha1rnds4" (fun v => let (o, a, r, n, e, j, l, s) := v in i_sha1rnds4 (r 0) (o 1) (n 2));
   mkLen "sha256msg1" (fun v => let (o, a, r, n, e, j, l, s) := v in i_sha256msg1 (r 0) (o 1));
   mkLen "sha256msg2" (fun v => let (o, a, r, n, e, j, l, s) := v in i_sha256msg2 (r 0) (o 1));
   mkLen "sha256rnds2" (fun v => let (o, a, r, n, e, j, l, s) := v in i_sha256rnds2 (r 0) (o 1));
   mkLen "shl_ob" (fun v => let (o, a, r, n, e, j, l, s) := v in i_shl_ob (o 0) (r 1));
   mkLen "shl_oi" (fun v => let (o, a, r, n, e, j, l, s) := v in i_shl_oi (o 0) (n 1));
   mkLen "shl_rob" (fun v => let (o, a, r, n, e, j, l, s) := v in i_shl_rob (r 0) (o 1) (r 2));
   mkLen "shl_roi" (fun v => let (o, a, r, n, e, j, l, s) := v in i_shl_roi (r 0) (o 1) (n 2));
   mkLen "shld_orb" (fun v => let (o, a, r, n, e, j, l, s) := v in i_shld_orb (o 0) (r 1) (r 2));
   mkLen "shld_ori" (fun v => let (o, a, r, n, e, j, l, s) := v in i_shld_ori (o 0) (r 1) (n 2));
   mkLen "shld_rorb" (fun v => let (o, a, r, n, e, j, l, s) := v in i_shld_rorb (r 0) (o 1) (r 2) (r 3));
   mkLen "shld_rori" (fun v => let (o, a, r, n, e, j, l, s) := v in i_shld_rori (r 0) (o 1) (r 2) (n 3));
   mkLen "shlx" (fun v => let (o, a, r, n, e, j, l, s) := v in i_shlx (r 0) (o 1) (r 2));
   mkLen "shr_ob" (fun v => let (o, a, r, n, e, j, l, s) := v in i_shr_ob (o 0) (r 1))].
Lemma lens34_ok : Forall entry_within lens34.
Proof. unfold lens34.
row. { unfold i_setnz. row_len. }
row. { unfold i_seto. row_len. }
row. { unfold i_setp. row_len. }
row. { unfold i_setpe. row_len. }
row. { unfold i_setpo. row_len. }
row. { unfold i_sets. row_len. }
row. { unfold i_setz. row_len. }
row. { unfold i_sfence. row_len. }
row. { unfold i_sha1msg1. row_len. }
row. { unfold i_sha1msg2. row_len. }
row. { unfold i_sha1nexte. row_len. }
row. { unfold i_sha1rnds4. row_len. }
row. { unfold i_sha256msg1. row_len. }
row. { unfold i_sha256msg2. row_len. }
row. { unfold i_sha256rnds2. row_len. }
row. { unfold i_shl_ob. row_len. }
row. { unfold i_shl_oi. row_len. }
row. { unfold i_shl_rob. row_len. }
row. { unfold i_shl_roi. row_len. }
row. { unfold i_shld_orb. row_len. }
row. { unfold i_shld_ori. row_len. }
row. { unfold i_shld_rorb. row_len. }
row. { unfold i_shld_rori. row_len. }
row. { unfold i_shlx. row_len. }
row. { unfold i_shr_ob. row_len. }
apply Forall_nil. Qed.
Definition lens35 : list len_entry :=
  [mkLen "shr_oi" (fun v => let (o, a, r, n, e, j, l, s) := v in i_shr_oi (o 0) (n 1));
   mkLen "shr_rob" (fun v => let (o, a, r, n, e, j, l, s) := v in i_shr_rob (r 0) (o 1) (r 2));
   mkLen "shr_roi" (fun v => let (o, a, r, n, e, j, l, s) := v in i_shr_roi (r 0) (o 1) (n 2));
   mkLen "shrd_orb" (fun v => let (o, a, r, n, e, j, l, s) := v in i_shrd_orb (o 0) (r 1) (r 2));
   mkLen "shrd_ori" (fun v => let (o, a, r, n, e, j, l, s) := v in i_shrd_ori (o 0) (r 1) (n 2));
   mkLen "shrd_rorb" (fun v => let (o, a, r, n, e, j, l, s) := v in i_shrd_rorb (r 0) (o 1) (r 2) (r 3));
   mkLen "shrd_rori" (fun v => let (o, a, r, n, e, j, l, s) := v in i_shrd_rori (r 0) (o 1) (r 2) (n 3));
   mkLen "shrx" (fun v => let (o, a, r, n, e, j, l, s) := v in i_shrx (r 0) (o 1) (r 2));
   mkLen "shufpd" (fun v => let (o, a, r, n, e, j, l, s) := v in i_shufpd (r 0) (o 1) (n 2));
   mkLen "shufps" (fun v => let (o, a, r, n, e, j, l, s) := v in i_shufps (r 0) (o 1) (n 2));
   mkLen "sqrtpd" (fun v => let (o, a, r, n, e, j, l, s) := v in i_sqrtpd (r 0) (o 1));
   mkLen "sqrtps" (fun v => let (o, a, r, n, e, j, l, s) := v in i_sqrtps (r 0) (o 1));
   mkLen "sqrtsd" (fun v => let (o, a, r, n, e, j, l, s) := v in i_sqrtsd (r 0) (o 1));
   mkLen "sqrtss" (fun v => let (o, a, r, n, e, j, l, s) := v in i_sqrtss (r 0) (o 1));
   mkLen "stac" (fun v => let (o, a, r, n, e, j, l, s) := v in i_stac);
   mkLen "stc" (fun v => let (o, a, r, n, e, j, l, s) := v in i_stc);
   mkLen "std" (fun v => let (o, a, r, n, e, j, l, s) := v in i_std);
   mkLen "sti" (fun v => let (o, a, r, n, e, j, l, s) := v in i_sti);
   mkLen "stmxcsr" (fun v => let (o, a, r, n, e, j, l, s) := v in i_stmxcsr (a 0));
   mkLen "stosb" (fun v => let (o, a, r, n, e, j, l, s) := v in i_stosb);
   mkLen "stosd" (fun v => let (o, a, r, n, e, j, l, s) := v in i_stosd);
   mkLen "stosw" (fun v => let (o, a, r, n, e, j, l, s) := v in i_stosw);
   mkLen "sub_oi" (fun v => let (o, a, r, n, e, j, l, s) := v in i_sub_oi (o 0) (n 1));
   mkLen "sub_oo" (fun v => let (o, a, r, n, e, j, l, s) := v in i_sub_oo (o 0) (o 1));
   mkLen "sub_roi" (fun v => let (o, a, r, n, e, j, l, s) := v in i_sub_roi (r 0) (o 1) (n 2))].
Lemma lens35_ok : Forall entry_within lens35.
Proof. unfold lens35.
row. { unfold i_shr_oi. row_len. }
row. { unfold i_shr_rob. row_len. }
row. { unfold i_shr_roi. row_len. }
row. { unfold i_shrd_orb. row_len. }
row. { unfold i_shrd_ori. row_len. }
row. { unfold i_shrd_rorb. row_len. }
row. { unfold i_shrd_rori. row_len. }
row. { unfold i_shrx. row_len. }
row. { unfold i_shufpd. row_len. }
row. { unfold i_shufps. row_len. }
row. { unfold i_sqrtpd. row_len. }
row. { unfold i_sqrtps. row_len. }
row. { unfold i_sqrtsd. row_len. }
row. { unfold i_sqrtss. row_len. }
row. { unfold i_stac. row_len. }
row. { unfold i_stc. row_len. }
row. { unfold i_std. row_len. }
row. { unfold i_sti. row_len. }
row. { unfold i_stmxcsr. row_len. }
row. { unfold i_stosb. row_len. }
row. { unfold i_stosd. row_len. }
row. { unfold i_stosw. row_len. }
row. { unfold i_sub_oi. row_len. }
row. { unfold i_sub_oo. row_len. }
row. { unfold i_sub_roi. row_len. }
apply Forall_nil. Qed.
Definition lens36 : list len_entry :=
  [mkLen "sub_roo" (fun v => let (o, a, r, n, e, j, l, s) := v in i_sub_roo (r 0) (o 1) (o 2));
   mkLen "subpd" (fun v => let (o, a, r, n, e, j, l, s) := v in i_subpd (r 0) (o 1));
   mkLen "subps" (fun v => let (o, a, r, n, e, j, l, s) := v in i_subps (r 0) (o 1));
   mkLen "subsd" (fun v => let (o, a, r, n, e, j, l, s) := v in i_subsd (r 0) (o 1));
   mkLen "subss" (fun v => let (o, a, r, n, e, j, l, s) := v in i_subss (r 0) (o 1));
   mkLen "sysenter" (fun v => let (o, a, r, n, e, j, l, s) := v in i_sysenter);
   mkLen "sysexit" (fun v => let (o, a, r, n, e, j, l, s) := v in i_sysexit);
   mkLen "tpause" (fun v => let (o, a, r, n, e, j, l, s) := v in i_tpause (r 0));
   mkLen "tzcnt" (fun v => let (o, a, r, n, e, j, l, s) := v in i_tzcnt (r 0) (o 1));
   mkLen "ucomisd" (fun v => let (o, a, r, n, e, j, l, s) := v in i_ucomisd (r 0) (o 1));
   mkLen "ucomiss" (fun v => let (o, a, r, n, e, j, l, s) := v in i_ucomiss (r 0) (o 1));
   mkLen "ud2" (fun v => let (o, a, r, n, e, j, l, s) := v in i_ud2);
   mkLen "umonitor" (fun v => let (o, a, r, n, e, j, l, s) := v in i_umonitor (r 0));
   mkLen "umwait" (fun v => let (o, a, r, n, e, j, l, s) := v in i_umwait (r 0));
   mkLen "unpckhpd" (fun v => let (o, a, r, n, e, j, l, s) := v in i_unpckhpd (r 0) (o 1));
   mkLen "unpckhps" (fun v => let (o, a, r, n, e, j, l, s) := v in i_unpckhps (r 0) (o 1));
   mkLen "unpcklpd" (fun v => let (o, a, r, n, e, j, l, s) := v in i_unpcklpd (r 0) (o 1));
   mkLen "unpcklps" (fun v => let (o, a, r, n, e, j, l, s) := v in i_unpcklps (r 0) (o 1));
   mkLen "vaddpd" (fun v => let (o, a, r, n, e, j, l, s) := v in i_vaddpd (r 0) (o 1) (o 2));
   mkLen "vaddps" (fun v => let (o, a, r, n, e, j, l, s) := v in i_vaddps (r 0) (o 1) (o 2));
   mkLen "vaddsd" (fun v => let (o, a, r, n, e, j, l, s) := v in i_vaddsd (r 0) (o 1) (o 2));
   mkLen "vaddss" (fun v => let (o, a, r, n, e, j, l, s) := v in i_vaddss (r 0) (o 1) (o 2));
   mkLen "vaddsubpd" (fun v => let (o, a, r, n, e, j, l, s) := v in i_vaddsubpd (r 0) (o 1) (o 2));
   mkLen "vaddsubps" (fun v => let (o, a, r, n, e, j, l, s) := v in i_vaddsubps (r 0) (o 1) (o 2));
   mkLen "vaesdec" (fun v => let (o, a, r, n, e, j, l, s) := v in i_vaesdec (r 0) (o 1) (o 2))].
Lemma lens36_ok : Forall entry_within lens36.
Proof. unfold lens36.
row. { unfold i_sub_roo. row_len. }
row. { unfold i_subpd. row_len. }
row. { unfold i_subps. row_len. }
row. { unfold i_subsd. row_len. }
row. { unfold i_subss. row_len. }
row. { unfold i_sysenter. row_len. }
row. { unfold i_sysexit. row_len. }
row. { unfold i_tpause. row_len. }
row. { unfold i_tzcnt. row_len. }
row. { unfold i_ucomisd. row_len. }
row. { unfold i_ucomiss. row_len. }
row. { unfold i_ud2. row_len. }
row. { unfold i_umonitor. row_len. }
row. { unfold i_umwait. row_len. }
row. { unfold i_unpckhpd. row_len. }
row. { unfold i_unpckhps. row_len. }
row. { unfold i_unpcklpd. row_len. }
row. { unfold i_unpcklps. row_len. }
row. { unfold i_vaddpd. row_len. }
row. { unfold i_vaddps. row_len. }
row. { unfold i_vaddsd. row_len. }
row. { unfold i_vaddss. row_len. }
row. { unfold i_vaddsubpd. row_len. }
row. { unfold i_vaddsubps. row_len. }
row. { unfold i_vaesdec. row_len. }
apply Forall_nil. Qed.
Definition lens37 : list len_entry :=
  [mkLen "vaesdeclast" (fun v => let (o, a, r, n, e, j, l, s) := v in i_vaesdeclast (r 0) (o 1) (o 2));
   mkLen "vaesenc" (fun v => let (o, a, r, n, e, j, l, s) := v in i_vaesenc (r 0) (o 1) (o 2));
   mkLen "vaesenclast" (fun v => let (o, a, r, n, e, j, l, s) := v in i_vaesenclast (r 0) (o 1) (o 2));
   mkLen "vaesimc" (fun v => let (o, a, r, n, e, j, l, s) := v in i_vaesimc (r 0) (o 1));
   mkLen "vaeskeygenassist" (fun v => let (o, a, r, n, e, j, l, s) := v in i_vaeskeygenassist (r 0) (o 1) (n 2));
   mkLen "vandnpd" (fun v => let (o, a, r, n, e, j, l, s) := v in i_vandnpd (r 0) (o 1) (o 2));
   mkLen "vandnps" (fun v => let (o, a, r, n, e, j, l, s) := v in i_vandnps (r 0) (o 1) (o 2));
   mkLen "vandpd" (fun v => let (o, a, r, n, e, j, l, s) := v in i_vandpd (r 0) (o 1) (o 2));
   mkLen "vandps" (fun v => let (o, a, r, n, e, j, l, s) := v in i_vandps (r 0) (o 1) (o 2));
   mkLen "vbcstnebf162ps" (fun v => let (o, a, r, n, e, j, l, s) := v in i_vbcstnebf162ps (r 0) (a 1));
   mkLen "vbcstnesh2ps" (fun v => let (o, a, r, n, e, j, l, s) := v in i_vbcstnesh2ps (r 0) (a 1));
   mkLen "vblendpd_xxoi" (fun v => let (o, a, r, n, e, j, l, s) := v in i_vblendpd_xxoi (r 0) (r 1) (o 2) (n 3));
   mkLen "vblendps_xxoi" (fun v => let (o, a, r, n, e, j, l, s) := v in i_vblendps_xxoi (r 0) (r 1) (o 2) (n 3));
   mkLen "vblendvpd_xxox" (fun v => let (o, a, r, n, e, j, l, s) := v in i_vblendvpd_xxox (r 0) (r 1) (o 2) (r 3));
   mkLen "vblendvps_xxox" (fun v => let (o, a, r, n, e, j, l, s) := v in i_vblendvps_xxox (r 0) (r 1) (o 2) (r 3));
   mkLen "vbroadcastf128" (fun v => let (o, a, r, n, e, j, l, s) := v in i_vbroadcastf128 (r 0) (a 1));
   mkLen "vbroadcasti128" (fun v => let (o, a, r, n, e, j, l, s) := v in i_vbroadcasti128 (r 0) (a 1));
   mkLen "vbroadcastsd" (fun v => let (o, a, r, n, e, j, l, s) := v in i_vbroadcastsd (r 0) (o 1));
   mkLen "vbroadcastss" (fun v => let (o, a, r, n, e, j, l, s) := v in i_vbroadcastss (r 0) (o 1));
   mkLen "vcmppd_xxoi" (fun v => let (o, a, r, n, e, j, l, s) := v in i_vcmppd_xxoi (r 0) (r 1) (o 2) (n 3));
   mkLen "vcmpeq_ospd_xxo" (fun v => let (o, a, r, n, e, j, l, s) := v in i_vcmpeq_ospd_xxo (r 0) (r 1) (o 2));
   mkLen "vcmpps_xxoi" (fun v => let (o, a, r, n, e, j, l, s) := v in i_vcmpps_xxoi (r 0) (r 1) (o 2) (n 3));
   mkLen "vcmpeq_osps_xxo" (fun v => let (o, a, r, n, e, j, l, s) := v in i_vcmpeq_osps_xxo (r 0) (r 1) (o 2));
   mkLen "vcmpsd_xxoi" (fun v => let (o, a, r, n, e, j, l, s) := v in i_vcmpsd_xxoi (r 0) (r 1) (o 2) (n 3));
   mkLen "vcmpeq_ossd_xxo" (fun v => let (o, a, r, n, e, j, l, s) := v in i_vcmpeq_ossd_xxo (r 0) (r 1) (o 2))].
Lemma lens37_ok : Forall entry_within lens37.
Proof. unfold lens37.
row. { unfold i_vaesdeclast. row_len. }
row. { unfold i_vaesenc. row_len. }
row. { unfold i_vaesenclast. row_len. }
row. { unfold i_vaesimc. row_len. }
row. { unfold i_vaeskeygenassist. row_len. }
row. { unfold i_vandnpd. row_len. }
row. { unfold i_vandnps. row_len. }
row. { unfold i_vandpd. row_len. }
row. { unfold i_vandps. row_len. }
row. { unfold i_vbcstnebf162ps. row_len. }
row. { unfold i_vbcstnesh2ps. row_len. }
row. { unfold i_vblendpd_xxoi. row_len. }
row. { unfold i_vblendps_xxoi. row_len. }
row. { unfold i_vblendvpd_xxox. row_len. }
row. { unfold i_vblendvps_xxox. row_len. }
row. { unfold i_vbroadcastf128. row_len. }
row. { unfold i_vbroadcasti128. row_len. }
row. { unfold i_vbroadcastsd. row_len. }
row. { unfold i_vbroadcastss. row_len. }
row. { unfold i_vcmppd_xxoi. row_len. }
row. { unfold i_vcmpeq_ospd_xxo, i_vcmppd_xxoi. row_len. }
row. { unfold i_vcmpps_xxoi. row_len. }
row. { unfold i_vcmpeq_osps_xxo, i_vcmpps_xxoi. row_len. }
row. { unfold i_vcmpsd_xxoi. row_len. }
row. { unfold i_vcmpeq_ossd_xxo, i_vcmpsd_xxoi. row_len. }
apply Forall_nil. Qed.
Definition lens38 : list len_entry :=
  [mkLen "vcmpss_xxoi" (fun v => let (o, a, r, n, e, j, l, s) := v in i_vcmpss_xxoi (r 0) (r 1) (o 2) (n 3));
   mkLen "vcmpeq_osss_xxo" (fun v => let (o, a, r, n, e, j, l, s) := v in i_vcmpeq_osss_xxo (r 0) (r 1) (o 2));
   mkLen "vcmpeq_uqpd_xxo" (fun v => let (o, a, r, n, e, j, l, s) := v in i_vcmpeq_uqpd_xxo (r 0) (r 1) (o 2));
   mkLen "vcmpeq_uqps_xxo" (fun v => let (o, a, r, n, e, j, l, s) := v in i_vcmpeq_uqps_xxo (r 0) (r 1) (o 2));
   mkLen "vcmpeq_uqsd_xxo" (fun v => let (o, a, r, n, e, j, l, s) := v in i_vcmpeq_uqsd_xxo (r 0) (r 1) (o 2));
   mkLen "vcmpeq_uqss_xxo" (fun v => let (o, a, r, n, e, j, l, s) := v in i_vcmpeq_uqss_xxo (r 0) (r 1) (o 2));
   mkLen "vcmpeq_uspd_xxo" (fun v => let (o, a, r, n, e, j, l, s) := v in i_vcmpeq_uspd_xxo (r 0) (r 1) (o 2));
   mkLen "vcmpeq_usps_xxo" (fun v => let (o, a, r, n, e, j, l, s) := v in i_vcmpeq_usps_xxo (r 0) (r 1) (o 2));
   mkLen "vcmpeq_ussd_xxo" (fun v => let (o, a, r, n, e, j, l, s) := v in i_vcmpeq_ussd_xxo (r 0) (r 1) (o 2));
   mkLen "vcmpeq_usss_xxo" (fun v => let (o, a, r, n, e, j, l, s) := v in i_vcmpeq_usss_xxo (r 0) (r 1) (o 2));
   mkLen "vcmpeqpd_xxo" (fun v => let (o, a, r, n, e, j, l, s) := v in i_vcmpeqpd_xxo (r 0) (r 1) (o 2));
   mkLen "vcmpeqps_xxo" (fun v => let (o, a, r, n, e, j, l, s) := v in i_vcmpeqps_xxo (r 0) (r 1) (o 2));
   mkLen "vcmpeqsd_xxo" (fun v => let (o, a, r, n, e, j, l, s) := v in i_vcmpeqsd_xxo (r 0) (r 1) (o 2));
   mkLen "vcmpeqss_xxo" (fun v => let (o, a, r, n, e, j, l, s) := v in i_vcmpeqss_xxo (r 0) (r 1) (o 2));
   mkLen "vcmpfalse_ospd_xxo" (fun v => let (o, a, r, n, e, j, l, s) := v in i_vcmpfalse_ospd_xxo (r 0) (r 1) (o 2));
   mkLen "vcmpfalse_osps_xxo" (fun v => let (o, a, r, n, e, j, l, s) := v in i_vcmpfalse_osps_xxo (r 0) (r 1) (o 2));
   mkLen "vcmpfalse_ossd_xxo" (fun v => let (o, a, r, n, e, j, l, s) := v in i_vcmpfalse_ossd_xxo (r 0) (r 1) (o 2));
   mkLen "vcmpfalse_osss_xxo" (fun v => let (o, a, r, n, e, j, l, s) := v in i_vcmpfalse_osss_xxo (r 0) (r 1) (o 2));
   mkLen "vcmpfalsepd_xxo" (fun v => let (o, a, r, n, e, j, l, s) := v in i_vcmpfalsepd_xxo (r 0) (r 1) (o 2));
   mkLen "vcmpfalseps_xxo" (fun v => let (o, a, r, n, e, j, l, s) := v in i_vcmpfalseps_xxo (r 0) (r 1) (o 2));
   mkLen "vcmpfalsesd_xxo" (fun v => let (o, a, r, n, e, j, l, s) := v in i_vcmpfalsesd_xxo (r 0) (r 1) (o 2));
   mkLen "vcmpfalsess_xxo" (fun v => let (o, a, r, n, e, j, l, s) := v in i_vcmpfalsess_xxo (r 0) (r 1) (o 2));
   mkLen "vcmpge_oqpd_xxo" (fun v => let (o, a, r, n, e, j, l, s) := v in i_vcmpge_oqpd_xxo (r 0) (r 1) (o 2));
   mkLen "vcmpge_oqps_xxo" (fun v => let (o, a, r, n, e, j, l, s) := v in i_vcmpge_oqps_xxo (r 0) (r 1) (o 2));
   mkLen "vcmpge_oqsd_xxo" (fun v => let (o, a, r, n, e, j, l, s) := v in i_vcmpge_oqsd_xxo (r 0) (r 1) (o 2))].
Lemma lens38_ok : Forall entry_within lens38.
Proof. unfold lens38.
row. { unfold i_vcmpss_xxoi. row_len. }
row. { unfold i_vcmpeq_osss_xxo, i_vcmpss_xxoi. row_len. }
row. { unfold i_vcmpeq_uqpd_xxo, i_vcmppd_xxoi. row_len. }
row. { unfold i_vcmpeq_uqps_xxo, i_vcmpps_xxoi. row_len. }
row. { unfold i_vcmpeq_uqsd_xxo, i_vcmpsd_xxoi. row_len. }
row. { unfold i_vcmpeq_uqss_xxo, i_vcmpss_xxoi. row_len. }
row. { unfold i_vcmpeq_uspd_xxo, i_vcmppd_xxoi. row_len. }
row. { unfold i_vcmpeq_usps_xxo, i_vcmpps_xxoi. row_len. }
row. { unfold i_vcmpeq_ussd_xxo, i_vcmpsd_xxoi. row_len. }
row. { unfold i_vcmpeq_usss_xxo, i_vcmpss_xxoi. row_len. }
row. { unfold i_vcmpeqpd_xxo, i_vcmppd_xxoi. row_len. }
row. { unfold i_vcmpeqps_xxo, i_vcmpps_xxoi. row_len. }
row. { unfold i_vcmpeqsd_xxo, i_vcmpsd_xxoi. row_len. }
row. { unfold i_vcmpeqss_xxo, i_vcmpss_xxoi. row_len. }
row. { unfold i_vcmpfalse_ospd_xxo, i_vcmppd_xxoi. row_len. }
row. { unfold i_vcmpfalse_osps_xxo, i_vcmpps_xxoi. row_len. }
row. { unfold i_vcmpfalse_ossd_xxo, i_vcmpsd_xxoi. row_len. }
row. { unfold i_vcmpfalse_osss_xxo, i_vcmpss_xxoi. row_len. }
row. { unfold i_vcmpfalsepd_xxo, i_vcmppd_xxoi. row_len. }
row. { unfold i_vcmpfalseps_xxo, i_vcmpps_xxoi. row_len. }
row. { unfold i_vcmpfalsesd_xxo, i_vcmpsd_xxoi. row_len. }
row. { unfold i_vcmpfalsess_xxo, i_vcmpss_xxoi. row_len. }
row. { unfold i_vcmpge_oqpd_xxo, i_vcmppd_xxoi. row_len. }
row. { unfold i_vcmpge_oqps_xxo, i_vcmpps_xxoi. row_len. }
row. { unfold i_vcmpge_oqsd_xxo, i_vcmpsd_xxoi. row_len. }
apply Forall_nil. Qed.
Definition lens39 : list len_entry :=
  [mkLen "vcmpge_oqss_xxo" (fun v => let (o, a, r, n, e, j, l, s) := v in i_vcmpge_oqss_xxo (r 0) (r 1) (o 2));
   mkLen "vcmpgepd_xxo" (fun v => let (o, a, r, n, e, j, l, s) := v in i_vcmpgepd_xxo (r 0) (r 1) (o 2));
   mkLen "vcmpgeps_xxo" (fun v => let (o, a, r, n, e, j, l, s) := v in i_vcmpgeps_xxo (r 0) (r 1) (o 2));
   mkLen "vcmpgesd_xxo" (fun v => let (o, a, r, n, e, j, l, s) := v in i_vcmpgesd_xxo (r 0) (r 1) (o 2));
   mkLen "vcmpgess_xxo" (fun v => let (o, a, r, n, e, j, l, s) := v in i_vcmpgess_xxo (r 0) (r 1) (o 2));
   mkLen "vcmpgt_oqpd_xxo" (fun v => let (o, a, r, n, e, j, l, s) := v in i_vcmpgt_oqpd_xxo (r 0) (r 1) (o 2));
   mkLen "vcmpgt_oqps_xxo" (fun v => let (o, a, r, n, e, j, l, s) := v in i_vcmpgt_oqps_xxo (r 0) (r 1) (o 2));
   mkLen "vcmpgt_oqsd_xxo" (fun v => let (o, a, r, n, e, j, l, s) := v in i_vcmpgt_oqsd_xxo (r 0) (r 1) (o 2));
   mkLen "vcmpgt_oqss_xxo" (fun v => let (o, a, r, n, e, j, l, s) := v in i_vcmpgt_oqss_xxo (r 0) (r 1) (o 2));
   mkLen "vcmpgtpd_xxo" (fun v => let (o, a, r, n, e, j, l, s) := v in i_vcmpgtpd_xxo (r 0) (r 1) (o 2));
   mkLen "vcmpgtps_xxo" (fun v => let (o, a, r, n, e, j, l, s) := v in i_vcmpgtps_xxo (r 0) (r 1) (o 2));
   mkLen "vcmpgtsd_xxo" (fun v => let (o, a, r, n, e, j, l, s) := v in i_vcmpgtsd_xxo (r 0) (r 1) (o 2));
   mkLen "vcmpgtss_xxo" (fun v => let (o, a, r, n, e, j, l, s) := v in i_vcmpgtss_xxo (r 0) (r 1) (o 2));
   mkLen "vcmple_oqpd_xxo" (fun v => let (o, a, r, n, e, j, l, s) := v in i_vcmple_oqpd_xxo (r 0) (r 1) (o 2));
   mkLen "vcmple_oqps_xxo" (fun v => let (o, a, r, n, e, j, l, s) := v in i_vcmple_oqps_xxo (r 0) (r 1) (o 2));
   mkLen "vcmple_oqsd_xxo" (fun v => let (o, a, r, n, e, j, l, s) := v in i_vcmple_oqsd_xxo (r 0) (r 1) (o 2));
   mkLen "vcmple_oqss_xxo" (fun v => let (o, a, r, n, e, j, l, s) := v in i_vcmple_oqss_xxo (r 0) (r 1) (o 2));
   mkLen "vcmplepd_xxo" (fun v => let (o, a, r, n, e, j, l, s) := v in i_vcmplepd_xxo (r 0) (r 1) (o 2));
   mkLen "vcmpleps_xxo" (fun v => let (o, a, r, n, e, j, l, s) := v in i_vcmpleps_xxo (r 0) (r 1) (o 2));
   mkLen "vcmplesd_xxo" (fun v => let (o, a, r, n, e, j, l, s) := v in i_vcmplesd_xxo (r 0) (r 1) (o 2));
   mkLen "vcmpless_xxo" (fun v => let (o, a, r, n, e, j, l, s) := v in i_vcmpless_xxo (r 0) (r 1) (o 2));
   mkLen "vcmplt_oqpd_xxo" (fun v => let (o, a, r, n, e, j, l, s) := v in i_vcmplt_oqpd_xxo (r 0) (r 1) (o 2));
   mkLen "vcmplt_oqps_xxo" (fun v => let (o, a, r, n, e, j, l, s) := v in i_vcmplt_oqps_xxo (r 0) (r 1) (o 2));
   mkLen "vcmplt_oqsd_xxo" (fun v => let (o, a, r, n, e, j, l, s) := v in i_vcmplt_oqsd_xxo (r 0) (r 1) (o 2));
   mkLen "vcmplt_oqss_xxo" (fun v => let (o, a, r, n, e, j, l, s) := v in i_vcmplt_oqss_xxo (r 0) (r 1) (o 2))].
Lemma lens39_ok : Forall entry_within lens39.
Proof. unfold lens39.
row. { unfold i_vcmpge_oqss_xxo, i_vcmpss_xxoi. row_len. }
row. { unfold i_vcmpgepd_xxo, i_vcmppd_xxoi. row_len. }
row. { unfold i_vcmpgeps_xxo, i_vcmpps_xxoi. row_len. }
row. { unfold i_vcmpgesd_xxo, i_vcmpsd_xxoi. row_len. }
row. { unfold i_vcmpgess_xxo, i_vcmpss_xxoi. row_len. }
row. { unfold i_vcmpgt_oqpd_xxo, i_vcmppd_xxoi. row_len. }
row. { unfold i_vcmpgt_oqps_xxo, i_vcmpps_xxoi. row_len. }
row. { unfold i_vcmpgt_oqsd_xxo, i_vcmpsd_xxoi. row_len. }
row. { unfold i_vcmpgt_oqss_xxo, i_vcmpss_xxoi. row_len. }
row. { unfold i_vcmpgtpd_xxo, i_vcmppd_xxoi. row_len. }
row. { unfold i_vcmpgtps_xxo, i_vcmpps_xxoi. row_len. }
row. { unfold i_vcmpgtsd_xxo, i_vcmpsd_xxoi. row_len. }
row. { unfold i_vcmpgtss_xxo, i_vcmpss_xxoi. row_len. }
row. { unfold i_vcmple_oqpd_xxo, i_vcmppd_xxoi. row_len. }
row. { unfold i_vcmple_oqps_xxo, i_vcmpps_xxoi. row_len. }
row. { unfold i_vcmple_oqsd_xxo, i_vcmpsd_xxoi. row_len. }
row. { unfold i_vcmple_oqss_xxo, i_vcmpss_xxoi. row_len. }
row. { unfold i_vcmplepd_xxo, i_vcmppd_xxoi. row_len. }
row. { unfold i_vcmpleps_xxo, i_vcmpps_xxoi. row_len. }
row. { unfold i_vcmplesd_xxo, i_vcmpsd_xxoi. row_len. }
row. { unfold i_vcmpless_xxo, i_vcmpss_xxoi. row_len. }
row. { unfold i_vcmplt_oqpd_xxo, i_vcmppd_xxoi. row_len. }
row. { unfold i_vcmplt_oqps_xxo, i_vcmpps_xxoi. row_len. }
row. { unfold i_vcmplt_oqsd_xxo, i_vcmpsd_xxoi. row_len. }
row. { unfold i_vcmplt_oqss_xxo, i_vcmpss_xxoi. row_len. }
apply Forall_nil. Qed.
Definition lens40 : list len_entry :=
  [mkLen "vcmpltpd_xxo" (fun v => let (o, a, r, n, e, j, l, s) := v in i_vcmpltpd_xxo (r 0) (r 1) (o 2));
   mkLen "vcmpltps_xxo" (fun v => let (o, a, r, n, e, j, l, s) := v in i_vcmpltps_xxo (r 0) (r 1) (o 2));
   mkLen "vcmpltsd_xxo" (fun v => let (o, a, r, n, e, j, l, s) := v in i_vcmpltsd_xxo (r 0) (r 1) (o 2));
   mkLen "vcmpltss_xxo" (fun v => let (o, a, r, n, e, j, l, s) := v in i_vcmpltss_xxo (r 0) (r 1) (o 2));
   mkLen "vcmpneq_oqpd_xxo" (fun v => let (o, a, r, n, e, j, l, s) := v in i_vcmpneq_oqpd_xxo (r 0) (r 1) (o 2));
   mkLen "vcmpneq_oqps_xxo" (fun v => let (o, a, r, n, e, j, l, s) := v in i_vcmpneq_oqps_xxo (r 0) (r 1) (o 2));
   mkLen "vcmpneq_oqsd_xxo" (fun v => let (o, a, r, n, e, j, l, s) := v in i_vcmpneq_oqsd_xxo (r 0) (r 1) (o 2));
   mkLen "vcmpneq_oqss_xxo" (fun v => let (o, a, r, n, e, j, l, s) := v in i_vcmpneq_oqss_xxo (r 0) (r 1) (o 2));
   mkLen "vcmpneq_ospd_xxo" (fun v => let (o, a, r, n, e, j, l, s) := v in i_vcmpneq_ospd_xxo (r 0) (r 1) (o 2));
   mkLen "vcmpneq_osps_xxo" (fun v => let (o, a, r, n, e, j, l, s) := v in i_vcmpneq_osps_xxo (r 0) (r 1) (o 2));
   mkLen "vcmpneq_ossd_xxo" (fun v => let (o, a, r, n, e, j, l, s) := v in i_vcmpneq_ossd_xxo (r 0) (r 1) (o 2));
   mkLen "vcmpneq_osss_xxo" (fun v => let (o, a, r, n, e, j, l, s) := v in i_vcmpneq_osss_xxo (r 0) (r 1) (o 2));
   mkLen "vcmpneq_uspd_xxo" (fun v => let (o, a, r, n, e, j, l, s) := v in i_vcmpneq_uspd_xxo (r 0) (r 1) (o 2));
   mkLen "vcmpneq_usps_xxo" (fun v => let (o, a, r, n, e, j, l, s) := v in i_vcmpneq_usps_xxo (r 0) (r 1) (o 2));
   mkLen "vcmpneq_ussd_xxo" (fun v => let (o, a, r, n, e, j, l, s) := v in i_vcmpneq_ussd_xxo (r 0) (r 1) (o 2));
   mkLen "vcmpneq_usss_xxo" (fun v => let (o, a, r, n, e, j, l, s) := v in i_vcmpneq_usss_xxo (r 0) (r 1) (o 2));
   mkLen "vcmpneqpd_xxo" (fun v => let (o, a, r, n, e, j, l, s) := v in i_vcmpneqpd_xxo (r 0) (r 1) (o 2));
   mkLen "vcmpneqps_xxo" (fun v => let (o, a, r, n, e, j, l, s) := v in i_vcmpneqps_xxo (r 0) (r 1) (o 2));
   mkLen "vcmpneqsd_xxo" (fun v => let (o, a, r, n, e, j, l, s) := v in i_vcmpneqsd_xxo (r 0) (r 1) (o 2));
   mkLen "vcmpneqss_xxo" (fun v => let (o, a, r, n, e, j, l, s) := v in i_vcmpneqss_xxo (r 0) (r 1) (o 2));
   mkLen "vcmpnge_uqpd_xxo" (fun v => let (o, a, r, n, e, j, l, s) := v in i_vcmpnge_uqpd_xxo (r 0) (r 1) (o 2));
   mkLen "vcmpnge_uqps_xxo" (fun v => let (o, a, r, n, e, j, l, s) := v in i_vcmpnge_uqps_xxo (r 0) (r 1) (o 2));
   mkLen "vcmpnge_uqsd_xxo" (fun v => let (o, a, r, n, e, j, l, s) := v in i_vcmpnge_uqsd_xxo (r 0) (r 1) (o 2));
   mkLen "vcmpnge_uqss_xxo" (fun v => let (o, a, r, n, e, j, l, s) := v in i_vcmpnge_uqss_xxo (r 0) (r 1) (o 2));
   mkLen "vcmpngepd_xxo" (fun v => let (o, a, r, n, e, j, l, s) := v in i_vcmpngepd_xxo (r 0) (r 1) (o 2))].
Lemma lens40_ok : Forall entry_within lens40.
Proof. unfold lens40.
row. { unfold i_vcmpltpd_xxo, i_vcmppd_xxoi. row_len. }
row. { unfold i_vcmpltps_xxo, i_vcmpps_xxoi. row_len. }
row. { unfold i_vcmpltsd_xxo, i_vcmpsd_xxoi. row_len. }
row. { unfold i_vcmpltss_xxo, i_vcmpss_xxoi. row_len. }
row. { unfold i_vcmpneq_oqpd_xxo, i_vcmppd_xxoi. row_len. }
row. { unfold i_vcmpneq_oqps_xxo, i_vcmpps_xxoi. row_len. }
row. { unfold i_vcmpneq_oqsd_xxo, i_vcmpsd_xxoi. row_len. }
row. { unfold i_vcmpneq_oqss_xxo, i_vcmpss_xxoi. row_len. }
row. { unfold i_vcmpneq_ospd_xxo, i_vcmppd_xxoi. row_len. }
row. { unfold i_vcmpneq_osps_xxo, i_vcmpps_xxoi. row_len. }
row. { unfold i_vcmpneq_ossd_xxo, i_vcmpsd_xxoi. row_len. }
row. { unfold i_vcmpneq_osss_xxo, i_vcmpss_xxoi. row_len. }
row. { unfold i_vcmpneq_uspd_xxo, i_vcmppd_xxoi. row_len. }
row. { unfold i_vcmpneq_usps_xxo, i_vcmpps_xxoi. row_len. }
row. { unfold i_vcmpneq_ussd_xxo, i_vcmpsd_xxoi. row_len. }
row. { unfold i_vcmpneq_usss_xxo, i_vcmpss_xxoi. row_len. }
row. { unfold i_vcmpneqpd_xxo, i_vcmppd_xxoi. row_len. }
row. { unfold i_vcmpneqps_xxo, i_vcmpps_xxoi. row_len. }
row. { unfold i_vcmpneqsd_xxo, i_vcmpsd_xxoi. row_len. }
row. { unfold i_vcmpneqss_xxo, i_vcmpss_xxoi. row_len. }
row. { unfold i_vcmpnge_uqpd_xxo, i_vcmppd_xxoi. row_len. }
row. { unfold i_vcmpnge_uqps_xxo, i_vcmpps_xxoi. row_len. }
row. { unfold i_vcmpnge_uqsd_xxo, i_vcmpsd_xxoi. row_len. }
row. { unfold i_vcmpnge_uqss_xxo, i_vcmpss_xxoi. row_len. }
row. { unfold i_vcmpngepd_xxo, i_vcmppd_xxoi. row_len. }
apply Forall_nil. Qed.
Definition lens41 : list len_entry :=
  [mkLen "vcmpngeps_xxo" (fun v => let (o, a, r, n, e, j, l, s) := v in i_vcmpngeps_xxo (r 0) (r 1) (o 2));
   mkLen "vcmpngesd_xxo" (fun v => let (o, a, r, n, e, j, l, s) := v in i_vcmpngesd_xxo (r 0) (r 1) (o 2));
   mkLen "vcmpngess_xxo" (fun v => let (o, a, r, n, e, j, l, s) := v in i_vcmpngess_xxo (r 0) (r 1) (o 2));
   mkLen "vcmpngt_uqpd_xxo" (fun v => let (o, a, r, n, e, j, l, s) := v in i_vcmpngt_uqpd_xxo (r 0) (r 1) (o 2));
   mkLen "vcmpngt_uqps_xxo" (fun v => let (o, a, r, n, e, j, l, s) := v in i_vcmpngt_uqps_xxo (r 0) (r 1) (o 2));
   mkLen "vcmpngt_uqsd_xxo" (fun v => let (o, a, r, n, e, j, l, s) := v in i_vcmpngt_uqsd_xxo (r 0) (r 1) (o 2));
   mkLen "vcmpngt_uqss_xxo" (fun v => let (o, a, r, n, e, j, l, s) := v in i_vcmpngt_uqss_xxo (r 0) (r 1) (o 2));
   mkLen "vcmpngtpd_xxo" (fun v => let (o, a, r, n, e, j, l, s) := v in i_vcmpngtpd_xxo (r 0) (r 1) (o 2));
   mkLen "vcmpngtps_xxo" (fun v => let (o, a, r, n, e, j, l, s) := v in i_vcmpngtps_xxo (r 0) (r 1) (o 2));
   mkLen "vcmpngtsd_xxo" (fun v => let (o, a, r, n, e, j, l, s) := v in i_vcmpngtsd_xxo (r 0) (r 1) (o 2));
   mkLen "vcmpngtss_xxo" (fun v => let (o, a, r, n, e, j, l, s) := v in i_vcmpngtss_xxo (r 0) (r 1) (o 2));
   mkLen "vcmpnle_uqpd_xxo" (fun v => let (o, a, r, n, e, j, l, s) := v in i_vcmpnle_uqpd_xxo (r 0) (r 1) (o 2));
   mkLen "vcmpnle_uqps_xxo" (fun v => let (o, a, r, n, e, j, l, s) := v in i_vcmpnle_uqps_xxo (r 0) (r 1) (o 2));
   mkLen "vcmpnle_uqsd_xxo" (fun v => let (o, a, r, n, e, j, l, s) := v in i_vcmpnle_uqsd_xxo (r 0) (r 1) (o 2));
   mkLen "vcmpnle_uqss_xxo" (fun v => let (o, a, r, n, e, j, l, s) := v in i_vcmpnle_uqss_xxo (r 0) (r 1) (o 2));
   mkLen "vcmpnlepd_xxo" (fun v => let (o, a, r, n, e, j, l, s) := v in i_vcmpnlepd_xxo (r 0) (r 1) (o 2));
   mkLen "vcmpnleps_xxo" (fun v => let (o, a, r, n, e, j, l, s) := v in i_vcmpnleps_xxo (r 0) (r 1) (o 2));
   mkLen "vcmpnlesd_xxo" (fun v => let (o, a, r, n, e, j, l, s) := v in i_vcmpnlesd_xxo (r 0) (r 1) (o 2));
   mkLen "vcmpnless_xxo" (fun v => let (o, a, r, n, e, j, l, s) := v in i_vcmpnless_xxo (r 0) (r 1) (o 2));
   mkLen "vcmpnlt_uqpd_xxo" (fun v => let (o, a, r, n, e, j, l, s) := v in i_vcmpnlt_uqpd_xxo (r 0) (r 1) (o 2));
   mkLen "vcmpnlt_uqps_xxo" (fun v => let (o, a, r, n, e, j, l, s) := v in i_vcmpnlt_uqps_xxo (r 0) (r 1) (o 2));
   mkLen "vcmpnlt_uqsd_xxo" (fun v => let (o, a, r, n, e, j, l, s) := v in i_vcmpnlt_uqsd_xxo (r 0) (r 1) (o 2));
   mkLen "vcmpnlt_uqss_xxo" (fun v => let (o, a, r, n, e, j, l, s) := v in i_vcmpnlt_uqss_xxo (r 0) (r 1) (o 2));
   mkLen "vcmpnltpd_xxo" (fun v => let (o, a, r, n, e, j, l, s) := v in i_vcmpnltpd_xxo (r 0) (r 1) (o 2));
   mkLen "vcmpnltps_xxo" (fun v => let (o, a, r, n, e, j, l, s) := v in i_vcmpnltps_xxo (r 0) (r 1) (o 2))].
Lemma lens41_ok : Forall entry_within lens41.
Proof. unfold lens41.
row. { unfold i_vcmpngeps_xxo, i_vcmpps_xxoi. row_len. }
row. { unfold i_vcmpngesd_xxo, i_vcmpsd_xxoi. row_len. }
row. { unfold i_vcmpngess_xxo, i_vcmpss_xxoi. row_len. }
row. { unfold i_vcmpngt_uqpd_xxo, i_vcmppd_xxoi. row_len. }
row. { unfold i_vcmpngt_uqps_xxo, i_vcmpps_xxoi. row_len. }
row. { unfold i_vcmpngt_uqsd_xxo, i_vcmpsd_xxoi. row_len. }
row. { unfold i_vcmpngt_uqss_xxo, i_vcmpss_xxoi. row_len. }
row. { unfold i_vcmpngtpd_xxo, i_vcmppd_xxoi. row_len. }
row. { unfold i_vcmpngtps_xxo, i_vcmpps_xxoi. row_len. }
row. { unfold i_vcmpngtsd_xxo, i_vcmpsd_xxoi. row_len. }
row. { unfold i_vcmpngtss_xxo, i_vcmpss_xxoi. row_len. }
row. { unfold i_vcmpnle_uqpd_xxo, i_vcmppd_xxoi. row_len. }
row. { unfold i_vcmpnle_uqps_xxo, i_vcmpps_xxoi. row_len. }
row. { unfold i_vcmpnle_uqsd_xxo, i_vcmpsd_xxoi. row_len. }
row. { unfold i_vcmpnle_uqss_xxo, i_vcmpss_xxoi. row_len. }
row. { unfold i_vcmpnlepd_xxo, i_vcmppd_xxoi. row_len. }
row. { unfold i_vcmpnleps_xxo, i_vcmpps_xxoi. row_len. }
row. { unfold i_vcmpnlesd_xxo, i_vcmpsd_xxoi. row_len. }
row. { unfold i_vcmpnless_xxo, i_vcmpss_xxoi. row_len. }
row. { unfold i_vcmpnlt_uqpd_xxo, i_vcmppd_xxoi. row_len. }
row. { unfold i_vcmpnlt_uqps_xxo, i_vcmpps_xxoi. row_len. }
row. { unfold i_vcmpnlt_uqsd_xxo, i_vcmpsd_xxoi. row_len. }
row. { unfold i_vcmpnlt_uqss_xxo, i_vcmpss_xxoi. row_len. }
row. { unfold i_vcmpnltpd_xxo, i_vcmppd_xxoi. row_len. }
row. { unfold i_vcmpnltps_xxo, i_vcmpps_xxoi. row_len. }
apply Forall_nil. Qed.
Definition lens42 : list len_entry :=
  [mkLen "vcmpnltsd_xxo" (fun v => let (o, a, r, n, e, j, l, s) := v in i_vcmpnltsd_xxo (r 0) (r 1) (o 2));
   mkLen "vcmpnltss_xxo" (fun v => let (o, a, r, n, e, j, l, s) := v in i_vcmpnltss_xxo (r 0) (r 1) (o 2));
   mkLen "vcmpord_spd_xxo" (fun v => let (o, a, r, n, e, j, l, s) := v in i_vcmpord_spd_xxo (r 0) (r 1) (o 2));
   mkLen "vcmpord_sps_xxo" (fun v => let (o, a, r, n, e, j, l, s) := v in i_vcmpord_sps_xxo (r 0) (r 1) (o 2));
   mkLen "vcmpord_ssd_xxo" (fun v => let (o, a, r, n, e, j, l, s) := v in i_vcmpord_ssd_xxo (r 0) (r 1) (o 2));
   mkLen "vcmpord_sss_xxo" (fun v => let (o, a, r, n, e, j, l, s) := v in i_vcmpord_sss_xxo (r 0) (r 1) (o 2));
   mkLen "vcmpordpd_xxo" (fun v => let (o, a, r, n, e, j, l, s) := v in i_vcmpordpd_xxo (r 0) (r 1) (o 2));
   mkLen "vcmpordps_xxo" (fun v => let (o, a, r, n, e, j, l, s) := v in i_vcmpordps_xxo (r 0) (r 1) (o 2));
   mkLen "vcmpordsd_xxo" (fun v => let (o, a, r, n, e, j, l, s) := v in i_vcmpordsd_xxo (r 0) (r 1) (o 2));
   mkLen "vcmpordss_xxo" (fun v => let (o, a, r, n, e, j, l, s) := v in i_vcmpordss_xxo (r 0) (r 1) (o 2));
   mkLen "vcmptrue_uspd_xxo" (fun v => let (o, a, r, n, e, j, l, s) := v in i_vcmptrue_uspd_xxo (r 0) (r 1) (o 2));
   mkLen "vcmptrue_usps_xxo" (fun v => let (o, a, r, n, e, j, l, s) := v in i_vcmptrue_usps_xxo (r 0) (r 1) (o 2));
   mkLen "vcmptrue_ussd_xxo" (fun v => let (o, a, r, n, e, j, l, s) := v in i_vcmptrue_ussd_xxo (r 0) (r 1) (o 2));
   mkLen "vcmptrue_usss_xxo" (fun v => let (o, a, r, n, e, j, l, s) := v in i_vcmptrue_usss_xxo (r 0) (r 1) (o 2));
   mkLen "vcmptruepd_xxo" (fun v => let (o, a, r, n, e, j, l, s) := v in i_vcmptruepd_xxo (r 0) (r 1) (o 2));
   mkLen "vcmptrueps_xxo" (fun v => let (o, a, r, n, e, j, l, s) := v in i_vcmptrueps_xxo (r 0) (r 1) (o 2));
   mkLen "vcmptruesd_xxo" (fun v => let (o, a, r, n, e, j, l, s) := v in i_vcmptruesd_xxo (r 0) (r 1) (o 2));
   mkLen "vcmptruess_xxo" (fun v => let (o, a, r, n, e, j, l, s) := v in i_vcmptruess_xxo (r 0) (r 1) (o 2));
   mkLen "vcmpunord_spd_xxo" (fun v => let (o, a, r, n, e, j, l, s) := v in i_vcmpunord_spd_xxo (r 0) (r 1) (o 2));
   mkLen "vcmpunord_sps_xxo" (fun v => let (o, a, r, n, e, j, l, s) := v in i_vcmpunord_sps_xxo (r 0) (r 1) (o 2));
   mkLen "vcmpunord_ssd_xxo" (fun v => let (o, a, r, n, e, j, l, s) := v in i_vcmpunord_ssd_xxo (r 0) (r 1) (o 2));
   mkLen "vcmpunord_sss_xxo" (fun v => let (o, a, r, n, e, j, l, s) := v in i_vcmpunord_sss_xxo (r 0) (r 1) (o 2));
   mkLen "vcmpunordpd_xxo" (fun v => let (o, a, r, n, e, j, l, s) := v in i_vcmpunordpd_xxo (r 0) (r 1) (o 2));
   mkLen "vcmpunordps_xxo" (fun v => let (o, a, r, n, e, j, l, s) := v in i_vcmpunordps_xxo (r 0) (r 1) (o 2));
   mkLen "vcmpunordsd_xxo" (fun v => let (o, a, r, n, e, j, l, s) := v in i_vcmpunordsd_xxo (r 0) (r 1) (o 2))].
Lemma lens42_ok : Forall entry_within lens42.
Proof. unfold lens42.
row. { unfold i_vcmpnltsd_xxo, i_vcmpsd_xxoi. row_len. }
row. { unfold i_vcmpnltss_xxo, i_vcmpss_xxoi. row_len. }
row. { unfold i_vcmpord_spd_xxo, i_vcmppd_xxoi. row_len. }
row. { unfold i_vcmpord_sps_xxo, i_vcmpps_xxoi. row_len. }
row. { unfold i_vcmpord_ssd_xxo, i_vcmpsd_xxoi. row_len. }
row. { unfold i_vcmpord_sss_xxo, i_vcmpss_xxoi. row_len. }
row. { unfold i_vcmpordpd_xxo, i_vcmppd_xxoi. row_len. }
row. { unfold i_vcmpordps_xxo, i_vcmpps_xxoi. row_len. }
row. { unfold i_vcmpordsd_xxo, i_vcmpsd_xxoi. row_len. }
row. { unfold i_vcmpordss_xxo, i_vcmpss_xxoi. row_len. }
row. { unfold i_vcmptrue_uspd_xxo, i_vcmppd_xxoi. row_len. }
row. { unfold i_vcmptrue_usps_xxo, i_vcmpps_xxoi. row_len. }
row. { unfold i_vcmptrue_ussd_xxo, i_vcmpsd_xxoi. row_len. }
row. { unfold i_vcmptrue_usss_xxo, i_vcmpss_xxoi. row_len. }
row. { unfold i_vcmptruepd_xxo, i_vcmppd_xxoi. row_len. }
row. { unfold i_vcmptrueps_xxo, i_vcmpps_xxoi. row_len. }
row. { unfold i_vcmptruesd_xxo, i_vcmpsd_xxoi. row_len. }
row. { unfold i_vcmptruess_xxo, i_vcmpss_xxoi. row_len. }
row. { unfold i_vcmpunord_spd_xxo, i_vcmppd_xxoi. row_len. }
row. { unfold i_vcmpunord_sps_xxo, i_vcmpps_xxoi. row_len. }
row. { unfold i_vcmpunord_ssd_xxo, i_vcmpsd_xxoi. row_len. }
row. { unfold i_vcmpunord_sss_xxo, i_vcmpss_xxoi. row_len. }
row. { unfold i_vcmpunordpd_xxo, i_vcmppd_xxoi. row_len. }
row. { unfold i_vcmpunordps_xxo, i_vcmpps_xxoi. row_len. }
row. { unfold i_vcmpunordsd_xxo, i_vcmpsd_xxoi. row_len. }
apply Forall_nil. Qed.
Definition lens43 : list len_entry :=
  [mkLen "vcmpunordss_xxo" (fun v => let (o, a, r, n, e, j, l, s) := v in i_vcmpunordss_xxo (r 0) (r 1) (o 2));
   mkLen "vcomisd" (fun v => let (o, a, r, n, e, j, l, s) := v in i_vcomisd (r 0) (o 1));
   mkLen "vcomiss" (fun v => let (o, a, r, n, e, j, l, s) := v in i_vcomiss (r 0) (o 1));
   mkLen "vcvtdq2pd" (fun v => let (o, a, r, n, e, j, l, s) := v in i_vcvtdq2pd (r 0) (o 1));
   mkLen "vcvtdq2ps" (fun v => let (o, a, r, n, e, j, l, s) := v in i_vcvtdq2ps (r 0) (o 1));
   mkLen "vcvtneebf162ps" (fun v => let (o, a, r, n, e, j, l, s) := v in i_vcvtneebf162ps (r 0) (a 1));
   mkLen "vcvtneeph2ps" (fun v => let (o, a, r, n, e, j, l, s) := v in i_vcvtneeph2ps (r 0) (a 1));
   mkLen "vcvtneobf162ps" (fun v => let (o, a, r, n, e, j, l, s) := v in i_vcvtneobf162ps (r 0) (a 1));
   mkLen "vcvtneoph2ps" (fun v => let (o, a, r, n, e, j, l, s) := v in i_vcvtneoph2ps (r 0) (a 1));
   mkLen "vcvtneps2bf16" (fun v => let (o, a, r, n, e, j, l, s) := v in i_vcvtneps2bf16 (r 0) (o 1) e);
   mkLen "vcvtpd2dq" (fun v => let (o, a, r, n, e, j, l, s) := v in i_vcvtpd2dq (r 0) (o 1));
   mkLen "vcvtpd2ps" (fun v => let (o, a, r, n, e, j, l, s) := v in i_vcvtpd2ps (r 0) (o 1));
   mkLen "vcvtph2ps" (fun v => let (o, a, r, n, e, j, l, s) := v in i_vcvtph2ps (r 0) (o 1));
   mkLen "vcvtps2dq" (fun v => let (o, a, r, n, e, j, l, s) := v in i_vcvtps2dq (r 0) (o 1));
   mkLen "vcvtps2pd" (fun v => let (o, a, r, n, e, j, l, s) := v in i_vcvtps2pd (r 0) (o 1));
   mkLen "vcvtps2ph" (fun v => let (o, a, r, n, e, j, l, s) := v in i_vcvtps2ph (o 0) (r 1) (n 2));
   mkLen "vcvtsd2si_do" (fun v => let (o, a, r, n, e, j, l, s) := v in i_vcvtsd2si_do (r 0) (o 1));
   mkLen "vcvtsd2ss_xxo" (fun v => let (o, a, r, n, e, j, l, s) := v in i_vcvtsd2ss_xxo (r 0) (r 1) (o 2));
   mkLen "vcvtsi2sd_xxo" (fun v => let (o, a, r, n, e, j, l, s) := v in i_vcvtsi2sd_xxo (r 0) (r 1) (o 2));
   mkLen "vcvtsi2ss_xxo" (fun v => let (o, a, r, n, e, j, l, s) := v in i_vcvtsi2ss_xxo (r 0) (r 1) (o 2));
   mkLen "vcvtss2sd_xxo" (fun v => let (o, a, r, n, e, j, l, s) := v in i_vcvtss2sd_xxo (r 0) (r 1) (o 2));
   mkLen "vcvtss2si_do" (fun v => let (o, a, r, n, e, j, l, s) := v in i_vcvtss2si_do (r 0) (o 1));
   mkLen "vcvttpd2dq" (fun v => let (o, a, r, n, e, j, l, s) := v in i_vcvttpd2dq (r 0) (o 1));
   mkLen "vcvttps2dq" (fun v => let (o, a, r, n, e, j, l, s) := v in i_vcvttps2dq (r 0) (o 1));
   mkLen "vcvttsd2si_do" (fun v => let (o, a, r, n, e, j, l, s) := v in i_vcvttsd2si_do (r 0) (o 1))].
Lemma lens43_ok : Forall entry_within lens43.
Proof. unfold lens43.
row. { unfold i_vcmpunordss_xxo, i_vcmpss_xxoi. row_len. }
row. { unfold i_vcomisd. row_len. }
row. { unfold i_vcomiss. row_len. }
row. { unfold i_vcvtdq2pd. row_len. }
row. { unfold i_vcvtdq2ps. row_len. }
row. { unfold i_vcvtneebf162ps. row_len. }
row. { unfold i_vcvtneeph2ps. row_len. }
row. { unfold i_vcvtneobf162ps. row_len. }
row. { unfold i_vcvtneoph2ps. row_len. }
row. { unfold i_vcvtneps2bf16. row_len. }
row. { unfold i_vcvtpd2dq. row_len. }
row. { unfold i_vcvtpd2ps. row_len. }
row. { unfold i_vcvtph2ps. row_len. }
row. { unfold i_vcvtps2dq. row_len. }
row. { unfold i_vcvtps2pd. row_len. }
row. { unfold i_vcvtps2ph. row_len. }
row. { unfold i_vcvtsd2si_do. row_len. }
row. { unfold i_vcvtsd2ss_xxo. row_len. }
row. { unfold i_vcvtsi2sd_xxo. row_len. }
row. { unfold i_vcvtsi2ss_xxo. row_len. }
row. { unfold i_vcvtss2sd_xxo. row_len. }
row. { unfold i_vcvtss2si_do. row_len. }
row. { unfold i_vcvttpd2dq. row_len. }
row. { unfold i_vcvttps2dq. row_len. }
row. { unfold i_vcvttsd2si_do. row_len. }
apply Forall_nil. Qed.
Definition lens44 : list len_entry :=
  [mkLen "vcvttss2si_do" (fun v => let (o, a, r, n, e, j, l, s) := v in i_vcvttss2si_do (r 0) (o 1));
   mkLen "vdivpd" (fun v => let (o, a, r, n, e, j, l, s) := v in i_vdivpd (r 0) (o 1) (o 2));
   mkLen "vdivps" (fun v => let (o, a, r, n, e, j, l, s) := v in i_vdivps (r 0) (o 1) (o 2));
   mkLen "vdivsd" (fun v => let (o, a, r, n, e, j, l, s) := v in i_vdivsd (r 0) (o 1) (o 2));
   mkLen "vdivss" (fun v => let (o, a, r, n, e, j, l, s) := v in i_vdivss (r 0) (o 1) (o 2));
   mkLen "vdppd_xxoi" (fun v => let (o, a, r, n, e, j, l, s) := v in i_vdppd_xxoi (r 0) (r 1) (o 2) (n 3));
   mkLen "vdpps_xxoi" (fun v => let (o, a, r, n, e, j, l, s) := v in i_vdpps_xxoi (r 0) (r 1) (o 2) (n 3));
   mkLen "vextractf128" (fun v => let (o, a, r, n, e, j, l, s) := v in i_vextractf128 (o 0) (r 1) (n 2));
   mkLen "vextracti128" (fun v => let (o, a, r, n, e, j, l, s) := v in i_vextracti128 (o 0) (r 1) (n 2));
   mkLen "vextractps" (fun v => let (o, a, r, n, e, j, l, s) := v in i_vextractps (o 0) (r 1) (n 2));
   mkLen "vfmadd132pd" (fun v => let (o, a, r, n, e, j, l, s) := v in i_vfmadd132pd (r 0) (r 1) (o 2));
   mkLen "vfmadd132ps" (fun v => let (o, a, r, n, e, j, l, s) := v in i_vfmadd132ps (r 0) (r 1) (o 2));
   mkLen "vfmadd132sd" (fun v => let (o, a, r, n, e, j, l, s) := v in i_vfmadd132sd (r 0) (r 1) (o 2));
   mkLen "vfmadd132ss" (fun v => let (o, a, r, n, e, j, l, s) := v in i_vfmadd132ss (r 0) (r 1) (o 2));
   mkLen "vfmadd213pd" (fun v => let (o, a, r, n, e, j, l, s) := v in i_vfmadd213pd (r 0) (r 1) (o 2));
   mkLen "vfmadd213ps" (fun v => let (o, a, r, n, e, j, l, s) := v in i_vfmadd213ps (r 0) (r 1) (o 2));
   mkLen "vfmadd213sd" (fun v => let (o, a, r, n, e, j, l, s) := v in i_vfmadd213sd (r 0) (r 1) (o 2));
   mkLen "vfmadd213ss" (fun v => let (o, a, r, n, e, j, l, s) := v in i_vfmadd213ss (r 0) (r 1) (o 2));
   mkLen "vfmadd231pd" (fun v => let (o, a, r, n, e, j, l, s) := v in i_vfmadd231pd (r 0) (r 1) (o 2));
   mkLen "vfmadd231ps" (fun v => let (o, a, r, n, e, j, l, s) := v in i_vfmadd231ps (r 0) (r 1) (o 2));
   mkLen "vfmadd231sd" (fun v => let (o, a, r, n, e, j, l, s) := v in i_vfmadd231sd (r 0) (r 1) (o 2));
   mkLen "vfmadd231ss" (fun v => let (o, a, r, n, e, j, l, s) := v in i_vfmadd231ss (r 0) (r 1) (o 2));
   mkLen "vfmaddsub132pd" (fun v => let (o, a, r, n, e, j, l, s) := v in i_vfmaddsub132pd (r 0) (r 1) (o 2));
   mkLen "vfmaddsub132ps" (fun v => let (o, a, r, n, e, j, l, s) := v in i_vfmaddsub132ps (r 0) (r 1) (o 2));
   mkLen "vfmaddsub213pd" (fun v => let (o, a, r, n, e, j, l, s) := v in i_vfmaddsub213pd (r 0) (r 1) (o 2))].
Lemma lens44_ok : Forall entry_within lens44.
Proof. unfold lens44.
row. { unfold i_vcvttss2si_do. row_len. }
row. { unfold i_vdivpd. row_len. }
row. { unfold i_vdivps. row_len. }
row. { unfold i_vdivsd. row_len. }
row. { unfold i_vdivss. row_len. }
row. { unfold i_vdppd_xxoi. row_len. }
row. { unfold i_vdpps_xxoi. row_len. }
row. { unfold i_vextractf128. row_len. }
row. { unfold i_vextracti128. row_len. }
row. { unfold i_vextractps. row_len. }
row. { unfold i_vfmadd132pd. row_len. }
row. { unfold i_vfmadd132ps. row_len. }
row. { unfold i_vfmadd132sd. row_len. }
row. { unfold i_vfmadd132ss. row_len. }
row. { unfold i_vfmadd213pd. row_len. }
row. { unfold i_vfmadd213ps. row_len. }
row. { unfold i_vfmadd213sd. row_len. }
row. { unfold i_vfmadd213ss. row_len. }
row. { unfold i_vfmadd231pd. row_len. }
row. { unfold i_vfmadd231ps. row_len. }
row. { unfold i_vfmadd231sd. row_len. }
row. { unfold i_vfmadd231ss. row_len. }
row. { unfold i_vfmaddsub132pd. row_len. }
row. { unfold i_vfmaddsub132ps. row_len. }
row. { unfold i_vfmaddsub213pd. row_len. }
apply Forall_nil. Qed.
Definition lens45 : list len_entry :=
  [mkLen "vfmaddsub213ps" (fun v => let (o, a, r, n, e, j, l, s) := v in i_vfmaddsub213ps (r 0) (r 1) (o 2));
   mkLen "vfmaddsub231pd" (fun v => let (o, a, r, n, e, j, l, s) := v in i_vfmaddsub231pd (r 0) (r 1) (o 2));
   mkLen "vfmaddsub231ps" (fun v => let (o, a, r, n, e, j, l, s) := v in i_vfmaddsub231ps (r 0) (r 1) (o 2));
   mkLen "vfmsub132pd" (fun v => let (o, a, r, n, e, j, l, s) := v in i_vfmsub132pd (r 0) (r 1) (o 2));
   mkLen "vfmsub132ps" (fun v => let (o, a, r, n, e, j, l, s) := v in i_vfmsub132ps (r 0) (r 1) (o 2));
   mkLen "vfmsub132sd" (fun v => let (o, a, r, n, e, j, l, s) := v in i_vfmsub132sd (r 0) (r 1) (o 2));
   mkLen "vfmsub132ss" (fun v => let (o, a, r, n, e, j, l, s) := v in i_vfmsub132ss (r 0) (r 1) (o 2));
   mkLen "vfmsub213pd" (fun v => let (o, a, r, n, e, j, l, s) := v in i_vfmsub213pd (r 0) (r 1) (o 2));
   mkLen "vfmsub213ps" (fun v => let (o, a, r, n, e, j, l, s) := v in i_vfmsub213ps (r 0) (r 1) (o 2));
   mkLen "vfmsub213sd" (fun v => let (o, a, r, n, e, j, l, s) := v in i_vfmsub213sd (r 0) (r 1) (o 2));
   mkLen "vfmsub213ss" (fun v => let (o, a, r, n, e, j, l, s) := v in i_vfmsub213ss (r 0) (r 1) (o 2));
   mkLen "vfmsub231pd" (fun v => let (o, a, r, n, e, j, l, s) := v in i_vfmsub231pd (r 0) (r 1) (o 2));
   mkLen "vfmsub231ps" (fun v => let (o, a, r, n, e, j, l, s) := v in i_vfmsub231ps (r 0) (r 1) (o 2));
   mkLen "vfmsub231sd" (fun v => let (o, a, r, n, e, j, l, s) := v in i_vfmsub231sd (r 0) (r 1) (o 2));
   mkLen "vfmsub231ss" (fun v => let (o, a, r, n, e, j, l, s) := v in i_vfmsub231ss (r 0) (r 1) (o 2));
   mkLen "vfmsubadd132pd" (fun v => let (o, a, r, n, e, j, l, s) := v in i_vfmsubadd132pd (r 0) (r 1) (o 2));
   mkLen "vfmsubadd132ps" (fun v => let (o, a, r, n, e, j, l, s) := v in i_vfmsubadd132ps (r 0) (r 1) (o 2));
   mkLen "vfmsubadd213pd" (fun v => let (o, a, r, n, e, j, l, s) := v in i_vfmsubadd213pd (r 0) (r 1) (o 2));
   mkLen "vfmsubadd213ps" (fun v => let (o, a, r, n, e, j, l, s) := v in i_vfmsubadd213ps (r 0) (r 1) (o 2));
   mkLen "vfmsubadd231pd" (fun v => let (o, a, r, n, e, j, l, s) := v in i_vfmsubadd231pd (r 0) (r 1) (o 2));
   mkLen "vfmsubadd231ps" (fun v => let (o, a, r, n, e, j, l, s) := v in i_vfmsubadd231ps (r 0) (r 1) (o 2));
   mkLen "vfnmadd132pd" (fun v => let (o, a, r, n, e, j, l, s) := v in i_vfnmadd132pd (r 0) (r 1) (o 2));
   mkLen "vfnmadd132ps" (fun v => let (o, a, r, n, e, j, l, s) := v in i_vfnmadd132ps (r 0) (r 1) (o 2));
   mkLen "vfnmadd132sd" (fun v => let (o, a, r, n, e, j, l, s) := v in i_vfnmadd132sd (r 0) (r 1) (o 2));
   mkLen "vfnmadd132ss" (fun v => let (o, a, r, n, e, j, l, s) := v in i_vfnmadd132ss (r 0) (r 1) (o 2))].
Lemma lens45_ok : Forall entry_within lens45.
Proof. unfold lens45.
row. { unfold i_vfmaddsub213ps. row_len. }
row. { unfold i_vfmaddsub231pd. row_len. }
row. { unfold i_vfmaddsub231ps. row_len. }
row. { unfold i_vfmsub132pd. row_len. }
row. { unfold i_vfmsub132ps. row_len. }
row. { unfold i_vfmsub132sd. row_len. }
row. { unfold i_vfmsub132ss. row_len. }
row. { unfold i_vfmsub213pd. row_len. }
row. { unfold i_vfmsub213ps. row_len. }
row. { unfold i_vfmsub213sd. row_len. }
row. { unfold i_vfmsub213ss. row_len. }
row. { unfold i_vfmsub231pd. row_len. }
row. { unfold i_vfmsub231ps. row_len. }
row. { unfold i_vfmsub231sd. row_len. }
row. { unfold i_vfmsub231ss. row_len. }
row. { unfold i_vfmsubadd132pd. row_len. }
row. { unfold i_vfmsubadd132ps. row_len. }
row. { unfold i_vfmsubadd213pd. row_len. }
row. { unfold i_vfmsubadd213ps. row_len. }
row. { unfold i_vfmsubadd231pd. row_len. }
row. { unfold i_vfmsubadd231ps. row_len. }
row. { unfold i_vfnmadd132pd. row_len. }
row. { unfold i_vfnmadd132ps. row_len. }
row. { unfold i_vfnmadd132sd. row_len. }
row. { unfold i_vfnmadd132ss. row_len. }
apply Forall_nil. Qed.
Definition lens46 : list len_entry :=
  [mkLen "vfnmadd213pd" (fun v => let (o, a, r, n, e, j, l, s) := v in i_vfnmadd213pd (r 0) (r 1) (o 2));
   mkLen "vfnmadd213ps" (fun v => let (o, a, r, n, e, j, l, s) := v in i_vfnmadd213ps (r 0) (r 1) (o 2));
   mkLen "vfnmadd213sd" (fun v => let (o, a, r, n, e, j, l, s) := v in i_vfnmadd213sd (r 0) (r 1) (o 2));
   mkLen "vfnmadd213ss" (fun v => let (o, a, r, n, e, j, l, s) := v in i_vfnmadd213ss (r 0) (r 1) (o 2));
   mkLen "vfnmadd231pd" (fun v => let (o, a, r, n, e, j, l, s) := v in i_vfnmadd231pd (r 0) (r 1) (o 2));
   mkLen "vfnmadd231ps" (fun v => let (o, a, r, n, e, j, l, s) := v in i_vfnmadd231ps (r 0) (r 1) (o 2));
   mkLen "vfnmadd231sd" (fun v => let (o, a, r, n, e, j, l, s) := v in i_vfnmadd231sd (r 0) (r 1) (o 2));
   mkLen "vfnmadd231ss" (fun v => let (o, a, r, n, e, j, l, s) := v in i_vfnmadd231ss (r 0) (r 1) (o 2));
   mkLen "vfnmsub132pd" (fun v => let (o, a, r, n, e, j, l, s) := v in i_vfnmsub132pd (r 0) (r 1) (o 2));
   mkLen "vfnmsub132ps" (fun v => let (o, a, r, n, e, j, l, s) := v in i_vfnmsub132ps (r 0) (r 1) (o 2));
   mkLen "vfnmsub132sd" (fun v => let (o, a, r, n, e, j, l, s) := v in i_vfnmsub132sd (r 0) (r 1) (o 2));
   mkLen "vfnmsub132ss" (fun v => let (o, a, r, n, e, j, l, s) := v in i_vfnmsub132ss (r 0) (r 1) (o 2));
   mkLen "vfnmsub213pd" (fun v => let (o, a, r, n, e, j, l, s) := v in i_vfnmsub213pd (r 0) (r 1) (o 2));
   mkLen "vfnmsub213ps" (fun v => let (o, a, r, n, e, j, l, s) := v in i_vfnmsub213ps (r 0) (r 1) (o 2));
   mkLen "vfnmsub213sd" (fun v => let (o, a, r, n, e, j, l, s) := v in i_vfnmsub213sd (r 0) (r 1) (o 2));
   mkLen "vfnmsub213ss" (fun v => let (o, a, r, n, e, j, l, s) := v in i_vfnmsub213ss (r 0) (r 1) (o 2));
   mkLen "vfnmsub231pd" (fun v => let (o, a, r, n, e, j, l, s) := v in i_vfnmsub231pd (r 0) (r 1) (o 2));
   mkLen "vfnmsub231ps" (fun v => let (o, a, r, n, e, j, l, s) := v in i_vfnmsub231ps (r 0) (r 1) (o 2));
   mkLen "vfnmsub231sd" (fun v => let (o, a, r, n, e, j, l, s) := v in i_vfnmsub231sd (r 0) (r 1) (o 2));
   mkLen "vfnmsub231ss" (fun v => let (o, a, r, n, e, j, l, s) := v in i_vfnmsub231ss (r 0) (r 1) (o 2));
   mkLen "vgatherdpd_xax" (fun v => let (o, a, r, n, e, j, l, s) := v in i_vgatherdpd_xax (r 0) (a 1) (r 2));
   mkLen "vgatherdps_xax" (fun v => let (o, a, r, n, e, j, l, s) := v in i_vgatherdps_xax (r 0) (a 1) (r 2));
   mkLen "vgatherqpd_xax" (fun v => let (o, a, r, n, e, j, l, s) := v in i_vgatherqpd_xax (r 0) (a 1) (r 2));
   mkLen "vgatherqps_xax" (fun v => let (o, a, r, n, e, j, l, s) := v in i_vgatherqps_xax (r 0) (a 1) (r 2));
   mkLen "vgf2p8affineinvqb" (fun v => let (o, a, r, n, e, j, l, s) := v in i_vgf2p8affineinvqb (r 0) (r 1) (o 2) (n 3))].
Lemma lens46_ok : Forall entry_within lens46.
Proof. unfold lens46.
row. { unfold i_vfnmadd213pd. row_len. }
row. { unfold i_vfnmadd213ps. row_len. }
row. { unfold i_vfnmadd213sd. row_len. }
row. { unfold i_vfnmadd213ss. row_len. }
row. { unfold i_vfnmadd231pd. row_len. }
row. { unfold i_vfnmadd231ps. row_len. }
row. { unfold i_vfnmadd231sd. row_len. }
row. { unfold i_vfnmadd231ss. row_len. }
row. { unfold i_vfnmsub132pd. row_len. }
row. { unfold i_vfnmsub132ps. row_len. }
row. { unfold i_vfnmsub132sd. row_len. }
row. { unfold i_vfnmsub132ss. row_len. }
row. { unfold i_vfnmsub213pd. row_len. }
row. { unfold i_vfnmsub213ps. row_len. }
row. { unfold i_vfnmsub213sd. row_len. }
row. { unfold i_vfnmsub213ss. row_len. }
row. { unfold i_vfnmsub231pd. row_len. }
row. { unfold i_vfnmsub231ps. row_len. }
row. { unfold i_vfnmsub231sd. row_len. }
row. { unfold i_vfnmsub231ss. row_len. }
row. { unfold i_vgatherdpd_xax. row_len. }
row. { unfold i_vgatherdps_xax. row_len. }
row. { unfold i_vgatherqpd_xax. row_len. }
row. { unfold i_vgatherqps_xax. row_len. }
row. { unfold i_vgf2p8affineinvqb. row_len. }
apply Forall_nil. Qed.
Definition lens47 : list len_entry :=
  [mkLen "vgf2p8affineqb" (fun v => let (o, a, r, n, e, j, l, s) := v in i_vgf2p8affineqb (r 0) (r 1) (o 2) (n 3));
   mkLen "vgf2p8mulb" (fun v => let (o, a, r, n, e, j, l, s) := v in i_vgf2p8mulb (r 0) (r 1) (o 2));
   mkLen "vhaddpd" (fun v => let (o, a, r, n, e, j, l, s) := v in i_vhaddpd (r 0) (o 1) (o 2));
   mkLen "vhaddps" (fun v => let (o, a, r, n, e, j, l, s) := v in i_vhaddps (r 0) (o 1) (o 2));
   mkLen "vhsubpd" (fun v => let (o, a, r, n, e, j, l, s) := v in i_vhsubpd (r 0) (o 1) (o 2));
   mkLen "vhsubps" (fun v => let (o, a, r, n, e, j, l, s) := v in i_vhsubps (r 0) (o 1) (o 2));
   mkLen "vinsertf128" (fun v => let (o, a, r, n, e, j, l, s) := v in i_vinsertf128 (r 0) (r 1) (o 2) (n 3));
   mkLen "vinserti128" (fun v => let (o, a, r, n, e, j, l, s) := v in i_vinserti128 (r 0) (r 1) (o 2) (n 3));
   mkLen "vinsertps_xxoi" (fun v => let (o, a, r, n, e, j, l, s) := v in i_vinsertps_xxoi (r 0) (r 1) (o 2) (n 3));
   mkLen "vlddqu" (fun v => let (o, a, r, n, e, j, l, s) := v in i_vlddqu (r 0) (a 1));
   mkLen "vldmxcsr" (fun v => let (o, a, r, n, e, j, l, s) := v in i_vldmxcsr (a 0));
   mkLen "vmaskmovdqu" (fun v => let (o, a, r, n, e, j, l, s) := v in i_vmaskmovdqu (r 0) (r 1));
   mkLen "vmaskmovpd_axx" (fun v => let (o, a, r, n, e, j, l, s) := v in i_vmaskmovpd_axx (a 0) (r 1) (r 2));
   mkLen "vmaskmovpd_xxa" (fun v => let (o, a, r, n, e, j, l, s) := v in i_vmaskmovpd_xxa (r 0) (r 1) (a 2));
   mkLen "vmaskmovps_axx" (fun v => let (o, a, r, n, e, j, l, s) := v in i_vmaskmovps_axx (a 0) (r 1) (r 2));
   mkLen "vmaskmovps_xxa" (fun v => let (o, a, r, n, e, j, l, s) := v in i_vmaskmovps_xxa (r 0) (r 1) (a 2));
   mkLen "vmaxpd" (fun v => let (o, a, r, n, e, j, l, s) := v in i_vmaxpd (r 0) (o 1) (o 2));
   mkLen "vmaxps" (fun v => let (o, a, r, n, e, j, l, s) := v in i_vmaxps (r 0) (o 1) (o 2));
   mkLen "vmaxsd" (fun v => let (o, a, r, n, e, j, l, s) := v in i_vmaxsd (r 0) (o 1) (o 2));
   mkLen "vmaxss" (fun v => let (o, a, r, n, e, j, l, s) := v in i_vmaxss (r 0) (o 1) (o 2));
   mkLen "vminpd" (fun v => let (o, a, r, n, e, j, l, s) := v in i_vminpd (r 0) (o 1) (o 2));
   mkLen "vminps" (fun v => let (o, a, r, n, e, j, l, s) := v in i_vminps (r 0) (o 1) (o 2));
   mkLen "vminsd" (fun v => let (o, a, r, n, e, j, l, s) := v in i_vminsd (r 0) (o 1) (o 2));
   mkLen "vminss" (fun v => let (o, a, r, n, e, j, l, s) := v in i_vminss (r 0) (o 1) (o 2));
   mkLen "vmovapd_ax" (fun v => let (o, a, r, n, e, j, l, s) := v in i_vmovapd_ax (a 0) (r 1))].
Lemma lens47_ok : Forall entry_within lens47.
Proof. unfold lens47.
row. { unfold i_vgf2p8affineqb. row_len. }
row. { unfold i_vgf2p8mulb. row_len. }
row. { unfold i_vhaddpd. row_len. }
row. { unfold i_vhaddps. row_len. }
row. { unfold i_vhsubpd. row_len. }
row. { unfold i_vhsubps. row_len. }
row. { unfold i_vinsertf128. row_len. }
row. { unfold i_vinserti128. row_len. }
row. { unfold i_vinsertps_xxoi. row_len. }
row. { unfold i_vlddqu. row_len. }
row. { unfold i_vldmxcsr. row_len. }
row. { unfold i_vmaskmovdqu. row_len. }
row. { unfold i_vmaskmovpd_axx. row_len. }
row. { unfold i_vmaskmovpd_xxa. row_len. }
row. { unfold i_vmaskmovps_axx. row_len. }
row. { unfold i_vmaskmovps_xxa. row_len. }
row. { unfold i_vmaxpd. row_len. }
row. { unfold i_vmaxps. row_len. }
row. { unfold i_vmaxsd. row_len. }
row. { unfold i_vmaxss. row_len. }
row. { unfold i_vminpd. row_len. }
row. { unfold i_vminps. row_len. }
row. { unfold i_vminsd. row_len. }
row. { unfold i_vminss. row_len. }
row. { unfold i_vmovapd_ax. row_len. }
apply Forall_nil. Qed.
Definition lens48 : list len_entry :=
  [mkLen "vmovapd_xo" (fun v => let (o, a, r, n, e, j, l, s) := v in i_vmovapd_xo (r 0) (o 1));
   mkLen "vmovaps_ax" (fun v => let (o, a, r, n, e, j, l, s) := v in i_vmovaps_ax (a 0) (r 1));
   mkLen "vmovaps_xo" (fun v => let (o, a, r, n, e, j, l, s) := v in i_vmovaps_xo (r 0) (o 1));
   mkLen "vmovddup" (fun v => let (o, a, r, n, e, j, l, s) := v in i_vmovddup (r 0) (o 1));
   mkLen "vmovdqa_ax" (fun v => let (o, a, r, n, e, j, l, s) := v in i_vmovdqa_ax (a 0) (r 1));
   mkLen "vmovdqa_xo" (fun v => let (o, a, r, n, e, j, l, s) := v in i_vmovdqa_xo (r 0) (o 1));
   mkLen "vmovdqu_ax" (fun v => let (o, a, r, n, e, j, l, s) := v in i_vmovdqu_ax (a 0) (r 1));
   mkLen "vmovdqu_xo" (fun v => let (o, a, r, n, e, j, l, s) := v in i_vmovdqu_xo (r 0) (o 1));
   mkLen "vmovhlps" (fun v => let (o, a, r, n, e, j, l, s) := v in i_vmovhlps (r 0) (r 1) (o 2));
   mkLen "vmovhpd_ax" (fun v => let (o, a, r, n, e, j, l, s) := v in i_vmovhpd_ax (a 0) (r 1));
   mkLen "vmovhpd_xoo" (fun v => let (o, a, r, n, e, j, l, s) := v in i_vmovhpd_xoo (r 0) (o 1) (o 2));
   mkLen "vmovhps_ax" (fun v => let (o, a, r, n, e, j, l, s) := v in i_vmovhps_ax (a 0) (r 1));
   mkLen "vmovhps_xoo" (fun v => let (o, a, r, n, e, j, l, s) := v in i_vmovhps_xoo (r 0) (o 1) (o 2));
   mkLen "vmovlhps" (fun v => let (o, a, r, n, e, j, l, s) := v in i_vmovlhps (r 0) (r 1) (o 2));
   mkLen "vmovlpd_ax" (fun v => let (o, a, r, n, e, j, l, s) := v in i_vmovlpd_ax (a 0) (r 1));
   mkLen "vmovlpd_xoo" (fun v => let (o, a, r, n, e, j, l, s) := v in i_vmovlpd_xoo (r 0) (o 1) (o 2));
   mkLen "vmovlps_ax" (fun v => let (o, a, r, n, e, j, l, s) := v in i_vmovlps_ax (a 0) (r 1));
   mkLen "vmovlps_xoo" (fun v => let (o, a, r, n, e, j, l, s) := v in i_vmovlps_xoo (r 0) (o 1) (o 2));
   mkLen "vmovmskpd" (fun v => let (o, a, r, n, e, j, l, s) := v in i_vmovmskpd (r 0) (r 1));
   mkLen "vmovmskps" (fun v => let (o, a, r, n, e, j, l, s) := v in i_vmovmskps (r 0) (r 1));
   mkLen "vmovntdq" (fun v => let (o, a, r, n, e, j, l, s) := v in i_vmovntdq (a 0) (r 1));
   mkLen "vmovntdqa" (fun v => let (o, a, r, n, e, j, l, s) := v in i_vmovntdqa (r 0) (a 1));
   mkLen "vmovntpd" (fun v => let (o, a, r, n, e, j, l, s) := v in i_vmovntpd (a 0) (r 1));
   mkLen "vmovntps" (fun v => let (o, a, r, n, e, j, l, s) := v in i_vmovntps (a 0) (r 1));
   mkLen "vmovq_ax" (fun v => let (o, a, r, n, e, j, l, s) := v in i_vmovq_ax (a 0) (r 1))].
Lemma lens48_ok : Forall entry_within lens48.
Proof. unfold lens48.
row. { unfold i_vmovapd_xo. row_len. }
row. { unfold i_vmovaps_ax. row_len. }
row. { unfold i_vmovaps_xo. row_len. }
row. { unfold i_vmovddup. row_len. }
row. { unfold i_vmovdqa_ax. row_len. }
row. { unfold i_vmovdqa_xo. row_len. }
row. { unfold i_vmovdqu_ax. row_len. }
row. { unfold i_vmovdqu_xo. row_len. }
row. { unfold i_vmovhlps. row_len. }
row. { unfold i_vmovhpd_ax. row_len. }
row. { unfold i_vmovhpd_xoo. row_len. }
row. { unfold i_vmovhps_ax. row_len. }
row. { unfold i_vmovhps_xoo. row_len. }
row. { unfold i_vmovlhps. row_len. }
row. { unfold i_vmovlpd_ax. row_len. }
row. { unfold i_vmovlpd_xoo. row_len. }
row. { unfold i_vmovlps_ax. row_len. }
row. { unfold i_vmovlps_xoo. row_len. }
row. { unfold i_vmovmskpd. row_len. }
row. { unfold i_vmovmskps. row_len. }
row. { unfold i_vmovntdq. row_len. }
row. { unfold i_vmovntdqa. row_len. }
row. { unfold i_vmovntpd. row_len. }
row. { unfold i_vmovntps. row_len. }
row. { unfold i_vmovq_ax. row_len. }
apply Forall_nil. Qed.
Definition lens49 : list len_entry :=
  [mkLen "vmovq_xa" (fun v => let (o, a, r, n, e, j, l, s) := v in i_vmovq_xa (r 0) (a 1));
   mkLen "vmovq_xx" (fun v => let (o, a, r, n, e, j, l, s) := v in i_vmovq_xx (r 0) (r 1));
   mkLen "vmovsd_ax" (fun v => let (o, a, r, n, e, j, l, s) := v in i_vmovsd_ax (a 0) (r 1));
   mkLen "vmovsd_xa" (fun v => let (o, a, r, n, e, j, l, s) := v in i_vmovsd_xa (r 0) (a 1));
   mkLen "vmovsd_xxo" (fun v => let (o, a, r, n, e, j, l, s) := v in i_vmovsd_xxo (r 0) (r 1) (o 2));
   mkLen "vmovshdup" (fun v => let (o, a, r, n, e, j, l, s) := v in i_vmovshdup (r 0) (o 1));
   mkLen "vmovsldup" (fun v => let (o, a, r, n, e, j, l, s) := v in i_vmovsldup (r 0) (o 1));
   mkLen "vmovss_ax" (fun v => let (o, a, r, n, e, j, l, s) := v in i_vmovss_ax (a 0) (r 1));
   mkLen "vmovss_xa" (fun v => let (o, a, r, n, e, j, l, s) := v in i_vmovss_xa (r 0) (a 1));
   mkLen "vmovss_xxo" (fun v => let (o, a, r, n, e, j, l, s) := v in i_vmovss_xxo (r 0) (r 1) (o 2));
   mkLen "vmovupd_ax" (fun v => let (o, a, r, n, e, j, l, s) := v in i_vmovupd_ax (a 0) (r 1));
   mkLen "vmovupd_xo" (fun v => let (o, a, r, n, e, j, l, s) := v in i_vmovupd_xo (r 0) (o 1));
   mkLen "vmovups_ax" (fun v => let (o, a, r, n, e, j, l, s) := v in i_vmovups_ax (a 0) (r 1));
   mkLen "vmovups_xo" (fun v => let (o, a, r, n, e, j, l, s) := v in i_vmovups_xo (r 0) (o 1));
   mkLen "vmulpd" (fun v => let (o, a, r, n, e, j, l, s) := v in i_vmulpd (r 0) (o 1) (o 2));
   mkLen "vmulps" (fun v => let (o, a, r, n, e, j, l, s) := v in i_vmulps (r 0) (o 1) (o 2));
   mkLen "vmulsd" (fun v => let (o, a, r, n, e, j, l, s) := v in i_vmulsd (r 0) (o 1) (o 2));
   mkLen "vmulss" (fun v => let (o, a, r, n, e, j, l, s) := v in i_vmulss (r 0) (o 1) (o 2));
   mkLen "vorpd" (fun v => let (o, a, r, n, e, j, l, s) := v in i_vorpd (r 0) (o 1) (o 2));
   mkLen "vorps" (fun v => let (o, a, r, n, e, j, l, s) := v in i_vorps (r 0) (o 1) (o 2));
   mkLen "vpabsb" (fun v => let (o, a, r, n, e, j, l, s) := v in i_vpabsb (r 0) (o 1));
   mkLen "vpabsd" (fun v => let (o, a, r, n, e, j, l, s) := v in i_vpabsd (r 0) (o 1));
   mkLen "vpabsw" (fun v => let (o, a, r, n, e, j, l, s) := v in i_vpabsw (r 0) (o 1));
   mkLen "vpackssdw_xxo" (fun v => let (o, a, r, n, e, j, l, s) := v in i_vpackssdw_xxo (r 0) (r 1) (o 2));
   mkLen "vpacksswb_xxo" (fun v => let (o, a, r, n, e, j, l, s) := v in i_vpacksswb_xxo (r 0) (r 1) (o 2))].
Lemma lens49_ok : Forall entry_within lens49.
Proof. unfold lens49.
row. { unfold i_vmovq_xa. row_len. }
row. { unfold i_vmovq_xx. row_len. }
row. { unfold i_vmovsd_ax. row_len. }
row. { unfold i_vmovsd_xa. row_len. }
row. { unfold i_vmovsd_xxo. row_len. }
row. { unfold i_vmovshdup. row_len. }
row. { unfold i_vmovsldup. row_len. }
row. { unfold i_vmovss_ax. row_len. }
row. { unfold i_vmovss_xa. row_len. }
row. { unfold i_vmovss_xxo. row_len. }
row. { unfold i_vmovupd_ax. row_len. }
row. { unfold i_vmovupd_xo. row_len. }
row. { unfold i_vmovups_ax. row_len. }
row. { unfold i_vmovups_xo. row_len. }
row. { unfold i_vmulpd. row_len. }
row. { unfold i_vmulps. row_len. }
row. { unfold i_vmulsd. row_len. }
row. { unfold i_vmulss. row_len. }
row. { unfold i_vorpd. row_len. }
row. { unfold i_vorps. row_len. }
row. { unfold i_vpabsb. row_len. }
row. { unfold i_vpabsd. row_len. }
row. { unfold i_vpabsw. row_len. }
row. { unfold i_vpackssdw_xxo. row_len. }
row. { unfold i_vpacksswb_xxo. row_len. }
apply Forall_nil. Qed.
Definition lens50 : list len_entry :=
  [mkLen "vpackusdw_xxo" (fun v => let (o, a, r, n, e, j, l, s) := v in i_vpackusdw_xxo (r 0) (r 1) (o 2));
   mkLen "vpackuswb_xxo" (fun v => let (o, a, r, n, e, j, l, s) := v in i_vpackuswb_xxo (r 0) (r 1) (o 2));
   mkLen "vpaddb_xxo" (fun v => let (o, a, r, n, e, j, l, s) := v in i_vpaddb_xxo (r 0) (r 1) (o 2));
   mkLen "vpaddd_xxo" (fun v => let (o, a, r, n, e, j, l, s) := v in i_vpaddd_xxo (r 0) (r 1) (o 2));
   mkLen "vpaddq_xxo" (fun v => let (o, a, r, n, e, j, l, s) := v in i_vpaddq_xxo (r 0) (r 1) (o 2));
   mkLen "vpaddsb_xxo" (fun v => let (o, a, r, n, e, j, l, s) := v in i_vpaddsb_xxo (r 0) (r 1) (o 2));
   mkLen "vpaddsw_xxo" (fun v => let (o, a, r, n, e, j, l, s) := v in i_vpaddsw_xxo (r 0) (r 1) (o 2));
   mkLen "vpaddusb_xxo" (fun v => let (o, a, r, n, e, j, l, s) := v in i_vpaddusb_xxo (r 0) (r 1) (o 2));
   mkLen "vpaddusw_xxo" (fun v => let (o, a, r, n, e, j, l, s) := v in i_vpaddusw_xxo (r 0) (r 1) (o 2));
   mkLen "vpaddw_xxo" (fun v => let (o, a, r, n, e, j, l, s) := v in i_vpaddw_xxo (r 0) (r 1) (o 2));
   mkLen "vpalignr_xxoi" (fun v => let (o, a, r, n, e, j, l, s) := v in i_vpalignr_xxoi (r 0) (r 1) (o 2) (n 3));
   mkLen "vpand_xxo" (fun v => let (o, a, r, n, e, j, l, s) := v in i_vpand_xxo (r 0) (r 1) (o 2));
   mkLen "vpandn_xxo" (fun v => let (o, a, r, n, e, j, l, s) := v in i_vpandn_xxo (r 0) (r 1) (o 2));
   mkLen "vpavgb_xxo" (fun v => let (o, a, r, n, e, j, l, s) := v in i_vpavgb_xxo (r 0) (r 1) (o 2));
   mkLen "vpavgw_xxo" (fun v => let (o, a, r, n, e, j, l, s) := v in i_vpavgw_xxo (r 0) (r 1) (o 2));
   mkLen "vpblendd_xxoi" (fun v => let (o, a, r, n, e, j, l, s) := v in i_vpblendd_xxoi (r 0) (r 1) (o 2) (n 3));
   mkLen "vpblendvb_xxox" (fun v => let (o, a, r, n, e, j, l, s) := v in i_vpblendvb_xxox (r 0) (r 1) (o 2) (r 3));
   mkLen "vpblendw_xxoi" (fun v => let (o, a, r, n, e, j, l, s) := v in i_vpblendw_xxoi (r 0) (r 1) (o 2) (n 3));
   mkLen "vpbroadcastb_xo" (fun v => let (o, a, r, n, e, j, l, s) := v in i_vpbroadcastb_xo (r 0) (o 1));
   mkLen "vpbroadcastd_xo" (fun v => let (o, a, r, n, e, j, l, s) := v in i_vpbroadcastd_xo (r 0) (o 1));
   mkLen "vpbroadcastq_xo" (fun v => let (o, a, r, n, e, j, l, s) := v in i_vpbroadcastq_xo (r 0) (o 1));
   mkLen "vpbroadcastw_xo" (fun v => let (o, a, r, n, e, j, l, s) := v in i_vpbroadcastw_xo (r 0) (o 1));
   mkLen "vpclmulqdq_xxoi" (fun v => let (o, a, r, n, e, j, l, s) := v in i_vpclmulqdq_xxoi (r 0) (r 1) (o 2) (n 3));
   mkLen "vpclmulhqhqdq" (fun v => let (o, a, r, n, e, j, l, s) := v in i_vpclmulhqhqdq (r 0) (r 1) (o 2));
   mkLen "vpclmulhqlqdq" (fun v => let (o, a, r, n, e, j, l, s) := v in i_vpclmulhqlqdq (r 0) (r 1) (o 2))].
Lemma lens50_ok : Forall entry_within lens50.
Proof. unfold lens50.
row. { unfold i_vpackusdw_xxo. row_len. }
row. { unfold i_vpackuswb_xxo. row_len. }
row. { unfold i_vpaddb_xxo. row_len. }
row. { unfold i_vpaddd_xxo. row_len. }
row. { unfold i_vpaddq_xxo. row_len. }
row. { unfold i_vpaddsb_xxo. row_len. }
row. { unfold i_vpaddsw_xxo. row_len. }
row. { unfold i_vpaddusb_xxo. row_len. }
row. { unfold i_vpaddusw_xxo. row_len. }
row. { unfold i_vpaddw_xxo. row_len. }
row. { unfold i_vpalignr_xxoi. row_len. }
row. { unfold i_vpand_xxo. row_len. }
row. { unfold i_vpandn_xxo. row_len. }
row. { unfold i_vpavgb_xxo. row_len. }
row. { unfold i_vpavgw_xxo. row_len. }
row. { unfold i_vpblendd_xxoi. row_len. }
row. { unfold i_vpblendvb_xxox. row_len. }
row. { unfold i_vpblendw_xxoi. row_len. }
row. { unfold i_vpbroadcastb_xo. row_len. }
row. { unfold i_vpbroadcastd_xo. row_len. }
row. { unfold i_vpbroadcastq_xo. row_len. }
row. { unfold i_vpbroadcastw_xo. row_len. }
row. { unfold i_vpclmulqdq_xxoi. row_len. }
row. { unfold i_vpclmulhqhqdq, i_vpclmulqdq_xxoi. row_len. }
row. { unfold i_vpclmulhqlqdq, i_vpclmulqdq_xxoi. row_len. }
apply Forall_nil. Qed.
Definition lens51 : list len_entry :=
  [mkLen "vpclmullqhqdq" (fun v => let (o, a, r, n, e, j, l, s) := v in i_vpclmullqhqdq (r 0) (r 1) (o 2));
   mkLen "vpclmullqlqdq" (fun v => let (o, a, r, n, e, j, l, s) := v in i_vpclmullqlqdq (r 0) (r 1) (o 2));
   mkLen "vpcmpeqb_xxo" (fun v => let (o, a, r, n, e, j, l, s) := v in i_vpcmpeqb_xxo (r 0) (r 1) (o 2));
   mkLen "vpcmpeqd_xxo" (fun v => let (o, a, r, n, e, j, l, s) := v in i_vpcmpeqd_xxo (r 0) (r 1) (o 2));
   mkLen "vpcmpeqq_xxo" (fun v => let (o, a, r, n, e, j, l, s) := v in i_vpcmpeqq_xxo (r 0) (r 1) (o 2));
   mkLen "vpcmpeqw_xxo" (fun v => let (o, a, r, n, e, j, l, s) := v in i_vpcmpeqw_xxo (r 0) (r 1) (o 2));
   mkLen "vpcmpestri" (fun v => let (o, a, r, n, e, j, l, s) := v in i_vpcmpestri (r 0) (o 1) (n 2));
   mkLen "vpcmpestrm" (fun v => let (o, a, r, n, e, j, l, s) := v in i_vpcmpestrm (r 0) (o 1) (n 2));
   mkLen "vpcmpgtb_xxo" (fun v => let (o, a, r, n, e, j, l, s) := v in i_vpcmpgtb_xxo (r 0) (r 1) (o 2));
   mkLen "vpcmpgtd_xxo" (fun v => let (o, a, r, n, e, j, l, s) := v in i_vpcmpgtd_xxo (r 0) (r 1) (o 2));
   mkLen "vpcmpgtq_xxo" (fun v => let (o, a, r, n, e, j, l, s) := v in i_vpcmpgtq_xxo (r 0) (r 1) (o 2));
   mkLen "vpcmpgtw_xxo" (fun v => let (o, a, r, n, e, j, l, s) := v in i_vpcmpgtw_xxo (r 0) (r 1) (o 2));
   mkLen "vpcmpistri" (fun v => let (o, a, r, n, e, j, l, s) := v in i_vpcmpistri (r 0) (o 1) (n 2));
   mkLen "vpcmpistrm" (fun v => let (o, a, r, n, e, j, l, s) := v in i_vpcmpistrm (r 0) (o 1) (n 2));
   mkLen "vpdpbusd" (fun v => let (o, a, r, n, e, j, l, s) := v in i_vpdpbusd (r 0) (r 1) (o 2) e);
   mkLen "vpdpbusds" (fun v => let (o, a, r, n, e, j, l, s) := v in i_vpdpbusds (r 0) (r 1) (o 2) e);
   mkLen "vpdpwssd" (fun v => let (o, a, r, n, e, j, l, s) := v in i_vpdpwssd (r 0) (r 1) (o 2) e);
   mkLen "vpdpwssds" (fun v => let (o, a, r, n, e, j, l, s) := v in i_vpdpwssds (r 0) (r 1) (o 2) e);
   mkLen "vperm2f128" (fun v => let (o, a, r, n, e, j, l, s) := v in i_vperm2f128 (r 0) (r 1) (o 2) (n 3));
   mkLen "vperm2i128" (fun v => let (o, a, r, n, e, j, l, s) := v in i_vperm2i128 (r 0) (r 1) (o 2) (n 3));
   mkLen "vpermd" (fun v => let (o, a, r, n, e, j, l, s) := v in i_vpermd (r 0) (r 1) (o 2));
   mkLen "vpermilpd_xxo" (fun v => let (o, a, r, n, e, j, l, s) := v in i_vpermilpd_xxo (r 0) (r 1) (o 2));
   mkLen "vpermilpd_xoi" (fun v => let (o, a, r, n, e, j, l, s) := v in i_vpermilpd_xoi (r 0) (o 1) (n 2));
   mkLen "vpermilps_xxo" (fun v => let (o, a, r, n, e, j, l, s) := v in i_vpermilps_xxo (r 0) (r 1) (o 2));
   mkLen "vpermilps_xoi" (fun v => let (o, a, r, n, e, j, l, s) := v in i_vpermilps_xoi (r 0) (o 1) (n 2))].
Lemma lens51_ok : Forall entry_within lens51.
Proof. unfold lens51.
row. { unfold i_vpclmullqhqdq, i_vpclmulqdq_xxoi. row_len. }
row. { unfold i_vpclmullqlqdq, i_vpclmulqdq_xxoi. row_len. }
row. { unfold i_vpcmpeqb_xxo. row_len. }
row. { unfold i_vpcmpeqd_xxo. row_len. }
row. { unfold i_vpcmpeqq_xxo. row_len. }
row. { unfold i_vpcmpeqw_xxo. row_len. }
row. { unfold i_vpcmpestri. row_len. }
row. { unfold i_vpcmpestrm. row_len. }
row. { unfold i_vpcmpgtb_xxo. row_len. }
row. { unfold i_vpcmpgtd_xxo. row_len. }
row. { unfold i_vpcmpgtq_xxo. row_len. }
row. { unfold i_vpcmpgtw_xxo. row_len. }
row. { unfold i_vpcmpistri. row_len. }
row. { unfold i_vpcmpistrm. row_len. }
row. { unfold i_vpdpbusd. row_len. }
row. { unfold i_vpdpbusds. row_len. }
row. { unfold i_vpdpwssd. row_len. }
row. { unfold i_vpdpwssds. row_len. }
row. { unfold i_vperm2f128. row_len. }
row. { unfold i_vperm2i128. row_len. }
row. { unfold i_vpermd. row_len. }
row. { unfold i_vpermilpd_xxo. row_len. }
row. { unfold i_vpermilpd_xoi. row_len. }
row. { unfold i_vpermilps_xxo. row_len. }
row. { unfold i_vpermilps_xoi. row_len. }
apply Forall_nil. Qed.
Definition lens52 : list len_entry :=
  [mkLen "vpermpd_yoi" (fun v => let (o, a, r, n, e, j, l, s) := v in i_vpermpd_yoi (r 0) (o 1) (n 2));
   mkLen "vpermpd_yyo" (fun v => let (o, a, r, n, e, j, l, s) := v in i_vpermpd_yyo (r 0) (r 1) (o 2));
   mkLen "vpermps" (fun v => let (o, a, r, n, e, j, l, s) := v in i_vpermps (r 0) (r 1) (o 2));
   mkLen "vpermq_yoi" (fun v => let (o, a, r, n, e, j, l, s) := v in i_vpermq_yoi (r 0) (o 1) (n 2));
   mkLen "vpermq_yyo" (fun v => let (o, a, r, n, e, j, l, s) := v in i_vpermq_yyo (r 0) (r 1) (o 2));
   mkLen "vpextrb" (fun v => let (o, a, r, n, e, j, l, s) := v in i_vpextrb (o 0) (r 1) (n 2));
   mkLen "vpextrd" (fun v => let (o, a, r, n, e, j, l, s) := v in i_vpextrd (o 0) (r 1) (n 2));
   mkLen "vpextrq" (fun v => let (o, a, r, n, e, j, l, s) := v in i_vpextrq (o 0) (r 1) (n 2));
   mkLen "vpextrw" (fun v => let (o, a, r, n, e, j, l, s) := v in i_vpextrw (o 0) (r 1) (n 2));
   mkLen "vpgatherdd_xax" (fun v => let (o, a, r, n, e, j, l, s) := v in i_vpgatherdd_xax (r 0) (a 1) (r 2));
   mkLen "vpgatherdq_xax" (fun v => let (o, a, r, n, e, j, l, s) := v in i_vpgatherdq_xax (r 0) (a 1) (r 2));
   mkLen "vpgatherqd_xax" (fun v => let (o, a, r, n, e, j, l, s) := v in i_vpgatherqd_xax (r 0) (a 1) (r 2));
   mkLen "vpgatherqq_xax" (fun v => let (o, a, r, n, e, j, l, s) := v in i_vpgatherqq_xax (r 0) (a 1) (r 2));
   mkLen "vphaddd_xxo" (fun v => let (o, a, r, n, e, j, l, s) := v in i_vphaddd_xxo (r 0) (r 1) (o 2));
   mkLen "vphaddsw_xxo" (fun v => let (o, a, r, n, e, j, l, s) := v in i_vphaddsw_xxo (r 0) (r 1) (o 2));
   mkLen "vphaddw_xxo" (fun v => let (o, a, r, n, e, j, l, s) := v in i_vphaddw_xxo (r 0) (r 1) (o 2));
   mkLen "vphminposuw" (fun v => let (o, a, r, n, e, j, l, s) := v in i_vphminposuw (r 0) (o 1));
   mkLen "vphsubd_xxo" (fun v => let (o, a, r, n, e, j, l, s) := v in i_vphsubd_xxo (r 0) (r 1) (o 2));
   mkLen "vphsubsw_xxo" (fun v => let (o, a, r, n, e, j, l, s) := v in i_vphsubsw_xxo (r 0) (r 1) (o 2));
   mkLen "vphsubw_xxo" (fun v => let (o, a, r, n, e, j, l, s) := v in i_vphsubw_xxo (r 0) (r 1) (o 2));
   mkLen "vpinsrb_xxoi" (fun v => let (o, a, r, n, e, j, l, s) := v in i_vpinsrb_xxoi (r 0) (r 1) (o 2) (n 3));
   mkLen "vpinsrd_xxoi" (fun v => let (o, a, r, n, e, j, l, s) := v in i_vpinsrd_xxoi (r 0) (r 1) (o 2) (n 3));
   mkLen "vpinsrq_xxoi" (fun v => let (o, a, r, n, e, j, l, s) := v in i_vpinsrq_xxoi (r 0) (r 1) (o 2) (n 3));
   mkLen "vpinsrw_xxoi" (fun v => let (o, a, r, n, e, j, l, s) := v in i_vpinsrw_xxoi (r 0) (r 1) (o 2) (n 3));
   mkLen "vpmaddubsw_xxo" (fun v => let (o, a, r, n, e, j, l, s) := v in i_vpmaddubsw_xxo (r 0) (r 1) (o 2))].
Lemma lens52_ok : Forall entry_within lens52.
Proof. unfold lens52.
row. { unfold i_vpermpd_yoi. row_len. }
row. { unfold i_vpermpd_yyo. row_len. }
row. { unfold i_vpermps. row_len. }
row. { unfold i_vpermq_yoi. row_len. }
row. { unfold i_vpermq_yyo. row_len. }
row. { unfold i_vpextrb. row_len. }
row. { unfold i_vpextrd. row_len. }
row. { unfold i_vpextrq. row_len. }
row. { unfold i_vpextrw. row_len. }
row. { unfold i_vpgatherdd_xax. row_len. }
row. { unfold i_vpgatherdq_xax. row_len. }
row. { unfold i_vpgatherqd_xax. row_len. }
row. { unfold i_vpgatherqq_xax. row_len. }
row. { unfold i_vphaddd_xxo. row_len. }
row. { unfold i_vphaddsw_xxo. row_len. }
row. { unfold i_vphaddw_xxo. row_len. }
row. { unfold i_vphminposuw. row_len. }
row. { unfold i_vphsubd_xxo. row_len. }
row. { unfold i_vphsubsw_xxo. row_len. }
row. { unfold i_vphsubw_xxo. row_len. }
row. { unfold i_vpinsrb_xxoi. row_len. }
row. { unfold i_vpinsrd_xxoi. row_len. }
row. { unfold i_vpinsrq_xxoi. row_len. }
row. { unfold i_vpinsrw_xxoi. row_len. }
row. { unfold i_vpmaddubsw_xxo. row_len. }
apply Forall_nil. Qed.
Definition lens53 : list len_entry :=
  [mkLen "vpmaddwd_xxo" (fun v => let (o, a, r, n, e, j, l, s) := v in i_vpmaddwd_xxo (r 0) (r 1) (o 2));
   mkLen "vpmaskmovd_axx" (fun v => let (o, a, r, n, e, j, l, s) := v in i_vpmaskmovd_axx (a 0) (r 1) (r 2));
   mkLen "vpmaskmovd_xxa" (fun v => let (o, a, r, n, e, j, l, s) := v in i_vpmaskmovd_xxa (r 0) (r 1) (a 2));
   mkLen "vpmaskmovq_axx" (fun v => let (o, a, r, n, e, j, l, s) := v in i_vpmaskmovq_axx (a 0) (r 1) (r 2));
   mkLen "vpmaskmovq_xxa" (fun v => let (o, a, r, n, e, j, l, s) := v in i_vpmaskmovq_xxa (r 0) (r 1) (a 2));
   mkLen "vpmaxsb_xxo" (fun v => let (o, a, r, n, e, j, l, s) := v in i_vpmaxsb_xxo (r 0) (r 1) (o 2));
   mkLen "vpmaxsd_xxo" (fun v => let (o, a, r, n, e, j, l, s) := v in i_vpmaxsd_xxo (r 0) (r 1) (o 2));
   mkLen "vpmaxsw_xxo" (fun v => let (o, a, r, n, e, j, l, s) := v in i_vpmaxsw_xxo (r 0) (r 1) (o 2));
   mkLen "vpmaxub_xxo" (fun v => let (o, a, r, n, e, j, l, s) := v in i_vpmaxub_xxo (r 0) (r 1) (o 2));
   mkLen "vpmaxud_xxo" (fun v => let (o, a, r, n, e, j, l, s) := v in i_vpmaxud_xxo (r 0) (r 1) (o 2));
   mkLen "vpmaxuw_xxo" (fun v => let (o, a, r, n, e, j, l, s) := v in i_vpmaxuw_xxo (r 0) (r 1) (o 2));
   mkLen "vpminsb_xxo" (fun v => let (o, a, r, n, e, j, l, s) := v in i_vpminsb_xxo (r 0) (r 1) (o 2));
   mkLen "vpminsd_xxo" (fun v => let (o, a, r, n, e, j, l, s) := v in i_vpminsd_xxo (r 0) (r 1) (o 2));
   mkLen "vpminsw_xxo" (fun v => let (o, a, r, n, e, j, l, s) := v in i_vpminsw_xxo (r 0) (r 1) (o 2));
   mkLen "vpminub_xxo" (fun v => let (o, a, r, n, e, j, l, s) := v in i_vpminub_xxo (r 0) (r 1) (o 2));
   mkLen "vpminud_xxo" (fun v => let (o, a, r, n, e, j, l, s) := v in i_vpminud_xxo (r 0) (r 1) (o 2));
   mkLen "vpminuw_xxo" (fun v => let (o, a, r, n, e, j, l, s) := v in i_vpminuw_xxo (r 0) (r 1) (o 2));
   mkLen "vpmovmskb" (fun v => let (o, a, r, n, e, j, l, s) := v in i_vpmovmskb (r 0) (r 1));
   mkLen "vpmovsxbd" (fun v => let (o, a, r, n, e, j, l, s) := v in i_vpmovsxbd (r 0) (o 1));
   mkLen "vpmovsxbq" (fun v => let (o, a, r, n, e, j, l, s) := v in i_vpmovsxbq (r 0) (o 1));
   mkLen "vpmovsxbw" (fun v => let (o, a, r, n, e, j, l, s) := v in i_vpmovsxbw (r 0) (o 1));
   mkLen "vpmovsxdq" (fun v => let (o, a, r, n, e, j, l, s) := v in i_vpmovsxdq (r 0) (o 1));
   mkLen "vpmovsxwd" (fun v => let (o, a, r, n, e, j, l, s) := v in i_vpmovsxwd (r 0) (o 1));
   mkLen "vpmovsxwq" (fun v => let (o, a, r, n, e, j, l, s) := v in i_vpmovsxwq (r 0) (o 1));
   mkLen "vpmovzxbd" (fun v => let (o, a, r, n, e, j, l, s) := v in i_vpmovzxbd (r 0) (o 1))].
Lemma lens53_ok : Forall entry_within lens53.
Proof. unfold lens53.
row. { unfold i_vpmaddwd_xxo. row_len. }
row. { unfold i_vpmaskmovd_axx. row_len. }
row. { unfold i_vpmaskmovd_xxa. row_len. }
row. { unfold i_vpmaskmovq_axx. row_len. }
row. { unfold i_vpmaskmovq_xxa. row_len. }
row. { unfold i_vpmaxsb_xxo. row_len. }
row. { unfold i_vpmaxsd_xxo. row_len. }
row. { unfold i_vpmaxsw_xxo. row_len. }
row. { unfold i_vpmaxub_xxo. row_len. }
row. { unfold i_vpmaxud_xxo. row_len. }
row. { unfold i_vpmaxuw_xxo. row_len. }
row. { unfold i_vpminsb_xxo. row_len. }
row. { unfold i_vpminsd_xxo. row_len. }
row. { unfold i_vpminsw_xxo. row_len. }
row. { unfold i_vpminub_xxo. row_len. }
row. { unfold i_vpminud_xxo. row_len. }
row. { unfold i_vpminuw_xxo. row_len. }
row. { unfold i_vpmovmskb. row_len. }
row. { unfold i_vpmovsxbd. row_len. }
row. { unfold i_vpmovsxbq. row_len. }
row. { unfold i_vpmovsxbw. row_len. }
row. { unfold i_vpmovsxdq. row_len. }
row. { unfold i_vpmovsxwd. row_len. }
row. { unfold i_vpmovsxwq. row_len. }
row. { unfold i_vpmovzxbd. row_len. }
apply Forall_nil. Qed.
Definition lens54 : list len_entry :=
  [mkLen "vpmovzxbq" (fun v => let (o, a, r, n, e, j, l, s) := v in i_vpmovzxbq (r 0) (o 1));
   mkLen "vpmovzxbw" (fun v => let (o, a, r, n, e, j, l, s) := v in i_vpmovzxbw (r 0) (o 1));
   mkLen "vpmovzxdq" (fun v => let (o, a, r, n, e, j, l, s) := v in i_vpmovzxdq (r 0) (o 1));
   mkLen "vpmovzxwd" (fun v => let (o, a, r, n, e, j, l, s) := v in i_vpmovzxwd (r 0) (o 1));
   mkLen "vpmovzxwq" (fun v => let (o, a, r, n, e, j, l, s) := v in i_vpmovzxwq (r 0) (o 1));
   mkLen "vpmuldq_xxo" (fun v => let (o, a, r, n, e, j, l, s) := v in i_vpmuldq_xxo (r 0) (r 1) (o 2));
   mkLen "vpmulhrsw_xxo" (fun v => let (o, a, r, n, e, j, l, s) := v in i_vpmulhrsw_xxo (r 0) (r 1) (o 2));
   mkLen "vpmulhuw_xxo" (fun v => let (o, a, r, n, e, j, l, s) := v in i_vpmulhuw_xxo (r 0) (r 1) (o 2));
   mkLen "vpmulhw_xxo" (fun v => let (o, a, r, n, e, j, l, s) := v in i_vpmulhw_xxo (r 0) (r 1) (o 2));
   mkLen "vpmulld_xxo" (fun v => let (o, a, r, n, e, j, l, s) := v in i_vpmulld_xxo (r 0) (r 1) (o 2));
   mkLen "vpmullw_xxo" (fun v => let (o, a, r, n, e, j, l, s) := v in i_vpmullw_xxo (r 0) (r 1) (o 2));
   mkLen "vpmuludq_xxo" (fun v => let (o, a, r, n, e, j, l, s) := v in i_vpmuludq_xxo (r 0) (r 1) (o 2));
   mkLen "vpor_xxo" (fun v => let (o, a, r, n, e, j, l, s) := v in i_vpor_xxo (r 0) (r 1) (o 2));
   mkLen "vpsadbw_xxo" (fun v => let (o, a, r, n, e, j, l, s) := v in i_vpsadbw_xxo (r 0) (r 1) (o 2));
   mkLen "vpshufb" (fun v => let (o, a, r, n, e, j, l, s) := v in i_vpshufb (r 0) (r 1) (o 2));
   mkLen "vpshufd" (fun v => let (o, a, r, n, e, j, l, s) := v in i_vpshufd (r 0) (o 1) (n 2));
   mkLen "vpshufhw" (fun v => let (o, a, r, n, e, j, l, s) := v in i_vpshufhw (r 0) (o 1) (n 2));
   mkLen "vpshuflw" (fun v => let (o, a, r, n, e, j, l, s) := v in i_vpshuflw (r 0) (o 1) (n 2));
   mkLen "vpsignb_xxo" (fun v => let (o, a, r, n, e, j, l, s) := v in i_vpsignb_xxo (r 0) (r 1) (o 2));
   mkLen "vpsignd_xxo" (fun v => let (o, a, r, n, e, j, l, s) := v in i_vpsignd_xxo (r 0) (r 1) (o 2));
   mkLen "vpsignw_xxo" (fun v => let (o, a, r, n, e, j, l, s) := v in i_vpsignw_xxo (r 0) (r 1) (o 2));
   mkLen "vpslld_xoi" (fun v => let (o, a, r, n, e, j, l, s) := v in i_vpslld_xoi (r 0) (o 1) (n 2));
   mkLen "vpslld_xxo" (fun v => let (o, a, r, n, e, j, l, s) := v in i_vpslld_xxo (r 0) (r 1) (o 2));
   mkLen "vpslldq_xoi" (fun v => let (o, a, r, n, e, j, l, s) := v in i_vpslldq_xoi (r 0) (o 1) (n 2));
   mkLen "vpsllq_xoi" (fun v => let (o, a, r, n, e, j, l, s) := v in i_vpsllq_xoi (r 0) (o 1) (n 2))].
Lemma lens54_ok : Forall entry_within lens54.
Proof. unfold lens54.
row. { unfold i_vpmovzxbq. row_len. }
row. { unfold i_vpmovzxbw. row_len. }
row. { unfold i_vpmovzxdq. row_len. }
row. { unfold i_vpmovzxwd. row_len. }
row. { unfold i_vpmovzxwq. row_len. }
row. { unfold i_vpmuldq_xxo. row_len. }
row. { unfold i_vpmulhrsw_xxo. row_len. }
row. { unfold i_vpmulhuw_xxo. row_len. }
row. { unfold i_vpmulhw_xxo. row_len. }
row. { unfold i_vpmulld_xxo. row_len. }
row. { unfold i_vpmullw_xxo. row_len. }
row. { unfold i_vpmuludq_xxo. row_len. }
row. { unfold i_vpor_xxo. row_len. }
row. { unfold i_vpsadbw_xxo. row_len. }
row. { unfold i_vpshufb. row_len. }
row. { unfold i_vpshufd. row_len. }
row. { unfold i_vpshufhw. row_len. }
row. { unfold i_vpshuflw. row_len. }
row. { unfold i_vpsignb_xxo. row_len. }
row. { unfold i_vpsignd_xxo. row_len. }
row. { unfold i_vpsignw_xxo. row_len. }
row. { unfold i_vpslld_xoi. row_len. }
row. { unfold i_vpslld_xxo. row_len. }
row. { unfold i_vpslldq_xoi. row_len. }
row. { unfold i_vpsllq_xoi. row_len. }
apply Forall_nil. Qed.
Definition lens55 : list len_entry :=
  [mkLen "vpsllq_xxo" (fun v => let (o, a, r, n, e, j, l, s) := v in i_vpsllq_xxo (r 0) (r 1) (o 2));
   mkLen "vpsllvd" (fun v => let (o, a, r, n, e, j, l, s) := v in i_vpsllvd (r 0) (r 1) (o 2));
   mkLen "vpsllvq" (fun v => let (o, a, r, n, e, j, l, s) := v in i_vpsllvq (r 0) (r 1) (o 2));
   mkLen "vpsllw_xoi" (fun v => let (o, a, r, n, e, j, l, s) := v in i_vpsllw_xoi (r 0) (o 1) (n 2));
   mkLen "vpsllw_xxo" (fun v => let (o, a, r, n, e, j, l, s) := v in i_vpsllw_xxo (r 0) (r 1) (o 2));
   mkLen "vpsrad_xoi" (fun v => let (o, a, r, n, e, j, l, s) := v in i_vpsrad_xoi (r 0) (o 1) (n 2));
   mkLen "vpsrad_xxo" (fun v => let (o, a, r, n, e, j, l, s) := v in i_vpsrad_xxo (r 0) (r 1) (o 2));
   mkLen "vpsravd" (fun v => let (o, a, r, n, e, j, l, s) := v in i_vpsravd (r 0) (r 1) (o 2));
   mkLen "vpsraw_xoi" (fun v => let (o, a, r, n, e, j, l, s) := v in i_vpsraw_xoi (r 0) (o 1) (n 2));
   mkLen "vpsraw_xxo" (fun v => let (o, a, r, n, e, j, l, s) := v in i_vpsraw_xxo (r 0) (r 1) (o 2));
   mkLen "vpsrld_xoi" (fun v => let (o, a, r, n, e, j, l, s) := v in i_vpsrld_xoi (r 0) (o 1) (n 2));
   mkLen "vpsrld_xxo" (fun v => let (o, a, r, n, e, j, l, s) := v in i_vpsrld_xxo (r 0) (r 1) (o 2));
   mkLen "vpsrldq_xoi" (fun v => let (o, a, r, n, e, j, l, s) := v in i_vpsrldq_xoi (r 0) (o 1) (n 2));
   mkLen "vpsrlq_xoi" (fun v => let (o, a, r, n, e, j, l, s) := v in i_vpsrlq_xoi (r 0) (o 1) (n 2));
   mkLen "vpsrlq_xxo" (fun v => let (o, a, r, n, e, j, l, s) := v in i_vpsrlq_xxo (r 0) (r 1) (o 2));
   mkLen "vpsrlvd" (fun v => let (o, a, r, n, e, j, l, s) := v in i_vpsrlvd (r 0) (r 1) (o 2));
   mkLen "vpsrlvq" (fun v => let (o, a, r, n, e, j, l, s) := v in i_vpsrlvq (r 0) (r 1) (o 2));
   mkLen "vpsrlw_xoi" (fun v => let (o, a, r, n, e, j, l, s) := v in i_vpsrlw_xoi (r 0) (o 1) (n 2));
   mkLen "vpsrlw_xxo" (fun v => let (o, a, r, n, e, j, l, s) := v in i_vpsrlw_xxo (r 0) (r 1) (o 2));
   mkLen "vpsubb_xxo" (fun v => let (o, a, r, n, e, j, l, s) := v in i_vpsubb_xxo (r 0) (r 1) (o 2));
   mkLen "vpsubd_xxo" (fun v => let (o, a, r, n, e, j, l, s) := v in i_vpsubd_xxo (r 0) (r 1) (o 2));
   mkLen "vpsubq_xxo" (fun v => let (o, a, r, n, e, j, l, s) := v in i_vpsubq_xxo (r 0) (r 1) (o 2));
   mkLen "vpsubsb_xxo" (fun v => let (o, a, r, n, e, j, l, s) := v in i_vpsubsb_xxo (r 0) (r 1) (o 2));
   mkLen "vpsubsw_xxo" (fun v => let (o, a, r, n, e, j, l, s) := v in i_vpsubsw_xxo (r 0) (r 1) (o 2));
   mkLen "vpsubusb_xxo" (fun v => let (o, a, r, n, e, j, l, s) := v in i_vpsubusb_xxo (r 0) (r 1) (o 2))].
Lemma lens55_ok : Forall entry_within lens55.
Proof. unfold lens55.
row. { unfold i_vpsllq_xxo. row_len. }
row. { unfold i_vpsllvd. row_len. }
row. { unfold i_vpsllvq. row_len. }
row. { unfold i_vpsllw_xoi. row_len. }
row. { unfold i_vpsllw_xxo. row_len. }
row. { unfold i_vpsrad_xoi. row_len. }
row. { unfold i_vpsrad_xxo. row_len. }
row. { unfold i_vpsravd. row_len. }
row. { unfold i_vpsraw_xoi. row_len. }
row. { unfold i_vpsraw_xxo. row_len. }
row. { unfold i_vpsrld_xoi. row_len. }
row. { unfold i_vpsrld_xxo. row_len. }
row. { unfold i_vpsrldq_xoi. row_len. }
row. { unfold i_vpsrlq_xoi. row_len. }
row. { unfold i_vpsrlq_xxo. row_len. }
row. { unfold i_vpsrlvd. row_len. }
row. { unfold i_vpsrlvq. row_len. }
row. { unfold i_vpsrlw_xoi. row_len. }
row. { unfold i_vpsrlw_xxo. row_len. }
row. { unfold i_vpsubb_xxo. row_len. }
row. { unfold i_vpsubd_xxo. row_len. }
row. { unfold i_vpsubq_xxo. row_len. }
row. { unfold i_vpsubsb_xxo. row_len. }
row. { unfold i_vpsubsw_xxo. row_len. }
row. { unfold i_vpsubusb_xxo. row_len. }
apply Forall_nil. Qed.
Definition lens56 : list len_entry :=
  [mkLen "vpsubusw_xxo" (fun v => let (o, a, r, n, e, j, l, s) := v in i_vpsubusw_xxo (r 0) (r 1) (o 2));
   mkLen "vpsubw_xxo" (fun v => let (o, a, r, n, e, j, l, s) := v in i_vpsubw_xxo (r 0) (r 1) (o 2));
   mkLen "vptest" (fun v => let (o, a, r, n, e, j, l, s) := v in i_vptest (r 0) (o 1));
   mkLen "vpunpckhbw_xxo" (fun v => let (o, a, r, n, e, j, l, s) := v in i_vpunpckhbw_xxo (r 0) (r 1) (o 2));
   mkLen "vpunpckhdq_xxo" (fun v => let (o, a, r, n, e, j, l, s) := v in i_vpunpckhdq_xxo (r 0) (r 1) (o 2));
   mkLen "vpunpckhqdq_xxo" (fun v => let (o, a, r, n, e, j, l, s) := v in i_vpunpckhqdq_xxo (r 0) (r 1) (o 2));
   mkLen "vpunpckhwd_xxo" (fun v => let (o, a, r, n, e, j, l, s) := v in i_vpunpckhwd_xxo (r 0) (r 1) (o 2));
   mkLen "vpunpcklbw_xxo" (fun v => let (o, a, r, n, e, j, l, s) := v in i_vpunpcklbw_xxo (r 0) (r 1) (o 2));
   mkLen "vpunpckldq_xxo" (fun v => let (o, a, r, n, e, j, l, s) := v in i_vpunpckldq_xxo (r 0) (r 1) (o 2));
   mkLen "vpunpcklqdq_xxo" (fun v => let (o, a, r, n, e, j, l, s) := v in i_vpunpcklqdq_xxo (r 0) (r 1) (o 2));
   mkLen "vpunpcklwd_xxo" (fun v => let (o, a, r, n, e, j, l, s) := v in i_vpunpcklwd_xxo (r 0) (r 1) (o 2));
   mkLen "vpxor_xxo" (fun v => let (o, a, r, n, e, j, l, s) := v in i_vpxor_xxo (r 0) (r 1) (o 2));
   mkLen "vrcpps" (fun v => let (o, a, r, n, e, j, l, s) := v in i_vrcpps (r 0) (o 1));
   mkLen "vrcpss_xxo" (fun v => let (o, a, r, n, e, j, l, s) := v in i_vrcpss_xxo (r 0) (r 1) (o 2));
   mkLen "vroundpd" (fun v => let (o, a, r, n, e, j, l, s) := v in i_vroundpd (r 0) (o 1) (n 2));
   mkLen "vroundps" (fun v => let (o, a, r, n, e, j, l, s) := v in i_vroundps (r 0) (o 1) (n 2));
   mkLen "vroundsd_xxoi" (fun v => let (o, a, r, n, e, j, l, s) := v in i_vroundsd_xxoi (r 0) (r 1) (o 2) (n 3));
   mkLen "vroundss_xxoi" (fun v => let (o, a, r, n, e, j, l, s) := v in i_vroundss_xxoi (r 0) (r 1) (o 2) (n 3));
   mkLen "vrsqrtps" (fun v => let (o, a, r, n, e, j, l, s) := v in i_vrsqrtps (r 0) (o 1));
   mkLen "vrsqrtss_xxo" (fun v => let (o, a, r, n, e, j, l, s) := v in i_vrsqrtss_xxo (r 0) (r 1) (o 2));
   mkLen "vsha512msg1" (fun v => let (o, a, r, n, e, j, l, s) := v in i_vsha512msg1 (r 0) (r 1));
   mkLen "vsha512msg2" (fun v => let (o, a, r, n, e, j, l, s) := v in i_vsha512msg2 (r 0) (r 1));
   mkLen "vsha512rnds2" (fun v => let (o, a, r, n, e, j, l, s) := v in i_vsha512rnds2 (r 0) (r 1) (r 2));
   mkLen "vshufpd_xxoi" (fun v => let (o, a, r, n, e, j, l, s) := v in i_vshufpd_xxoi (r 0) (r 1) (o 2) (n 3));
   mkLen "vshufps_xxoi" (fun v => let (o, a, r, n, e, j, l, s) := v in i_vshufps_xxoi (r 0) (r 1) (o 2) (n 3))].
Lemma lens56_ok : Forall entry_within lens56.
Proof. unfold lens56.
row. { unfold i_vpsubusw_xxo. row_len. }
row. { unfold i_vpsubw_xxo. row_len. }
row. { unfold i_vptest. row_len. }
row. { unfold i_vpunpckhbw_xxo. row_len. }
row. { unfold i_vpunpckhdq_xxo. row_len. }
row. { unfold i_vpunpckhqdq_xxo. row_len. }
row. { unfold i_vpunpckhwd_xxo. row_len. }
row. { unfold i_vpunpcklbw_xxo. row_len. }
row. { unfold i_vpunpckldq_xxo. row_len. }
row. { unfold i_vpunpcklqdq_xxo. row_len. }
row. { unfold i_vpunpcklwd_xxo. row_len. }
row. { unfold i_vpxor_xxo. row_len. }
row. { unfold i_vrcpps. row_len. }
row. { unfold i_vrcpss_xxo. row_len. }
row. { unfold i_vroundpd. row_len. }
row. { unfold i_vroundps. row_len. }
row. { unfold i_vroundsd_xxoi. row_len. }
row. { unfold i_vroundss_xxoi. row_len. }
row. { unfold i_vrsqrtps. row_len. }
row. { unfold i_vrsqrtss_xxo. row_len. }
row. { unfold i_vsha512msg1. row_len. }
row. { unfold i_vsha512msg2. row_len. }
row. { unfold i_vsha512rnds2. row_len. }
row. { unfold i_vshufpd_xxoi. row_len. }
row. { unfold i_vshufps_xxoi. row_len. }
apply Forall_nil. Qed.
Definition lens57 : list len_entry :=
  [mkLen "vsm3msg1" (fun v => let (o, a, r, n, e, j, l, s) := v in i_vsm3msg1 (r 0) (r 1) (o 2));
   mkLen "vsm3msg2" (fun v => let (o, a, r, n, e, j, l, s) := v in i_vsm3msg2 (r 0) (r 1) (o 2));
   mkLen "vsm3rnds2" (fun v => let (o, a, r, n, e, j, l, s) := v in i_vsm3rnds2 (r 0) (r 1) (o 2) (n 3));
   mkLen "vsm4key4" (fun v => let (o, a, r, n, e, j, l, s) := v in i_vsm4key4 (r 0) (r 1) (o 2));
   mkLen "vsm4rnds4" (fun v => let (o, a, r, n, e, j, l, s) := v in i_vsm4rnds4 (r 0) (r 1) (o 2));
   mkLen "vsqrtpd" (fun v => let (o, a, r, n, e, j, l, s) := v in i_vsqrtpd (r 0) (o 1));
   mkLen "vsqrtps" (fun v => let (o, a, r, n, e, j, l, s) := v in i_vsqrtps (r 0) (o 1));
   mkLen "vsqrtsd_xxo" (fun v => let (o, a, r, n, e, j, l, s) := v in i_vsqrtsd_xxo (r 0) (r 1) (o 2));
   mkLen "vsqrtss_xxo" (fun v => let (o, a, r, n, e, j, l, s) := v in i_vsqrtss_xxo (r 0) (r 1) (o 2));
   mkLen "vstmxcsr" (fun v => let (o, a, r, n, e, j, l, s) := v in i_vstmxcsr (a 0));
   mkLen "vsubpd" (fun v => let (o, a, r, n, e, j, l, s) := v in i_vsubpd (r 0) (o 1) (o 2));
   mkLen "vsubps" (fun v => let (o, a, r, n, e, j, l, s) := v in i_vsubps (r 0) (o 1) (o 2));
   mkLen "vsubsd" (fun v => let (o, a, r, n, e, j, l, s) := v in i_vsubsd (r 0) (o 1) (o 2));
   mkLen "vsubss" (fun v => let (o, a, r, n, e, j, l, s) := v in i_vsubss (r 0) (o 1) (o 2));
   mkLen "vtestpd" (fun v => let (o, a, r, n, e, j, l, s) := v in i_vtestpd (r 0) (o 1));
   mkLen "vtestps" (fun v => let (o, a, r, n, e, j, l, s) := v in i_vtestps (r 0) (o 1));
   mkLen "vucomisd" (fun v => let (o, a, r, n, e, j, l, s) := v in i_vucomisd (r 0) (o 1));
   mkLen "vucomiss" (fun v => let (o, a, r, n, e, j, l, s) := v in i_vucomiss (r 0) (o 1));
   mkLen "vunpckhpd_xxo" (fun v => let (o, a, r, n, e, j, l, s) := v in i_vunpckhpd_xxo (r 0) (r 1) (o 2));
   mkLen "vunpckhps_xxo" (fun v => let (o, a, r, n, e, j, l, s) := v in i_vunpckhps_xxo (r 0) (r 1) (o 2));
   mkLen "vunpcklpd_xxo" (fun v => let (o, a, r, n, e, j, l, s) := v in i_vunpcklpd_xxo (r 0) (r 1) (o 2));
   mkLen "vunpcklps_xxo" (fun v => let (o, a, r, n, e, j, l, s) := v in i_vunpcklps_xxo (r 0) (r 1) (o 2));
   mkLen "vxorpd" (fun v => let (o, a, r, n, e, j, l, s) := v in i_vxorpd (r 0) (o 1) (o 2));
   mkLen "vxorps" (fun v => let (o, a, r, n, e, j, l, s) := v in i_vxorps (r 0) (o 1) (o 2));
   mkLen "vzeroall" (fun v => let (o, a, r, n, e, j, l, s) := v in i_vzeroall)].
Lemma lens57_ok : Forall entry_within lens57.
Proof. unfold lens57.
row. { unfold i_vsm3msg1. row_len. }
row. { unfold i_vsm3msg2. row_len. }
row. { unfold i_vsm3rnds2. row_len. }
row. { unfold i_vsm4key4. row_len. }
row. { unfold i_vsm4rnds4. row_len. }
row. { unfold i_vsqrtpd. row_len. }
row. { unfold i_vsqrtps. row_len. }
row. { unfold i_vsqrtsd_xxo. row_len. }
row. { unfold i_vsqrtss_xxo. row_len. }
row. { unfold i_vstmxcsr. row_len. }
row. { unfold i_vsubpd. row_len. }
row. { unfold i_vsubps. row_len. }
row. { unfold i_vsubsd. row_len. }
row. { unfold i_vsubss. row_len. }
row. { unfold i_vtestpd. row_len. }
row. { unfold i_vtestps. row_len. }
row. { unfold i_vucomisd. row_len. }
row. { unfold i_vucomiss. row_len. }
row. { unfold i_vunpckhpd_xxo. row_len. }
row. { unfold i_vunpckhps_xxo. row_len. }
row. { unfold i_vunpcklpd_xxo. row_len. }
row. { unfold i_vunpcklps_xxo. row_len. }
row. { unfold i_vxorpd. row_len. }
row. { unfold i_vxorps. row_len. }
row. { unfold i_vzeroall. row_len. }
apply Forall_nil. Qed.
Definition lens58 : list len_entry :=
  [mkLen "vzeroupper" (fun v => let (o, a, r, n, e, j, l, s) := v in i_vzeroupper);
   mkLen "wait" (fun v => let (o, a, r, n, e, j, l, s) := v in i_wait);
   mkLen "wbinvd" (fun v => let (o, a, r, n, e, j, l, s) := v in i_wbinvd);
   mkLen "wrmsr" (fun v => let (o, a, r, n, e, j, l, s) := v in i_wrmsr);
   mkLen "xabort" (fun v => let (o, a, r, n, e, j, l, s) := v in i_xabort (n 0));
   mkLen "xadd" (fun v => let (o, a, r, n, e, j, l, s) := v in i_xadd (o 0) (r 1));
   mkLen "xbegin" (fun v => let (o, a, r, n, e, j, l, s) := v in i_xbegin (n 0));
   mkLen "xend" (fun v => let (o, a, r, n, e, j, l, s) := v in i_xend);
   mkLen "xgetbv" (fun v => let (o, a, r, n, e, j, l, s) := v in i_xgetbv);
   mkLen "xlatb" (fun v => let (o, a, r, n, e, j, l, s) := v in i_xlatb);
   mkLen "xor__oi" (fun v => let (o, a, r, n, e, j, l, s) := v in i_xor__oi (o 0) (n 1));
   mkLen "xor__oo" (fun v => let (o, a, r, n, e, j, l, s) := v in i_xor__oo (o 0) (o 1));
   mkLen "xor__roi" (fun v => let (o, a, r, n, e, j, l, s) := v in i_xor__roi (r 0) (o 1) (n 2));
   mkLen "xor__roo" (fun v => let (o, a, r, n, e, j, l, s) := v in i_xor__roo (r 0) (o 1) (o 2));
   mkLen "xorpd" (fun v => let (o, a, r, n, e, j, l, s) := v in i_xorpd (r 0) (o 1));
   mkLen "xorps" (fun v => let (o, a, r, n, e, j, l, s) := v in i_xorps (r 0) (o 1));
   mkLen "xresldtrk" (fun v => let (o, a, r, n, e, j, l, s) := v in i_xresldtrk);
   mkLen "xsusldtrk" (fun v => let (o, a, r, n, e, j, l, s) := v in i_xsusldtrk);
   mkLen "cdqe" (fun v => let (o, a, r, n, e, j, l, s) := v in i_cdqe);
   mkLen "cqo" (fun v => let (o, a, r, n, e, j, l, s) := v in i_cqo);
   mkLen "cmpsq" (fun v => let (o, a, r, n, e, j, l, s) := v in i_cmpsq);
   mkLen "popfq" (fun v => let (o, a, r, n, e, j, l, s) := v in i_popfq);
   mkLen "pushfq" (fun v => let (o, a, r, n, e, j, l, s) := v in i_pushfq);
   mkLen "lodsq" (fun v => let (o, a, r, n, e, j, l, s) := v in i_lodsq);
   mkLen "movsq" (fun v => let (o, a, r, n, e, j, l, s) := v in i_movsq)].
Lemma lens58_ok : Forall entry_within lens58.
Proof. unfold lens58.
row. { unfold i_vzeroupper. row_len. }
row. { unfold i_wait. row_len. }
row. { unfold i_wbinvd. row_len. }
row. { unfold i_wrmsr. row_len. }
row. { unfold i_xabort. row_len. }
row. { unfold i_xadd. row_len. }
row. { unfold i_xbegin. row_len. }
row. { unfold i_xend. row_len. }
row. { unfold i_xgetbv. row_len. }
row. { unfold i_xlatb. row_len. }
row. { unfold i_xor__oi. row_len. }
row. { unfold i_xor__oo. row_len. }
row. { unfold i_xor__roi. row_len. }
row. { unfold i_xor__roo. row_len. }
row. { unfold i_xorpd. row_len. }
row. { unfold i_xorps. row_len. }
row. { unfold i_xresldtrk. row_len. }
row. { unfold i_xsusldtrk. row_len. }
row. { unfold i_cdqe. row_len. }
row. { unfold i_cqo. row_len. }
row. { unfold i_cmpsq. row_len. }
row. { unfold i_popfq. row_len. }
row. { unfold i_pushfq. row_len. }
row. { unfold i_lodsq. row_len. }
row. { unfold i_movsq. row_len. }
apply Forall_nil. Qed.
Definition lens59 : list len_entry :=
  [mkLen "scasq" (fun v => let (o, a, r, n, e, j, l, s) := v in i_scasq);
   mkLen "stosq" (fun v => let (o, a, r, n, e, j, l, s) := v in i_stosq);
   mkLen "syscall" (fun v => let (o, a, r, n, e, j, l, s) := v in i_syscall);
   mkLen "sysret" (fun v => let (o, a, r, n, e, j, l, s) := v in i_sysret);
   mkLen "clui" (fun v => let (o, a, r, n, e, j, l, s) := v in i_clui);
   mkLen "stui" (fun v => let (o, a, r, n, e, j, l, s) := v in i_stui);
   mkLen "testui" (fun v => let (o, a, r, n, e, j, l, s) := v in i_testui);
   mkLen "uiret" (fun v => let (o, a, r, n, e, j, l, s) := v in i_uiret);
   mkLen "cmpxchg16b" (fun v => let (o, a, r, n, e, j, l, s) := v in i_cmpxchg16b (a 0));
   mkLen "fxrstor64" (fun v => let (o, a, r, n, e, j, l, s) := v in i_fxrstor64 (a 0));
   mkLen "movq_qm" (fun v => let (o, a, r, n, e, j, l, s) := v in i_movq_qm (r 0) (r 1));
   mkLen "movq_mq" (fun v => let (o, a, r, n, e, j, l, s) := v in i_movq_mq (r 0) (r 1));
   mkLen "movsxd" (fun v => let (o, a, r, n, e, j, l, s) := v in i_movsxd (r 0) (o 1));
   mkLen "pextrq" (fun v => let (o, a, r, n, e, j, l, s) := v in i_pextrq (o 0) (r 1) (n 2));
   mkLen "pinsrq" (fun v => let (o, a, r, n, e, j, l, s) := v in i_pinsrq (r 0) (o 1) (n 2));
   mkLen "senduipi" (fun v => let (o, a, r, n, e, j, l, s) := v in i_senduipi (r 0));
   mkLen "vcvtss2si_qo" (fun v => let (o, a, r, n, e, j, l, s) := v in i_vcvtss2si_qo (r 0) (o 1));
   mkLen "vcvttss2si_qo" (fun v => let (o, a, r, n, e, j, l, s) := v in i_vcvttss2si_qo (r 0) (o 1));
   mkLen "vcvtsd2si_qo" (fun v => let (o, a, r, n, e, j, l, s) := v in i_vcvtsd2si_qo (r 0) (o 1));
   mkLen "vcvttsd2si_qo" (fun v => let (o, a, r, n, e, j, l, s) := v in i_vcvttsd2si_qo (r 0) (o 1));
   mkLen "vmovq_xq" (fun v => let (o, a, r, n, e, j, l, s) := v in i_vmovq_xq (r 0) (r 1));
   mkLen "vmovq_qx" (fun v => let (o, a, r, n, e, j, l, s) := v in i_vmovq_qx (r 0) (r 1));
   mkLen "jmpabs" (fun v => let (o, a, r, n, e, j, l, s) := v in i_jmpabs (n 0));
   mkLen "push2" (fun v => let (o, a, r, n, e, j, l, s) := v in i_push2 (r 0) (r 1));
   mkLen "push2p" (fun v => let (o, a, r, n, e, j, l, s) := v in i_push2p (r 0) (r 1))].
Lemma lens59_ok : Forall entry_within lens59.
Proof. unfold lens59.
row. { unfold i_scasq. row_len. }
row. { unfold i_stosq. row_len. }
row. { unfold i_syscall. row_len. }
row. { unfold i_sysret. row_len. }
row. { unfold i_clui. row_len. }
row. { unfold i_stui. row_len. }
row. { unfold i_testui. row_len. }
row. { unfold i_uiret. row_len. }
row. { unfold i_cmpxchg16b. row_len. }
row. { unfold i_fxrstor64. row_len. }
row. { unfold i_movq_qm. row_len. }
row. { unfold i_movq_mq. row_len. }
row. { unfold i_movsxd. row_len. }
row. { unfold i_pextrq. row_len. }
row. { unfold i_pinsrq. row_len. }
row. { unfold i_senduipi. row_len. }
row. { unfold i_vcvtss2si_qo. row_len. }
row. { unfold i_vcvttss2si_qo. row_len. }
row. { unfold i_vcvtsd2si_qo. row_len. }
row. { unfold i_vcvttsd2si_qo. row_len. }
row. { unfold i_vmovq_xq. row_len. }
row. { unfold i_vmovq_qx. row_len. }
row. { unfold i_jmpabs. row_len. }
row. { unfold i_push2. row_len. }
row. { unfold i_push2p. row_len. }
apply Forall_nil. Qed.
Definition lens60 : list len_entry :=
  [mkLen "pop2" (fun v => let (o, a, r, n, e, j, l, s) := v in i_pop2 (r 0) (r 1));
   mkLen "pop2p" (fun v => let (o, a, r, n, e, j, l, s) := v in i_pop2p (r 0) (r 1));
   mkLen "cmpbexadd" (fun v => let (o, a, r, n, e, j, l, s) := v in i_cmpbexadd (a 0) (r 1) (r 2));
   mkLen "cmpbxadd" (fun v => let (o, a, r, n, e, j, l, s) := v in i_cmpbxadd (a 0) (r 1) (r 2));
   mkLen "cmplexadd" (fun v => let (o, a, r, n, e, j, l, s) := v in i_cmplexadd (a 0) (r 1) (r 2));
   mkLen "cmplxadd" (fun v => let (o, a, r, n, e, j, l, s) := v in i_cmplxadd (a 0) (r 1) (r 2));
   mkLen "cmpnbexadd" (fun v => let (o, a, r, n, e, j, l, s) := v in i_cmpnbexadd (a 0) (r 1) (r 2));
   mkLen "cmpnbxadd" (fun v => let (o, a, r, n, e, j, l, s) := v in i_cmpnbxadd (a 0) (r 1) (r 2));
   mkLen "cmpnlexadd" (fun v => let (o, a, r, n, e, j, l, s) := v in i_cmpnlexadd (a 0) (r 1) (r 2));
   mkLen "cmpnlxadd" (fun v => let (o, a, r, n, e, j, l, s) := v in i_cmpnlxadd (a 0) (r 1) (r 2));
   mkLen "cmpnoxadd" (fun v => let (o, a, r, n, e, j, l, s) := v in i_cmpnoxadd (a 0) (r 1) (r 2));
   mkLen "cmpnpxadd" (fun v => let (o, a, r, n, e, j, l, s) := v in i_cmpnpxadd (a 0) (r 1) (r 2));
   mkLen "cmpnsxadd" (fun v => let (o, a, r, n, e, j, l, s) := v in i_cmpnsxadd (a 0) (r 1) (r 2));
   mkLen "cmpnzxadd" (fun v => let (o, a, r, n, e, j, l, s) := v in i_cmpnzxadd (a 0) (r 1) (r 2));
   mkLen "cmpoxadd" (fun v => let (o, a, r, n, e, j, l, s) := v in i_cmpoxadd (a 0) (r 1) (r 2));
   mkLen "cmppxadd" (fun v => let (o, a, r, n, e, j, l, s) := v in i_cmppxadd (a 0) (r 1) (r 2));
   mkLen "cmpsxadd" (fun v => let (o, a, r, n, e, j, l, s) := v in i_cmpsxadd (a 0) (r 1) (r 2));
   mkLen "cmpzxadd" (fun v => let (o, a, r, n, e, j, l, s) := v in i_cmpzxadd (a 0) (r 1) (r 2));
   mkLen "aesdec128kl" (fun v => let (o, a, r, n, e, j, l, s) := v in i_aesdec128kl (r 0) (a 1));
   mkLen "aesdec256kl" (fun v => let (o, a, r, n, e, j, l, s) := v in i_aesdec256kl (r 0) (a 1));
   mkLen "aesdecwide128kl" (fun v => let (o, a, r, n, e, j, l, s) := v in i_aesdecwide128kl (a 0));
   mkLen "aesdecwide256kl" (fun v => let (o, a, r, n, e, j, l, s) := v in i_aesdecwide256kl (a 0));
   mkLen "aesenc128kl" (fun v => let (o, a, r, n, e, j, l, s) := v in i_aesenc128kl (r 0) (a 1));
   mkLen "aesenc256kl" (fun v => let (o, a, r, n, e, j, l, s) := v in i_aesenc256kl (r 0) (a 1));
   mkLen "aesencwide128kl" (fun v => let (o, a, r, n, e, j, l, s) := v in i_aesencwide128kl (a 0))].
Lemma lens60_ok : Forall entry_within lens60.
Proof. unfold lens60.
row. { unfold i_pop2. row_len. }
row. { unfold i_pop2p. row_len. }
row. { unfold i_cmpbexadd. row_len. }
row. { unfold i_cmpbxadd. row_len. }
row. { unfold i_cmplexadd. row_len. }
row. { unfold i_cmplxadd. row_len. }
row. { unfold i_cmpnbexadd. row_len. }
row. { unfold i_cmpnbxadd. row_len. }
row. { unfold i_cmpnlexadd. row_len. }
row. { unfold i_cmpnlxadd. row_len. }
row. { unfold i_cmpnoxadd. row_len. }
row. { unfold i_cmpnpxadd. row_len. }
row. { unfold i_cmpnsxadd. row_len. }
row. { unfold i_cmpnzxadd. row_len. }
row. { unfold i_cmpoxadd. row_len. }
row. { unfold i_cmppxadd. row_len. }
row. { unfold i_cmpsxadd. row_len. }
row. { unfold i_cmpzxadd. row_len. }
row. { unfold i_aesdec128kl. row_len. }
row. { unfold i_aesdec256kl. row_len. }
row. { unfold i_aesdecwide128kl. row_len. }
row. { unfold i_aesdecwide256kl. row_len. }
row. { unfold i_aesenc128kl. row_len. }
row. { unfold i_aesenc256kl. row_len. }
row. { unfold i_aesencwide128kl. row_len. }
apply Forall_nil. Qed.
Definition lens61 : list len_entry :=
  [mkLen "aesencwide256kl" (fun v => let (o, a, r, n, e, j, l, s) := v in i_aesencwide256kl (a 0));
   mkLen "encodekey128" (fun v => let (o, a, r, n, e, j, l, s) := v in i_encodekey128 (r 0) (r 1));
   mkLen "encodekey256" (fun v => let (o, a, r, n, e, j, l, s) := v in i_encodekey256 (r 0) (r 1));
   mkLen "rdfsbase" (fun v => let (o, a, r, n, e, j, l, s) := v in i_rdfsbase (r 0));
   mkLen "rdgsbase" (fun v => let (o, a, r, n, e, j, l, s) := v in i_rdgsbase (r 0));
   mkLen "wrfsbase" (fun v => let (o, a, r, n, e, j, l, s) := v in i_wrfsbase (r 0));
   mkLen "wrgsbase" (fun v => let (o, a, r, n, e, j, l, s) := v in i_wrgsbase (r 0));
   mkLen "ldtilecfg" (fun v => let (o, a, r, n, e, j, l, s) := v in i_ldtilecfg (a 0));
   mkLen "sttilecfg" (fun v => let (o, a, r, n, e, j, l, s) := v in i_sttilecfg (a 0));
   mkLen "tileloadd" (fun v => let (o, a, r, n, e, j, l, s) := v in i_tileloadd (r 0) (a 1));
   mkLen "tileloaddt1" (fun v => let (o, a, r, n, e, j, l, s) := v in i_tileloaddt1 (r 0) (a 1));
   mkLen "tilerelease" (fun v => let (o, a, r, n, e, j, l, s) := v in i_tilerelease);
   mkLen "tilestored" (fun v => let (o, a, r, n, e, j, l, s) := v in i_tilestored (a 0) (r 1));
   mkLen "tilezero" (fun v => let (o, a, r, n, e, j, l, s) := v in i_tilezero (r 0));
   mkLen "tdpbssd" (fun v => let (o, a, r, n, e, j, l, s) := v in i_tdpbssd (r 0) (r 1) (r 2));
   mkLen "tdpbsud" (fun v => let (o, a, r, n, e, j, l, s) := v in i_tdpbsud (r 0) (r 1) (r 2));
   mkLen "tdpbusd" (fun v => let (o, a, r, n, e, j, l, s) := v in i_tdpbusd (r 0) (r 1) (r 2));
   mkLen "tdpbuud" (fun v => let (o, a, r, n, e, j, l, s) := v in i_tdpbuud (r 0) (r 1) (r 2));
   mkLen "tdpfp16ps" (fun v => let (o, a, r, n, e, j, l, s) := v in i_tdpfp16ps (r 0) (r 1) (r 2));
   mkLen "tdpbf16ps" (fun v => let (o, a, r, n, e, j, l, s) := v in i_tdpbf16ps (r 0) (r 1) (r 2));
   mkLen "and_oo" (fun v => let (o, a, r, n, e, j, l, s) := v in i_and_oo (o 0) (o 1));
   mkLen "and_oi" (fun v => let (o, a, r, n, e, j, l, s) := v in i_and_oi (o 0) (n 1));
   mkLen "or_oo" (fun v => let (o, a, r, n, e, j, l, s) := v in i_or_oo (o 0) (o 1));
   mkLen "or_oi" (fun v => let (o, a, r, n, e, j, l, s) := v in i_or_oi (o 0) (n 1));
   mkLen "xor_oo" (fun v => let (o, a, r, n, e, j, l, s) := v in i_xor_oo (o 0) (o 1))].
Lemma lens61_ok : Forall entry_within lens61.
Proof. unfold lens61.
row. { unfold i_aesencwide256kl. row_len. }
row. { unfold i_encodekey128. row_len. }
row. { unfold i_encodekey256. row_len. }
row. { unfold i_rdfsbase. row_len. }
row. { unfold i_rdgsbase. row_len. }
row. { unfold i_wrfsbase. row_len. }
row. { unfold i_wrgsbase. row_len. }
row. { unfold i_ldtilecfg. row_len. }
row. { unfold i_sttilecfg. row_len. }
row. { unfold i_tileloadd. row_len. }
row. { unfold i_tileloaddt1. row_len. }
row. { unfold i_tilerelease. row_len. }
row. { unfold i_tilestored. row_len. }
row. { unfold i_tilezero. row_len. }
row. { unfold i_tdpbssd. row_len. }
row. { unfold i_tdpbsud. row_len. }
row. { unfold i_tdpbusd. row_len. }
row. { unfold i_tdpbuud. row_len. }
row. { unfold i_tdpfp16ps. row_len. }
row. { unfold i_tdpbf16ps. row_len. }
row. { unfold i_and_oo, i_and__oo. row_len. }
row. { unfold i_and_oi, i_and__oi. row_len. }
row. { unfold i_or_oo, i_or__oo. row_len. }
row. { unfold i_or_oi, i_or__oi. row_len. }
row. { unfold i_xor_oo, i_xor__oo. row_len. }
apply Forall_nil. Qed.
Definition lens62 : list len_entry :=
  [mkLen "xor_oi" (fun v => let (o, a, r, n, e, j, l, s) := v in i_xor_oi (o 0) (n 1));
   mkLen "not" (fun v => let (o, a, r, n, e, j, l, s) := v in i_not (o 0));
   mkLen "vmpsadbw_xxoip" (fun v => let (o, a, r, n, e, j, l, s) := v in i_vmpsadbw_xxoip (r 0) (r 1) (o 2) (n 3) e);
   mkLen "kaddb" (fun v => let (o, a, r, n, e, j, l, s) := v in i_kaddb (r 0) (r 1) (r 2));
   mkLen "kaddd" (fun v => let (o, a, r, n, e, j, l, s) := v in i_kaddd (r 0) (r 1) (r 2));
   mkLen "kaddq" (fun v => let (o, a, r, n, e, j, l, s) := v in i_kaddq (r 0) (r 1) (r 2));
   mkLen "kaddw" (fun v => let (o, a, r, n, e, j, l, s) := v in i_kaddw (r 0) (r 1) (r 2));
   mkLen "kandb" (fun v => let (o, a, r, n, e, j, l, s) := v in i_kandb (r 0) (r 1) (r 2));
   mkLen "kandd" (fun v => let (o, a, r, n, e, j, l, s) := v in i_kandd (r 0) (r 1) (r 2));
   mkLen "kandnb" (fun v => let (o, a, r, n, e, j, l, s) := v in i_kandnb (r 0) (r 1) (r 2));
   mkLen "kandnd" (fun v => let (o, a, r, n, e, j, l, s) := v in i_kandnd (r 0) (r 1) (r 2));
   mkLen "kandnq" (fun v => let (o, a, r, n, e, j, l, s) := v in i_kandnq (r 0) (r 1) (r 2));
   mkLen "kandnw" (fun v => let (o, a, r, n, e, j, l, s) := v in i_kandnw (r 0) (r 1) (r 2));
   mkLen "kandq" (fun v => let (o, a, r, n, e, j, l, s) := v in i_kandq (r 0) (r 1) (r 2));
   mkLen "kandw" (fun v => let (o, a, r, n, e, j, l, s) := v in i_kandw (r 0) (r 1) (r 2));
   mkLen "kmovb_ak" (fun v => let (o, a, r, n, e, j, l, s) := v in i_kmovb_ak (a 0) (r 1));
   mkLen "kmovb_ko" (fun v => let (o, a, r, n, e, j, l, s) := v in i_kmovb_ko (r 0) (o 1));
   mkLen "kmovb_dk" (fun v => let (o, a, r, n, e, j, l, s) := v in i_kmovb_dk (r 0) (r 1));
   mkLen "kmovd_ak" (fun v => let (o, a, r, n, e, j, l, s) := v in i_kmovd_ak (a 0) (r 1));
   mkLen "kmovd_ko" (fun v => let (o, a, r, n, e, j, l, s) := v in i_kmovd_ko (r 0) (o 1));
   mkLen "kmovd_dk" (fun v => let (o, a, r, n, e, j, l, s) := v in i_kmovd_dk (r 0) (r 1));
   mkLen "kmovq_ak" (fun v => let (o, a, r, n, e, j, l, s) := v in i_kmovq_ak (a 0) (r 1));
   mkLen "kmovq_ko" (fun v => let (o, a, r, n, e, j, l, s) := v in i_kmovq_ko (r 0) (o 1));
   mkLen "kmovw_ak" (fun v => let (o, a, r, n, e, j, l, s) := v in i_kmovw_ak (a 0) (r 1));
   mkLen "kmovw_ko" (fun v => let (o, a, r, n, e, j, l, s) := v in i_kmovw_ko (r 0) (o 1))].
Lemma lens62_ok : Forall entry_within lens62.
Proof. unfold lens62.
row. { unfold i_xor_oi, i_xor__oi. row_len. }
row. { unfold i_not, i_not__o. row_len. }
row. { unfold i_vmpsadbw_xxoip. row_len. }
row. { unfold i_kaddb. row_len. }
row. { unfold i_kaddd. row_len. }
row. { unfold i_kaddq. row_len. }
row. { unfold i_kaddw. row_len. }
row. { unfold i_kandb. row_len. }
row. { unfold i_kandd. row_len. }
row. { unfold i_kandnb. row_len. }
row. { unfold i_kandnd. row_len. }
row. { unfold i_kandnq. row_len. }
row. { unfold i_kandnw. row_len. }
row. { unfold i_kandq. row_len. }
row. { unfold i_kandw. row_len. }
row. { unfold i_kmovb_ak. row_len. }
row. { unfold i_kmovb_ko. row_len. }
row. { unfold i_kmovb_dk. row_len. }
row. { unfold i_kmovd_ak. row_len. }
row. { unfold i_kmovd_ko. row_len. }
row. { unfold i_kmovd_dk. row_len. }
row. { unfold i_kmovq_ak. row_len. }
row. { unfold i_kmovq_ko. row_len. }
row. { unfold i_kmovw_ak. row_len. }
row. { unfold i_kmovw_ko. row_len. }
apply Forall_nil. Qed.
Definition lens63 : list len_entry :=
  [mkLen "kmovw_dk" (fun v => let (o, a, r, n, e, j, l, s) := v in i_kmovw_dk (r 0) (r 1));
   mkLen "knotb" (fun v => let (o, a, r, n, e, j, l, s) := v in i_knotb (r 0) (r 1));
   mkLen "knotd" (fun v => let (o, a, r, n, e, j, l, s) := v in i_knotd (r 0) (r 1));
   mkLen "knotq" (fun v => let (o, a, r, n, e, j, l, s) := v in i_knotq (r 0) (r 1));
   mkLen "knotw" (fun v => let (o, a, r, n, e, j, l, s) := v in i_knotw (r 0) (r 1));
   mkLen "korb" (fun v => let (o, a, r, n, e, j, l, s) := v in i_korb (r 0) (r 1) (r 2));
   mkLen "kord" (fun v => let (o, a, r, n, e, j, l, s) := v in i_kord (r 0) (r 1) (r 2));
   mkLen "korq" (fun v => let (o, a, r, n, e, j, l, s) := v in i_korq (r 0) (r 1) (r 2));
   mkLen "kortestb" (fun v => let (o, a, r, n, e, j, l, s) := v in i_kortestb (r 0) (r 1));
   mkLen "kortestd" (fun v => let (o, a, r, n, e, j, l, s) := v in i_kortestd (r 0) (r 1));
   mkLen "kortestq" (fun v => let (o, a, r, n, e, j, l, s) := v in i_kortestq (r 0) (r 1));
   mkLen "kortestw" (fun v => let (o, a, r, n, e, j, l, s) := v in i_kortestw (r 0) (r 1));
   mkLen "korw" (fun v => let (o, a, r, n, e, j, l, s) := v in i_korw (r 0) (r 1) (r 2));
   mkLen "kshiftlb" (fun v => let (o, a, r, n, e, j, l, s) := v in i_kshiftlb (r 0) (r 1) (n 2));
   mkLen "kshiftld" (fun v => let (o, a, r, n, e, j, l, s) := v in i_kshiftld (r 0) (r 1) (n 2));
   mkLen "kshiftlq" (fun v => let (o, a, r, n, e, j, l, s) := v in i_kshiftlq (r 0) (r 1) (n 2));
   mkLen "kshiftlw" (fun v => let (o, a, r, n, e, j, l, s) := v in i_kshiftlw (r 0) (r 1) (n 2));
   mkLen "kshiftrb" (fun v => let (o, a, r, n, e, j, l, s) := v in i_kshiftrb (r 0) (r 1) (n 2));
   mkLen "kshiftrd" (fun v => let (o, a, r, n, e, j, l, s) := v in i_kshiftrd (r 0) (r 1) (n 2));
   mkLen "kshiftrq" (fun v => let (o, a, r, n, e, j, l, s) := v in i_kshiftrq (r 0) (r 1) (n 2));
   mkLen "kshiftrw" (fun v => let (o, a, r, n, e, j, l, s) := v in i_kshiftrw (r 0) (r 1) (n 2));
   mkLen "ktestb" (fun v => let (o, a, r, n, e, j, l, s) := v in i_ktestb (r 0) (r 1));
   mkLen "ktestd" (fun v => let (o, a, r, n, e, j, l, s) := v in i_ktestd (r 0) (r 1));
   mkLen "ktestq" (fun v => let (o, a, r, n, e, j, l, s) := v in i_ktestq (r 0) (r 1));
   mkLen "ktestw" (fun v => let (o, a, r, n, e, j, l, s) := v in i_ktestw (r 0) (r 1))].
Lemma lens63_ok : Forall entry_within lens63.
Proof. unfold lens63.
row. { unfold i_kmovw_dk. row_len. }
row. { unfold i_knotb. row_len. }
row. { unfold i_knotd. row_len. }
row. { unfold i_knotq. row_len. }
row. { unfold i_knotw. row_len. }
row. { unfold i_korb. row_len. }
row. { unfold i_kord. row_len. }
row. { unfold i_korq. row_len. }
row. { unfold i_kortestb. row_len. }
row. { unfold i_kortestd. row_len. }
row. { unfold i_kortestq. row_len. }
row. { unfold i_kortestw. row_len. }
row. { unfold i_korw. row_len. }
row. { unfold i_kshiftlb. row_len. }
row. { unfold i_kshiftld. row_len. }
row. { unfold i_kshiftlq. row_len. }
row. { unfold i_kshiftlw. row_len. }
row. { unfold i_kshiftrb. row_len. }
row. { unfold i_kshiftrd. row_len. }
row. { unfold i_kshiftrq. row_len. }
row. { unfold i_kshiftrw. row_len. }
row. { unfold i_ktestb. row_len. }
row. { unfold i_ktestd. row_len. }
row. { unfold i_ktestq. row_len. }
row. { unfold i_ktestw. row_len. }
apply Forall_nil. Qed.
Definition lens64 : list len_entry :=
  [mkLen "kunpckbw" (fun v => let (o, a, r, n, e, j, l, s) := v in i_kunpckbw (r 0) (r 1) (r 2));
   mkLen "kunpckdq" (fun v => let (o, a, r, n, e, j, l, s) := v in i_kunpckdq (r 0) (r 1) (r 2));
   mkLen "kunpckwd" (fun v => let (o, a, r, n, e, j, l, s) := v in i_kunpckwd (r 0) (r 1) (r 2));
   mkLen "kxnorb" (fun v => let (o, a, r, n, e, j, l, s) := v in i_kxnorb (r 0) (r 1) (r 2));
   mkLen "kxnord" (fun v => let (o, a, r, n, e, j, l, s) := v in i_kxnord (r 0) (r 1) (r 2));
   mkLen "kxnorq" (fun v => let (o, a, r, n, e, j, l, s) := v in i_kxnorq (r 0) (r 1) (r 2));
   mkLen "kxnorw" (fun v => let (o, a, r, n, e, j, l, s) := v in i_kxnorw (r 0) (r 1) (r 2));
   mkLen "kxorb" (fun v => let (o, a, r, n, e, j, l, s) := v in i_kxorb (r 0) (r 1) (r 2));
   mkLen "kxord" (fun v => let (o, a, r, n, e, j, l, s) := v in i_kxord (r 0) (r 1) (r 2));
   mkLen "kxorq" (fun v => let (o, a, r, n, e, j, l, s) := v in i_kxorq (r 0) (r 1) (r 2));
   mkLen "kxorw" (fun v => let (o, a, r, n, e, j, l, s) := v in i_kxorw (r 0) (r 1) (r 2));
   mkLen "v4fmaddps" (fun v => let (o, a, r, n, e, j, l, s) := v in i_v4fmaddps (r 0) (r 1) (a 2));
   mkLen "v4fmaddss" (fun v => let (o, a, r, n, e, j, l, s) := v in i_v4fmaddss (r 0) (r 1) (a 2));
   mkLen "v4fnmaddps" (fun v => let (o, a, r, n, e, j, l, s) := v in i_v4fnmaddps (r 0) (r 1) (a 2));
   mkLen "v4fnmaddss" (fun v => let (o, a, r, n, e, j, l, s) := v in i_v4fnmaddss (r 0) (r 1) (a 2));
   mkLen "vaddnepbf16" (fun v => let (o, a, r, n, e, j, l, s) := v in i_vaddnepbf16 (r 0) (r 1) (o 2));
   mkLen "vaddph" (fun v => let (o, a, r, n, e, j, l, s) := v in i_vaddph (r 0) (o 1) (o 2));
   mkLen "vaddsh" (fun v => let (o, a, r, n, e, j, l, s) := v in i_vaddsh (r 0) (o 1) (o 2));
   mkLen "valignd" (fun v => let (o, a, r, n, e, j, l, s) := v in i_valignd (r 0) (r 1) (o 2) (n 3));
   mkLen "valignq" (fun v => let (o, a, r, n, e, j, l, s) := v in i_valignq (r 0) (r 1) (o 2) (n 3));
   mkLen "vblendmpd" (fun v => let (o, a, r, n, e, j, l, s) := v in i_vblendmpd (r 0) (r 1) (o 2));
   mkLen "vblendmps" (fun v => let (o, a, r, n, e, j, l, s) := v in i_vblendmps (r 0) (r 1) (o 2));
   mkLen "vbroadcastf32x2" (fun v => let (o, a, r, n, e, j, l, s) := v in i_vbroadcastf32x2 (r 0) (o 1));
   mkLen "vbroadcastf32x4" (fun v => let (o, a, r, n, e, j, l, s) := v in i_vbroadcastf32x4 (r 0) (a 1));
   mkLen "vbroadcastf32x8" (fun v => let (o, a, r, n, e, j, l, s) := v in i_vbroadcastf32x8 (r 0) (a 1))].
Lemma lens64_ok : Forall entry_within lens64.
Proof. unfold lens64.
row. { unfold i_kunpckbw. row_len. }
row. { unfold i_kunpckdq. row_len. }
row. { unfold i_kunpckwd. row_len. }
row. { unfold i_kxnorb. row_len. }
row. { unfold i_kxnord. row_len. }
row. { unfold i_kxnorq. row_len. }
row. { unfold i_kxnorw. row_len. }
row. { unfold i_kxorb. row_len. }
row. { unfold i_kxord. row_len. }
row. { unfold i_kxorq. row_len. }
row. { unfold i_kxorw. row_len. }
row. { unfold i_v4fmaddps. row_len. }
row. { unfold i_v4fmaddss. row_len. }
row. { unfold i_v4fnmaddps. row_len. }
row. { unfold i_v4fnmaddss. row_len. }
row. { unfold i_vaddnepbf16. row_len. }
row. { unfold i_vaddph. row_len. }
row. { unfold i_vaddsh. row_len. }
row. { unfold i_valignd. row_len. }
row. { unfold i_valignq. row_len. }
row. { unfold i_vblendmpd. row_len. }
row. { unfold i_vblendmps. row_len. }
row. { unfold i_vbroadcastf32x2. row_len. }
row. { unfold i_vbroadcastf32x4. row_len. }
row. { unfold i_vbroadcastf32x8. row_len. }
apply Forall_nil. Qed.
Definition lens65 : list len_entry :=
  [mkLen "vbroadcastf64x2" (fun v => let (o, a, r, n, e, j, l, s) := v in i_vbroadcastf64x2 (r 0) (a 1));
   mkLen "vbroadcastf64x4" (fun v => let (o, a, r, n, e, j, l, s) := v in i_vbroadcastf64x4 (r 0) (a 1));
   mkLen "vbroadcasti32x2" (fun v => let (o, a, r, n, e, j, l, s) := v in i_vbroadcasti32x2 (r 0) (o 1));
   mkLen "vbroadcasti32x4" (fun v => let (o, a, r, n, e, j, l, s) := v in i_vbroadcasti32x4 (r 0) (o 1));
   mkLen "vbroadcasti32x8" (fun v => let (o, a, r, n, e, j, l, s) := v in i_vbroadcasti32x8 (r 0) (o 1));
   mkLen "vbroadcasti64x2" (fun v => let (o, a, r, n, e, j, l, s) := v in i_vbroadcasti64x2 (r 0) (o 1));
   mkLen "vbroadcasti64x4" (fun v => let (o, a, r, n, e, j, l, s) := v in i_vbroadcasti64x4 (r 0) (o 1));
   mkLen "vcmppd_kxoi" (fun v => let (o, a, r, n, e, j, l, s) := v in i_vcmppd_kxoi (r 0) (r 1) (o 2) (n 3));
   mkLen "vcmpeq_ospd_kxo" (fun v => let (o, a, r, n, e, j, l, s) := v in i_vcmpeq_ospd_kxo (r 0) (r 1) (o 2));
   mkLen "vcmpps_kxoi" (fun v => let (o, a, r, n, e, j, l, s) := v in i_vcmpps_kxoi (r 0) (r 1) (o 2) (n 3));
   mkLen "vcmpeq_osps_kxo" (fun v => let (o, a, r, n, e, j, l, s) := v in i_vcmpeq_osps_kxo (r 0) (r 1) (o 2));
   mkLen "vcmpsd_kxoi" (fun v => let (o, a, r, n, e, j, l, s) := v in i_vcmpsd_kxoi (r 0) (r 1) (o 2) (n 3));
   mkLen "vcmpeq_ossd_kxo" (fun v => let (o, a, r, n, e, j, l, s) := v in i_vcmpeq_ossd_kxo (r 0) (r 1) (o 2));
   mkLen "vcmpss_kxoi" (fun v => let (o, a, r, n, e, j, l, s) := v in i_vcmpss_kxoi (r 0) (r 1) (o 2) (n 3));
   mkLen "vcmpeq_osss_kxo" (fun v => let (o, a, r, n, e, j, l, s) := v in i_vcmpeq_osss_kxo (r 0) (r 1) (o 2));
   mkLen "vcmpeq_uqpd_kxo" (fun v => let (o, a, r, n, e, j, l, s) := v in i_vcmpeq_uqpd_kxo (r 0) (r 1) (o 2));
   mkLen "vcmpeq_uqps_kxo" (fun v => let (o, a, r, n, e, j, l, s) := v in i_vcmpeq_uqps_kxo (r 0) (r 1) (o 2));
   mkLen "vcmpeq_uqsd_kxo" (fun v => let (o, a, r, n, e, j, l, s) := v in i_vcmpeq_uqsd_kxo (r 0) (r 1) (o 2));
   mkLen "vcmpeq_uqss_kxo" (fun v => let (o, a, r, n, e, j, l, s) := v in i_vcmpeq_uqss_kxo (r 0) (r 1) (o 2));
   mkLen "vcmpeq_uspd_kxo" (fun v => let (o, a, r, n, e, j, l, s) := v in i_vcmpeq_uspd_kxo (r 0) (r 1) (o 2));
   mkLen "vcmpeq_usps_kxo" (fun v => let (o, a, r, n, e, j, l, s) := v in i_vcmpeq_usps_kxo (r 0) (r 1) (o 2));
   mkLen "vcmpeq_ussd_kxo" (fun v => let (o, a, r, n, e, j, l, s) := v in i_vcmpeq_ussd_kxo (r 0) (r 1) (o 2));
   mkLen "vcmpeq_usss_kxo" (fun v => let (o, a, r, n, e, j, l, s) := v in i_vcmpeq_usss_kxo (r 0) (r 1) (o 2));
   mkLen "vcmpeqpd_kxo" (fun v => let (o, a, r, n, e, j, l, s) := v in i_vcmpeqpd_kxo (r 0) (r 1) (o 2));
   mkLen "vcmpeqps_kxo" (fun v => let (o, a, r, n, e, j, l, s) := v in i_vcmpeqps_kxo (r 0) (r 1) (o 2))].
Lemma lens65_ok : Forall entry_within lens65.
Proof. unfold lens65.
row. { unfold i_vbroadcastf64x2. row_len. }
row. { unfold i_vbroadcastf64x4. row_len. }
row. { unfold i_vbroadcasti32x2. row_len. }
row. { unfold i_vbroadcasti32x4. row_len. }
row. { unfold i_vbroadcasti32x8. row_len. }
row. { unfold i_vbroadcasti64x2. row_len. }
row. { unfold i_vbroadcasti64x4. row_len. }
row. { unfold i_vcmppd_kxoi. row_len. }
row. { unfold i_vcmpeq_ospd_kxo, i_vcmppd_kxoi. row_len. }
row. { unfold i_vcmpps_kxoi. row_len. }
row. { unfold i_vcmpeq_osps_kxo, i_vcmpps_kxoi. row_len. }
row. { unfold i_vcmpsd_kxoi. row_len. }
row. { unfold i_vcmpeq_ossd_kxo, i_vcmpsd_kxoi. row_len. }
row. { unfold i_vcmpss_kxoi. row_len. }
row. { unfold i_vcmpeq_osss_kxo, i_vcmpss_kxoi. row_len. }
row. { unfold i_vcmpeq_uqpd_kxo, i_vcmppd_kxoi. row_len. }
row. { unfold i_vcmpeq_uqps_kxo, i_vcmpps_kxoi. row_len. }
row. { unfold i_vcmpeq_uqsd_kxo, i_vcmpsd_kxoi. row_len. }
row. { unfold i_vcmpeq_uqss_kxo, i_vcmpss_kxoi. row_len. }
row. { unfold i_vcmpeq_uspd_kxo, i_vcmppd_kxoi. row_len. }
row. { unfold i_vcmpeq_usps_kxo, i_vcmpps_kxoi. row_len. }
row. { unfold i_vcmpeq_ussd_kxo, i_vcmpsd_kxoi. row_len. }
row. { unfold i_vcmpeq_usss_kxo, i_vcmpss_kxoi. row_len. }
row. { unfold i_vcmpeqpd_kxo, i_vcmppd_kxoi. row_len. }
row. { unfold i_vcmpeqps_kxo, i_vcmpps_kxoi. row_len. }
apply Forall_nil. Qed.
Definition lens66 : list len_entry :=
  [mkLen "vcmpeqsd_kxo" (fun v => let (o, a, r, n, e, j, l, s) := v in i_vcmpeqsd_kxo (r 0) (r 1) (o 2));
   mkLen "vcmpeqss_kxo" (fun v => let (o, a, r, n, e, j, l, s) := v in i_vcmpeqss_kxo (r 0) (r 1) (o 2));
   mkLen "vcmpfalse_ospd_kxo" (fun v => let (o, a, r, n, e, j, l, s) := v in i_vcmpfalse_ospd_kxo (r 0) (r 1) (o 2));
   mkLen "vcmpfalse_osps_kxo" (fun v => let (o, a, r, n, e, j, l, s) := v in i_vcmpfalse_osps_kxo (r 0) (r 1) (o 2));
   mkLen "vcmpfalse_ossd_kxo" (fun v => let (o, a, r, n, e, j, l, s) := v in i_vcmpfalse_ossd_kxo (r 0) (r 1) (o 2));
   mkLen "vcmpfalse_osss_kxo" (fun v => let (o, a, r, n, e, j, l, s) := v in i_vcmpfalse_osss_kxo (r 0) (r 1) (o 2));
   mkLen "vcmpfalsepd_kxo" (fun v => let (o, a, r, n, e, j, l, s) := v in i_vcmpfalsepd_kxo (r 0) (r 1) (o 2));
   mkLen "vcmpfalseps_kxo" (fun v => let (o, a, r, n, e, j, l, s) := v in i_vcmpfalseps_kxo (r 0) (r 1) (o 2));
   mkLen "vcmpfalsesd_kxo" (fun v => let (o, a, r, n, e, j, l, s) := v in i_vcmpfalsesd_kxo (r 0) (r 1) (o 2));
   mkLen "vcmpfalsess_kxo" (fun v => let (o, a, r, n, e, j, l, s) := v in i_vcmpfalsess_kxo (r 0) (r 1) (o 2));
   mkLen "vcmpge_oqpd_kxo" (fun v => let (o, a, r, n, e, j, l, s) := v in i_vcmpge_oqpd_kxo (r 0) (r 1) (o 2));
   mkLen "vcmpge_oqps_kxo" (fun v => let (o, a, r, n, e, j, l, s) := v in i_vcmpge_oqps_kxo (r 0) (r 1) (o 2));
   mkLen "vcmpge_oqsd_kxo" (fun v => let (o, a, r, n, e, j, l, s) := v in i_vcmpge_oqsd_kxo (r 0) (r 1) (o 2));
   mkLen "vcmpge_oqss_kxo" (fun v => let (o, a, r, n, e, j, l, s) := v in i_vcmpge_oqss_kxo (r 0) (r 1) (o 2));
   mkLen "vcmpgepd_kxo" (fun v => let (o, a, r, n, e, j, l, s) := v in i_vcmpgepd_kxo (r 0) (r 1) (o 2));
   mkLen "vcmpgeps_kxo" (fun v => let (o, a, r, n, e, j, l, s) := v in i_vcmpgeps_kxo (r 0) (r 1) (o 2));
   mkLen "vcmpgesd_kxo" (fun v => let (o, a, r, n, e, j, l, s) := v in i_vcmpgesd_kxo (r 0) (r 1) (o 2));
   mkLen "vcmpgess_kxo" (fun v => let (o, a, r, n, e, j, l, s) := v in i_vcmpgess_kxo (r 0) (r 1) (o 2));
   mkLen "vcmpgt_oqpd_kxo" (fun v => let (o, a, r, n, e, j, l, s) := v in i_vcmpgt_oqpd_kxo (r 0) (r 1) (o 2));
   mkLen "vcmpgt_oqps_kxo" (fun v => let (o, a, r, n, e, j, l, s) := v in i_vcmpgt_oqps_kxo (r 0) (r 1) (o 2));
   mkLen "vcmpgt_oqsd_kxo" (fun v => let (o, a, r, n, e, j, l, s) := v in i_vcmpgt_oqsd_kxo (r 0) (r 1) (o 2));
   mkLen "vcmpgt_oqss_kxo" (fun v => let (o, a, r, n, e, j, l, s) := v in i_vcmpgt_oqss_kxo (r 0) (r 1) (o 2));
   mkLen "vcmpgtpd_kxo" (fun v => let (o, a, r, n, e, j, l, s) := v in i_vcmpgtpd_kxo (r 0) (r 1) (o 2));
   mkLen "vcmpgtps_kxo" (fun v => let (o, a, r, n, e, j, l, s) := v in i_vcmpgtps_kxo (r 0) (r 1) (o 2));
   mkLen "vcmpgtsd_kxo" (fun v => let (o, a, r, n, e, j, l, s) := v in i_vcmpgtsd_kxo (r 0) (r 1) (o 2))].
Lemma lens66_ok : Forall entry_within lens66.
Proof. unfold lens66.
row. { unfold i_vcmpeqsd_kxo, i_vcmpsd_kxoi. row_len. }
row. { unfold i_vcmpeqss_kxo, i_vcmpss_kxoi. row_len. }
row. { unfold i_vcmpfalse_ospd_kxo, i_vcmppd_kxoi. row_len. }
row. { unfold i_vcmpfalse_osps_kxo, i_vcmpps_kxoi. row_len. }
row. { unfold i_vcmpfalse_ossd_kxo, i_vcmpsd_kxoi. row_len. }
row. { unfold i_vcmpfalse_osss_kxo, i_vcmpss_kxoi. row_len. }
row. { unfold i_vcmpfalsepd_kxo, i_vcmppd_kxoi. row_len. }
row. { unfold i_vcmpfalseps_kxo, i_vcmpps_kxoi. row_len. }
row. { unfold i_vcmpfalsesd_kxo, i_vcmpsd_kxoi. row_len. }
row. { unfold i_vcmpfalsess_kxo, i_vcmpss_kxoi. row_len. }
row. { unfold i_vcmpge_oqpd_kxo, i_vcmppd_kxoi. row_len. }
row. { unfold i_vcmpge_oqps_kxo, i_vcmpps_kxoi. row_len. }
row. { unfold i_vcmpge_oqsd_kxo, i_vcmpsd_kxoi. row_len. }
row. { unfold i_vcmpge_oqss_kxo, i_vcmpss_kxoi. row_len. }
row. { unfold i_vcmpgepd_kxo, i_vcmppd_kxoi. row_len. }
row. { unfold i_vcmpgeps_kxo, i_vcmpps_kxoi. row_len. }
row. { unfold i_vcmpgesd_kxo, i_vcmpsd_kxoi. row_len. }
row. { unfold i_vcmpgess_kxo, i_vcmpss_kxoi. row_len. }
row. { unfold i_vcmpgt_oqpd_kxo, i_vcmppd_kxoi. row_len. }
row. { unfold i_vcmpgt_oqps_kxo, i_vcmpps_kxoi. row_len. }
row. { unfold i_vcmpgt_oqsd_kxo, i_vcmpsd_kxoi. row_len. }
row. { unfold i_vcmpgt_oqss_kxo, i_vcmpss_kxoi. row_len. }
row. { unfold i_vcmpgtpd_kxo, i_vcmppd_kxoi. row_len. }
row. { unfold i_vcmpgtps_kxo, i_vcmpps_kxoi. row_len. }
row. { unfold i_vcmpgtsd_kxo, i_vcmpsd_kxoi. row_len. }
apply Forall_nil. Qed.
Definition lens67 : list len_entry :=
  [mkLen "vcmpgtss_kxo" (fun v => let (o, a, r, n, e, j, l, s) := v in i_vcmpgtss_kxo (r 0) (r 1) (o 2));
   mkLen "vcmple_oqpd_kxo" (fun v => let (o, a, r, n, e, j, l, s) := v in i_vcmple_oqpd_kxo (r 0) (r 1) (o 2));
   mkLen "vcmple_oqps_kxo" (fun v => let (o, a, r, n, e, j, l, s) := v in i_vcmple_oqps_kxo (r 0) (r 1) (o 2));
   mkLen "vcmple_oqsd_kxo" (fun v => let (o, a, r, n, e, j, l, s) := v in i_vcmple_oqsd_kxo (r 0) (r 1) (o 2));
   mkLen "vcmple_oqss_kxo" (fun v => let (o, a, r, n, e, j, l, s) := v in i_vcmple_oqss_kxo (r 0) (r 1) (o 2));
   mkLen "vcmplepd_kxo" (fun v => let (o, a, r, n, e, j, l, s) := v in i_vcmplepd_kxo (r 0) (r 1) (o 2));
   mkLen "vcmpleps_kxo" (fun v => let (o, a, r, n, e, j, l, s) := v in i_vcmpleps_kxo (r 0) (r 1) (o 2));
   mkLen "vcmplesd_kxo" (fun v => let (o, a, r, n, e, j, l, s) := v in i_vcmplesd_kxo (r 0) (r 1) (o 2));
   mkLen "vcmpless_kxo" (fun v => let (o, a, r, n, e, j, l, s) := v in i_vcmpless_kxo (r 0) (r 1) (o 2));
   mkLen "vcmplt_oqpd_kxo" (fun v => let (o, a, r, n, e, j, l, s) := v in i_vcmplt_oqpd_kxo (r 0) (r 1) (o 2));
   mkLen "vcmplt_oqps_kxo" (fun v => let (o, a, r, n, e, j, l, s) := v in i_vcmplt_oqps_kxo (r 0) (r 1) (o 2));
   mkLen "vcmplt_oqsd_kxo" (fun v => let (o, a, r, n, e, j, l, s) := v in i_vcmplt_oqsd_kxo (r 0) (r 1) (o 2));
   mkLen "vcmplt_oqss_kxo" (fun v => let (o, a, r, n, e, j, l, s) := v in i_vcmplt_oqss_kxo (r 0) (r 1) (o 2));
   mkLen "vcmpltpd_kxo" (fun v => let (o, a, r, n, e, j, l, s) := v in i_vcmpltpd_kxo (r 0) (r 1) (o 2));
   mkLen "vcmpltps_kxo" (fun v => let (o, a, r, n, e, j, l, s) := v in i_vcmpltps_kxo (r 0) (r 1) (o 2));
   mkLen "vcmpltsd_kxo" (fun v => let (o, a, r, n, e, j, l, s) := v in i_vcmpltsd_kxo (r 0) (r 1) (o 2));
   mkLen "vcmpltss_kxo" (fun v => let (o, a, r, n, e, j, l, s) := v in i_vcmpltss_kxo (r 0) (r 1) (o 2));
   mkLen "vcmpneq_oqpd_kxo" (fun v => let (o, a, r, n, e, j, l, s) := v in i_vcmpneq_oqpd_kxo (r 0) (r 1) (o 2));
   mkLen "vcmpneq_oqps_kxo" (fun v => let (o, a, r, n, e, j, l, s) := v in i_vcmpneq_oqps_kxo (r 0) (r 1) (o 2));
   mkLen "vcmpneq_oqsd_kxo" (fun v => let (o, a, r, n, e, j, l, s) := v in i_vcmpneq_oqsd_kxo (r 0) (r 1) (o 2));
   mkLen "vcmpneq_oqss_kxo" (fun v => let (o, a, r, n, e, j, l, s) := v in i_vcmpneq_oqss_kxo (r 0) (r 1) (o 2));
   mkLen "vcmpneq_ospd_kxo" (fun v => let (o, a, r, n, e, j, l, s) := v in i_vcmpneq_ospd_kxo (r 0) (r 1) (o 2));
   mkLen "vcmpneq_osps_kxo" (fun v => let (o, a, r, n, e, j, l, s) := v in i_vcmpneq_osps_kxo (r 0) (r 1) (o 2));
   mkLen "vcmpneq_ossd_kxo" (fun v => let (o, a, r, n, e, j, l, s) := v in i_vcmpneq_ossd_kxo (r 0) (r 1) (o 2));
   mkLen "vcmpneq_osss_kxo" (fun v => let (o, a, r, n, e, j, l, s) := v in i_vcmpneq_osss_kxo (r 0) (r 1) (o 2))].
Lemma lens67_ok : Forall entry_within lens67.
Proof. unfold lens67.
row. { unfold i_vcmpgtss_kxo, i_vcmpss_kxoi. row_len. }
row. { unfold i_vcmple_oqpd_kxo, i_vcmppd_kxoi. row_len. }
row. { unfold i_vcmple_oqps_kxo, i_vcmpps_kxoi. row_len. }
row. { unfold i_vcmple_oqsd_kxo, i_vcmpsd_kxoi. row_len. }
row. { unfold i_vcmple_oqss_kxo, i_vcmpss_kxoi. row_len. }
row. { unfold i_vcmplepd_kxo, i_vcmppd_kxoi. row_len. }
row. { unfold i_vcmpleps_kxo, i_vcmpps_kxoi. row_len. }
row. { unfold i_vcmplesd_kxo, i_vcmpsd_kxoi. row_len. }
row. { unfold i_vcmpless_kxo, i_vcmpss_kxoi. row_len. }
row. { unfold i_vcmplt_oqpd_kxo, i_vcmppd_kxoi. row_len. }
row. { unfold i_vcmplt_oqps_kxo, i_vcmpps_kxoi. row_len. }
row. { unfold i_vcmplt_oqsd_kxo, i_vcmpsd_kxoi. row_len. }
row. { unfold i_vcmplt_oqss_kxo, i_vcmpss_kxoi. row_len. }
row. { unfold i_vcmpltpd_kxo, i_vcmppd_kxoi. row_len. }
row. { unfold i_vcmpltps_kxo, i_vcmpps_kxoi. row_len. }
row. { unfold i_vcmpltsd_kxo, i_vcmpsd_kxoi. row_len. }
row. { unfold i_vcmpltss_kxo, i_vcmpss_kxoi. row_len. }
row. { unfold i_vcmpneq_oqpd_kxo, i_vcmppd_kxoi. row_len. }
row. { unfold i_vcmpneq_oqps_kxo, i_vcmpps_kxoi. row_len. }
row. { unfold i_vcmpneq_oqsd_kxo, i_vcmpsd_kxoi. row_len. }
row. { unfold i_vcmpneq_oqss_kxo, i_vcmpss_kxoi. row_len. }
row. { unfold i_vcmpneq_ospd_kxo, i_vcmppd_kxoi. row_len. }
row. { unfold i_vcmpneq_osps_kxo, i_vcmpps_kxoi. row_len. }
row. { unfold i_vcmpneq_ossd_kxo, i_vcmpsd_kxoi. row_len. }
row. { unfold i_vcmpneq_osss_kxo, i_vcmpss_kxoi. row_len. }
apply Forall_nil. Qed.
Definition lens68 : list len_entry :=
  [mkLen "vcmpneq_uspd_kxo" (fun v => let (o, a, r, n, e, j, l, s) := v in i_vcmpneq_uspd_kxo (r 0) (r 1) (o 2));
   mkLen "vcmpneq_usps_kxo" (fun v => let (o, a, r, n, e, j, l, s) := v in i_vcmpneq_usps_kxo (r 0) (r 1) (o 2));
   mkLen "vcmpneq_ussd_kxo" (fun v => let (o, a, r, n, e, j, l, s) := v in i_vcmpneq_ussd_kxo (r 0) (r 1) (o 2));
   mkLen "vcmpneq_usss_kxo" (fun v => let (o, a, r, n, e, j, l, s) := v in i_vcmpneq_usss_kxo (r 0) (r 1) (o 2));
   mkLen "vcmpneqpd_kxo" (fun v => let (o, a, r, n, e, j, l, s) := v in i_vcmpneqpd_kxo (r 0) (r 1) (o 2));
   mkLen "vcmpneqps_kxo" (fun v => let (o, a, r, n, e, j, l, s) := v in i_vcmpneqps_kxo (r 0) (r 1) (o 2));
   mkLen "vcmpneqsd_kxo" (fun v => let (o, a, r, n, e, j, l, s) := v in i_vcmpneqsd_kxo (r 0) (r 1) (o 2));
   mkLen "vcmpneqss_kxo" (fun v => let (o, a, r, n, e, j, l, s) := v in i_vcmpneqss_kxo (r 0) (r 1) (o 2));
   mkLen "vcmpnge_uqpd_kxo" (fun v => let (o, a, r, n, e, j, l, s) := v in i_vcmpnge_uqpd_kxo (r 0) (r 1) (o 2));
   mkLen "vcmpnge_uqps_kxo" (fun v => let (o, a, r, n, e, j, l, s) := v in i_vcmpnge_uqps_kxo (r 0) (r 1) (o 2));
   mkLen "vcmpnge_uqsd_kxo" (fun v => let (o, a, r, n, e, j, l, s) := v in i_vcmpnge_uqsd_kxo (r 0) (r 1) (o 2));
   mkLen "vcmpnge_uqss_kxo" (fun v => let (o, a, r, n, e, j, l, s) := v in i_vcmpnge_uqss_kxo (r 0) (r 1) (o 2));
   mkLen "vcmpngepd_kxo" (fun v => let (o, a, r, n, e, j, l, s) := v in i_vcmpngepd_kxo (r 0) (r 1) (o 2));
   mkLen "vcmpngeps_kxo" (fun v => let (o, a, r, n, e, j, l, s) := v in i_vcmpngeps_kxo (r 0) (r 1) (o 2));
   mkLen "vcmpngesd_kxo" (fun v => let (o, a, r, n, e, j, l, s) := v in i_vcmpngesd_kxo (r 0) (r 1) (o 2));
   mkLen "vcmpngess_kxo" (fun v => let (o, a, r, n, e, j, l, s) := v in i_vcmpngess_kxo (r 0) (r 1) (o 2));
   mkLen "vcmpngt_uqpd_kxo" (fun v => let (o, a, r, n, e, j, l, s) := v in i_vcmpngt_uqpd_kxo (r 0) (r 1) (o 2));
   mkLen "vcmpngt_uqps_kxo" (fun v => let (o, a, r, n, e, j, l, s) := v in i_vcmpngt_uqps_kxo (r 0) (r 1) (o 2));
   mkLen "vcmpngt_uqsd_kxo" (fun v => let (o, a, r, n, e, j, l, s) := v in i_vcmpngt_uqsd_kxo (r 0) (r 1) (o 2));
   mkLen "vcmpngt_uqss_kxo" (fun v => let (o, a, r, n, e, j, l, s) := v in i_vcmpngt_uqss_kxo (r 0) (r 1) (o 2));
   mkLen "vcmpngtpd_kxo" (fun v => let (o, a, r, n, e, j, l, s) := v in i_vcmpngtpd_kxo (r 0) (r 1) (o 2));
   mkLen "vcmpngtps_kxo" (fun v => let (o, a, r, n, e, j, l, s) := v in i_vcmpngtps_kxo (r 0) (r 1) (o 2));
   mkLen "vcmpngtsd_kxo" (fun v => let (o, a, r, n, e, j, l, s) := v in i_vcmpngtsd_kxo (r 0) (r 1) (o 2));
   mkLen "vcmpngtss_kxo" (fun v => let (o, a, r, n, e, j, l, s) := v in i_vcmpngtss_kxo (r 0) (r 1) (o 2));
   mkLen "vcmpnle_uqpd_kxo" (fun v => let (o, a, r, n, e, j, l, s) := v in i_vcmpnle_uqpd_kxo (r 0) (r 1) (o 2))].
Lemma lens68_ok : Forall entry_within lens68.
Proof. unfold lens68.
row. { unfold i_vcmpneq_uspd_kxo, i_vcmppd_kxoi. row_len. }
row. { unfold i_vcmpneq_usps_kxo, i_vcmpps_kxoi. row_len. }
row. { unfold i_vcmpneq_ussd_kxo, i_vcmpsd_kxoi. row_len. }
row. { unfold i_vcmpneq_usss_kxo, i_vcmpss_kxoi. row_len. }
row. { unfold i_vcmpneqpd_kxo, i_vcmppd_kxoi. row_len. }
row. { unfold i_vcmpneqps_kxo, i_vcmpps_kxoi. row_len. }
row. { unfold i_vcmpneqsd_kxo, i_vcmpsd_kxoi. row_len. }
row. { unfold i_vcmpneqss_kxo, i_vcmpss_kxoi. row_len. }
row. { unfold i_vcmpnge_uqpd_kxo, i_vcmppd_kxoi. row_len. }
row. { unfold i_vcmpnge_uqps_kxo, i_vcmpps_kxoi. row_len. }
row. { unfold i_vcmpnge_uqsd_kxo, i_vcmpsd_kxoi. row_len. }
row. { unfold i_vcmpnge_uqss_kxo, i_vcmpss_kxoi. row_len. }
row. { unfold i_vcmpngepd_kxo, i_vcmppd_kxoi. row_len. }
row. { unfold i_vcmpngeps_kxo, i_vcmpps_kxoi. row_len. }
row. { unfold i_vcmpngesd_kxo, i_vcmpsd_kxoi. row_len. }
row. { unfold i_vcmpngess_kxo, i_vcmpss_kxoi. row_len. }
row. { unfold i_vcmpngt_uqpd_kxo, i_vcmppd_kxoi. row_len. }
row. { unfold i_vcmpngt_uqps_kxo, i_vcmpps_kxoi. row_len. }
row. { unfold i_vcmpngt_uqsd_kxo, i_vcmpsd_kxoi. row_len. }
row. { unfold i_vcmpngt_uqss_kxo, i_vcmpss_kxoi. row_len. }
row. { unfold i_vcmpngtpd_kxo, i_vcmppd_kxoi. row_len. }
row. { unfold i_vcmpngtps_kxo, i_vcmpps_kxoi. row_len. }
row. { unfold i_vcmpngtsd_kxo, i_vcmpsd_kxoi. row_len. }
row. { unfold i_vcmpngtss_kxo, i_vcmpss_kxoi. row_len. }
row. { unfold i_vcmpnle_uqpd_kxo, i_vcmppd_kxoi. row_len. }
apply Forall_nil. Qed.
Definition lens69 : list len_entry :=
  [mkLen "vcmpnle_uqps_kxo" (fun v => let (o, a, r, n, e, j, l, s) := v in i_vcmpnle_uqps_kxo (r 0) (r 1) (o 2));
   mkLen "vcmpnle_uqsd_kxo" (fun v => let (o, a, r, n, e, j, l, s) := v in i_vcmpnle_uqsd_kxo (r 0) (r 1) (o 2));
   mkLen "vcmpnle_uqss_kxo" (fun v => let (o, a, r, n, e, j, l, s) := v in i_vcmpnle_uqss_kxo (r 0) (r 1) (o 2));
   mkLen "vcmpnlepd_kxo" (fun v => let (o, a, r, n, e, j, l, s) := v in i_vcmpnlepd_kxo (r 0) (r 1) (o 2));
   mkLen "vcmpnleps_kxo" (fun v => let (o, a, r, n, e, j, l, s) := v in i_vcmpnleps_kxo (r 0) (r 1) (o 2));
   mkLen "vcmpnlesd_kxo" (fun v => let (o, a, r, n, e, j, l, s) := v in i_vcmpnlesd_kxo (r 0) (r 1) (o 2));
   mkLen "vcmpnless_kxo" (fun v => let (o, a, r, n, e, j, l, s) := v in i_vcmpnless_kxo (r 0) (r 1) (o 2));
   mkLen "vcmpnlt_uqpd_kxo" (fun v => let (o, a, r, n, e, j, l, s) := v in i_vcmpnlt_uqpd_kxo (r 0) (r 1) (o 2));
   mkLen "vcmpnlt_uqps_kxo" (fun v => let (o, a, r, n, e, j, l, s) := v in i_vcmpnlt_uqps_kxo (r 0) (r 1) (o 2));
   mkLen "vcmpnlt_uqsd_kxo" (fun v => let (o, a, r, n, e, j, l, s) := v in i_vcmpnlt_uqsd_kxo (r 0) (r 1) (o 2));
   mkLen "vcmpnlt_uqss_kxo" (fun v => let (o, a, r, n, e, j, l, s) := v in i_vcmpnlt_uqss_kxo (r 0) (r 1) (o 2));
   mkLen "vcmpnltpd_kxo" (fun v => let (o, a, r, n, e, j, l, s) := v in i_vcmpnltpd_kxo (r 0) (r 1) (o 2));
   mkLen "vcmpnltps_kxo" (fun v => let (o, a, r, n, e, j, l, s) := v in i_vcmpnltps_kxo (r 0) (r 1) (o 2));
   mkLen "vcmpnltsd_kxo" (fun v => let (o, a, r, n, e, j, l, s) := v in i_vcmpnltsd_kxo (r 0) (r 1) (o 2));
   mkLen "vcmpnltss_kxo" (fun v => let (o, a, r, n, e, j, l, s) := v in i_vcmpnltss_kxo (r 0) (r 1) (o 2));
   mkLen "vcmpord_spd_kxo" (fun v => let (o, a, r, n, e, j, l, s) := v in i_vcmpord_spd_kxo (r 0) (r 1) (o 2));
   mkLen "vcmpord_sps_kxo" (fun v => let (o, a, r, n, e, j, l, s) := v in i_vcmpord_sps_kxo (r 0) (r 1) (o 2));
   mkLen "vcmpord_ssd_kxo" (fun v => let (o, a, r, n, e, j, l, s) := v in i_vcmpord_ssd_kxo (r 0) (r 1) (o 2));
   mkLen "vcmpord_sss_kxo" (fun v => let (o, a, r, n, e, j, l, s) := v in i_vcmpord_sss_kxo (r 0) (r 1) (o 2));
   mkLen "vcmpordpd_kxo" (fun v => let (o, a, r, n, e, j, l, s) := v in i_vcmpordpd_kxo (r 0) (r 1) (o 2));
   mkLen "vcmpordps_kxo" (fun v => let (o, a, r, n, e, j, l, s) := v in i_vcmpordps_kxo (r 0) (r 1) (o 2));
   mkLen "vcmpordsd_kxo" (fun v => let (o, a, r, n, e, j, l, s) := v in i_vcmpordsd_kxo (r 0) (r 1) (o 2));
   mkLen "vcmpordss_kxo" (fun v => let (o, a, r, n, e, j, l, s) := v in i_vcmpordss_kxo (r 0) (r 1) (o 2));
   mkLen "vcmppbf16" (fun v => let (o, a, r, n, e, j, l, s) := v in i_vcmppbf16 (r 0) (r 1) (o 2) (n 3));
   mkLen "vcmpph" (fun v => let (o, a, r, n, e, j, l, s) := v in i_vcmpph (r 0) (r 1) (o 2) (n 3))].
Lemma lens69_ok : Forall entry_within lens69.
Proof. unfold lens69.
row. { unfold i_vcmpnle_uqps_kxo, i_vcmpps_kxoi. row_len. }
row. { unfold i_vcmpnle_uqsd_kxo, i_vcmpsd_kxoi. row_len. }
row. { unfold i_vcmpnle_uqss_kxo, i_vcmpss_kxoi. row_len. }
row. { unfold i_vcmpnlepd_kxo, i_vcmppd_kxoi. row_len. }
row. { unfold i_vcmpnleps_kxo, i_vcmpps_kxoi. row_len. }
row. { unfold i_vcmpnlesd_kxo, i_vcmpsd_kxoi. row_len. }
row. { unfold i_vcmpnless_kxo, i_vcmpss_kxoi. row_len. }
row. { unfold i_vcmpnlt_uqpd_kxo, i_vcmppd_kxoi. row_len. }
row. { unfold i_vcmpnlt_uqps_kxo, i_vcmpps_kxoi. row_len. }
row. { unfold i_vcmpnlt_uqsd_kxo, i_vcmpsd_kxoi. row_len. }
row. { unfold i_vcmpnlt_uqss_kxo, i_vcmpss_kxoi. row_len. }
row. { unfold i_vcmpnltpd_kxo, i_vcmppd_kxoi. row_len. }
row. { unfold i_vcmpnltps_kxo, i_vcmpps_kxoi. row_len. }
row. { unfold i_vcmpnltsd_kxo, i_vcmpsd_kxoi. row_len. }
row. { unfold i_vcmpnltss_kxo, i_vcmpss_kxoi. row_len. }
row. { unfold i_vcmpord_spd_kxo, i_vcmppd_kxoi. row_len. }
row. { unfold i_vcmpord_sps_kxo, i_vcmpps_kxoi. row_len. }
row. { unfold i_vcmpord_ssd_kxo, i_vcmpsd_kxoi. row_len. }
row. { unfold i_vcmpord_sss_kxo, i_vcmpss_kxoi. row_len. }
row. { unfold i_vcmpordpd_kxo, i_vcmppd_kxoi. row_len. }
row. { unfold i_vcmpordps_kxo, i_vcmpps_kxoi. row_len. }
row. { unfold i_vcmpordsd_kxo, i_vcmpsd_kxoi. row_len. }
row. { unfold i_vcmpordss_kxo, i_vcmpss_kxoi. row_len. }
row. { unfold i_vcmppbf16. row_len. }
row. { unfold i_vcmpph. row_len. }
apply Forall_nil. Qed.
Definition lens70 : list len_entry :=
  [mkLen "vcmpsh" (fun v => let (o, a, r, n, e, j, l, s) := v in i_vcmpsh (r 0) (r 1) (o 2) (n 3));
   mkLen "vcmptrue_uspd_kxo" (fun v => let (o, a, r, n, e, j, l, s) := v in i_vcmptrue_uspd_kxo (r 0) (r 1) (o 2));
   mkLen "vcmptrue_usps_kxo" (fun v => let (o, a, r, n, e, j, l, s) := v in i_vcmptrue_usps_kxo (r 0) (r 1) (o 2));
   mkLen "vcmptrue_ussd_kxo" (fun v => let (o, a, r, n, e, j, l, s) := v in i_vcmptrue_ussd_kxo (r 0) (r 1) (o 2));
   mkLen "vcmptrue_usss_kxo" (fun v => let (o, a, r, n, e, j, l, s) := v in i_vcmptrue_usss_kxo (r 0) (r 1) (o 2));
   mkLen "vcmptruepd_kxo" (fun v => let (o, a, r, n, e, j, l, s) := v in i_vcmptruepd_kxo (r 0) (r 1) (o 2));
   mkLen "vcmptrueps_kxo" (fun v => let (o, a, r, n, e, j, l, s) := v in i_vcmptrueps_kxo (r 0) (r 1) (o 2));
   mkLen "vcmptruesd_kxo" (fun v => let (o, a, r, n, e, j, l, s) := v in i_vcmptruesd_kxo (r 0) (r 1) (o 2));
   mkLen "vcmptruess_kxo" (fun v => let (o, a, r, n, e, j, l, s) := v in i_vcmptruess_kxo (r 0) (r 1) (o 2));
   mkLen "vcmpunord_spd_kxo" (fun v => let (o, a, r, n, e, j, l, s) := v in i_vcmpunord_spd_kxo (r 0) (r 1) (o 2));
   mkLen "vcmpunord_sps_kxo" (fun v => let (o, a, r, n, e, j, l, s) := v in i_vcmpunord_sps_kxo (r 0) (r 1) (o 2));
   mkLen "vcmpunord_ssd_kxo" (fun v => let (o, a, r, n, e, j, l, s) := v in i_vcmpunord_ssd_kxo (r 0) (r 1) (o 2));
   mkLen "vcmpunord_sss_kxo" (fun v => let (o, a, r, n, e, j, l, s) := v in i_vcmpunord_sss_kxo (r 0) (r 1) (o 2));
   mkLen "vcmpunordpd_kxo" (fun v => let (o, a, r, n, e, j, l, s) := v in i_vcmpunordpd_kxo (r 0) (r 1) (o 2));
   mkLen "vcmpunordps_kxo" (fun v => let (o, a, r, n, e, j, l, s) := v in i_vcmpunordps_kxo (r 0) (r 1) (o 2));
   mkLen "vcmpunordsd_kxo" (fun v => let (o, a, r, n, e, j, l, s) := v in i_vcmpunordsd_kxo (r 0) (r 1) (o 2));
   mkLen "vcmpunordss_kxo" (fun v => let (o, a, r, n, e, j, l, s) := v in i_vcmpunordss_kxo (r 0) (r 1) (o 2));
   mkLen "vcomish" (fun v => let (o, a, r, n, e, j, l, s) := v in i_vcomish (r 0) (o 1));
   mkLen "vcompresspd" (fun v => let (o, a, r, n, e, j, l, s) := v in i_vcompresspd (o 0) (r 1));
   mkLen "vcompressps" (fun v => let (o, a, r, n, e, j, l, s) := v in i_vcompressps (o 0) (r 1));
   mkLen "vcomsbf16" (fun v => let (o, a, r, n, e, j, l, s) := v in i_vcomsbf16 (r 0) (o 1));
   mkLen "vcomxsd" (fun v => let (o, a, r, n, e, j, l, s) := v in i_vcomxsd (r 0) (o 1));
   mkLen "vcomxsh" (fun v => let (o, a, r, n, e, j, l, s) := v in i_vcomxsh (r 0) (o 1));
   mkLen "vcomxss" (fun v => let (o, a, r, n, e, j, l, s) := v in i_vcomxss (r 0) (o 1));
   mkLen "vcvt2ps2phx" (fun v => let (o, a, r, n, e, j, l, s) := v in i_vcvt2ps2phx (r 0) (r 1) (o 2))].
Lemma lens70_ok : Forall entry_within lens70.
Proof. unfold lens70.
row. { unfold i_vcmpsh. row_len. }
row. { unfold i_vcmptrue_uspd_kxo, i_vcmppd_kxoi. row_len. }
row. { unfold i_vcmptrue_usps_kxo, i_vcmpps_kxoi. row_len. }
row. { unfold i_vcmptrue_ussd_kxo, i_vcmpsd_kxoi. row_len. }
row. { unfold i_vcmptrue_usss_kxo, i_vcmpss_kxoi. row_len. }
row. { unfold i_vcmptruepd_kxo, i_vcmppd_kxoi. row_len. }
row. { unfold i_vcmptrueps_kxo, i_vcmpps_kxoi. row_len. }
row. { unfold i_vcmptruesd_kxo, i_vcmpsd_kxoi. row_len. }
row. { unfold i_vcmptruess_kxo, i_vcmpss_kxoi. row_len. }
row. { unfold i_vcmpunord_spd_kxo, i_vcmppd_kxoi. row_len. }
row. { unfold i_vcmpunord_sps_kxo, i_vcmpps_kxoi. row_len. }
row. { unfold i_vcmpunord_ssd_kxo, i_vcmpsd_kxoi. row_len. }
row. { unfold i_vcmpunord_sss_kxo, i_vcmpss_kxoi. row_len. }
row. { unfold i_vcmpunordpd_kxo, i_vcmppd_kxoi. row_len. }
row. { unfold i_vcmpunordps_kxo, i_vcmpps_kxoi. row_len. }
row. { unfold i_vcmpunordsd_kxo, i_vcmpsd_kxoi. row_len. }
row. { unfold i_vcmpunordss_kxo, i_vcmpss_kxoi. row_len. }
row. { unfold i_vcomish. row_len. }
row. { unfold i_vcompresspd. row_len. }
row. { unfold i_vcompressps. row_len. }
row. { unfold i_vcomsbf16. row_len. }
row. { unfold i_vcomxsd. row_len. }
row. { unfold i_vcomxsh. row_len. }
row. { unfold i_vcomxss. row_len. }
row. { unfold i_vcvt2ps2phx. row_len. }
apply Forall_nil. Qed.
Definition lens71 : list len_entry :=
  [mkLen "vcvtbiasph2bf8" (fun v => let (o, a, r, n, e, j, l, s) := v in i_vcvtbiasph2bf8 (r 0) (r 1) (o 2));
   mkLen "vcvtbiasph2bf8s" (fun v => let (o, a, r, n, e, j, l, s) := v in i_vcvtbiasph2bf8s (r 0) (r 1) (o 2));
   mkLen "vcvtbiasph2hf8" (fun v => let (o, a, r, n, e, j, l, s) := v in i_vcvtbiasph2hf8 (r 0) (r 1) (o 2));
   mkLen "vcvtbiasph2hf8s" (fun v => let (o, a, r, n, e, j, l, s) := v in i_vcvtbiasph2hf8s (r 0) (r 1) (o 2));
   mkLen "vcvtdq2ph" (fun v => let (o, a, r, n, e, j, l, s) := v in i_vcvtdq2ph (r 0) (o 1));
   mkLen "vcvthf82ph" (fun v => let (o, a, r, n, e, j, l, s) := v in i_vcvthf82ph (r 0) (o 1));
   mkLen "vcvtne2ph2bf8" (fun v => let (o, a, r, n, e, j, l, s) := v in i_vcvtne2ph2bf8 (r 0) (r 1) (o 2));
   mkLen "vcvtne2ph2bf8s" (fun v => let (o, a, r, n, e, j, l, s) := v in i_vcvtne2ph2bf8s (r 0) (r 1) (o 2));
   mkLen "vcvtne2ph2hf8" (fun v => let (o, a, r, n, e, j, l, s) := v in i_vcvtne2ph2hf8 (r 0) (r 1) (o 2));
   mkLen "vcvtne2ph2hf8s" (fun v => let (o, a, r, n, e, j, l, s) := v in i_vcvtne2ph2hf8s (r 0) (r 1) (o 2));
   mkLen "vcvtne2ps2bf16" (fun v => let (o, a, r, n, e, j, l, s) := v in i_vcvtne2ps2bf16 (r 0) (r 1) (o 2));
   mkLen "vcvtnebf162ibs" (fun v => let (o, a, r, n, e, j, l, s) := v in i_vcvtnebf162ibs (r 0) (o 1));
   mkLen "vcvtnebf162iubs" (fun v => let (o, a, r, n, e, j, l, s) := v in i_vcvtnebf162iubs (r 0) (o 1));
   mkLen "vcvtneph2bf8" (fun v => let (o, a, r, n, e, j, l, s) := v in i_vcvtneph2bf8 (r 0) (o 1));
   mkLen "vcvtneph2bf8s" (fun v => let (o, a, r, n, e, j, l, s) := v in i_vcvtneph2bf8s (r 0) (o 1));
   mkLen "vcvtneph2hf8" (fun v => let (o, a, r, n, e, j, l, s) := v in i_vcvtneph2hf8 (r 0) (o 1));
   mkLen "vcvtneph2hf8s" (fun v => let (o, a, r, n, e, j, l, s) := v in i_vcvtneph2hf8s (r 0) (o 1));
   mkLen "vcvtpd2ph" (fun v => let (o, a, r, n, e, j, l, s) := v in i_vcvtpd2ph (r 0) (o 1));
   mkLen "vcvtpd2qq" (fun v => let (o, a, r, n, e, j, l, s) := v in i_vcvtpd2qq (r 0) (o 1));
   mkLen "vcvtpd2udq" (fun v => let (o, a, r, n, e, j, l, s) := v in i_vcvtpd2udq (r 0) (o 1));
   mkLen "vcvtpd2uqq" (fun v => let (o, a, r, n, e, j, l, s) := v in i_vcvtpd2uqq (r 0) (o 1));
   mkLen "vcvtph2dq" (fun v => let (o, a, r, n, e, j, l, s) := v in i_vcvtph2dq (r 0) (o 1));
   mkLen "vcvtph2ibs" (fun v => let (o, a, r, n, e, j, l, s) := v in i_vcvtph2ibs (r 0) (o 1));
   mkLen "vcvtph2iubs" (fun v => let (o, a, r, n, e, j, l, s) := v in i_vcvtph2iubs (r 0) (o 1));
   mkLen "vcvtph2pd" (fun v => let (o, a, r, n, e, j, l, s) := v in i_vcvtph2pd (r 0) (o 1))].
Lemma lens71_ok : Forall entry_within lens71.
Proof. unfold lens71.
row. { unfold i_vcvtbiasph2bf8. row_len. }
row. { unfold i_vcvtbiasph2bf8s. row_len. }
row. { unfold i_vcvtbiasph2hf8. row_len. }
row. { unfold i_vcvtbiasph2hf8s. row_len. }
row. { unfold i_vcvtdq2ph. row_len. }
row. { unfold i_vcvthf82ph. row_len. }
row. { unfold i_vcvtne2ph2bf8. row_len. }
row. { unfold i_vcvtne2ph2bf8s. row_len. }
row. { unfold i_vcvtne2ph2hf8. row_len. }
row. { unfold i_vcvtne2ph2hf8s. row_len. }
row. { unfold i_vcvtne2ps2bf16. row_len. }
row. { unfold i_vcvtnebf162ibs. row_len. }
row. { unfold i_vcvtnebf162iubs. row_len. }
row. { unfold i_vcvtneph2bf8. row_len. }
row. { unfold i_vcvtneph2bf8s. row_len. }
row. { unfold i_vcvtneph2hf8. row_len. }
row. { unfold i_vcvtneph2hf8s. row_len. }
row. { unfold i_vcvtpd2ph. row_len. }
row. { unfold i_vcvtpd2qq. row_len. }
row. { unfold i_vcvtpd2udq. row_len. }
row. { unfold i_vcvtpd2uqq. row_len. }
row. { unfold i_vcvtph2dq. row_len. }
row. { unfold i_vcvtph2ibs. row_len. }
row. { unfold i_vcvtph2iubs. row_len. }
row. { unfold i_vcvtph2pd. row_len. }
apply Forall_nil. Qed.
Definition lens72 : list len_entry :=
  [mkLen "vcvtph2psx" (fun v => let (o, a, r, n, e, j, l, s) := v in i_vcvtph2psx (r 0) (o 1));
   mkLen "vcvtph2qq" (fun v => let (o, a, r, n, e, j, l, s) := v in i_vcvtph2qq (r 0) (o 1));
   mkLen "vcvtph2udq" (fun v => let (o, a, r, n, e, j, l, s) := v in i_vcvtph2udq (r 0) (o 1));
   mkLen "vcvtph2uqq" (fun v => let (o, a, r, n, e, j, l, s) := v in i_vcvtph2uqq (r 0) (o 1));
   mkLen "vcvtph2uw" (fun v => let (o, a, r, n, e, j, l, s) := v in i_vcvtph2uw (r 0) (o 1));
   mkLen "vcvtph2w" (fun v => let (o, a, r, n, e, j, l, s) := v in i_vcvtph2w (r 0) (o 1));
   mkLen "vcvtps2ibs" (fun v => let (o, a, r, n, e, j, l, s) := v in i_vcvtps2ibs (r 0) (o 1));
   mkLen "vcvtps2iubs" (fun v => let (o, a, r, n, e, j, l, s) := v in i_vcvtps2iubs (r 0) (o 1));
   mkLen "vcvtps2phx" (fun v => let (o, a, r, n, e, j, l, s) := v in i_vcvtps2phx (r 0) (o 1));
   mkLen "vcvtps2qq" (fun v => let (o, a, r, n, e, j, l, s) := v in i_vcvtps2qq (r 0) (o 1));
   mkLen "vcvtps2udq" (fun v => let (o, a, r, n, e, j, l, s) := v in i_vcvtps2udq (r 0) (o 1));
   mkLen "vcvtps2uqq" (fun v => let (o, a, r, n, e, j, l, s) := v in i_vcvtps2uqq (r 0) (o 1));
   mkLen "vcvtqq2pd" (fun v => let (o, a, r, n, e, j, l, s) := v in i_vcvtqq2pd (r 0) (o 1));
   mkLen "vcvtqq2ph" (fun v => let (o, a, r, n, e, j, l, s) := v in i_vcvtqq2ph (r 0) (o 1));
   mkLen "vcvtqq2ps" (fun v => let (o, a, r, n, e, j, l, s) := v in i_vcvtqq2ps (r 0) (o 1));
   mkLen "vcvtsd2sh" (fun v => let (o, a, r, n, e, j, l, s) := v in i_vcvtsd2sh (r 0) (r 1) (o 2));
   mkLen "vcvtsd2usi" (fun v => let (o, a, r, n, e, j, l, s) := v in i_vcvtsd2usi (r 0) (o 1));
   mkLen "vcvtsh2sd" (fun v => let (o, a, r, n, e, j, l, s) := v in i_vcvtsh2sd (r 0) (r 1) (o 2));
   mkLen "vcvtsh2si" (fun v => let (o, a, r, n, e, j, l, s) := v in i_vcvtsh2si (r 0) (o 1));
   mkLen "vcvtsh2ss" (fun v => let (o, a, r, n, e, j, l, s) := v in i_vcvtsh2ss (r 0) (r 1) (o 2));
   mkLen "vcvtsh2usi" (fun v => let (o, a, r, n, e, j, l, s) := v in i_vcvtsh2usi (r 0) (o 1));
   mkLen "vcvtsi2sh" (fun v => let (o, a, r, n, e, j, l, s) := v in i_vcvtsi2sh (r 0) (r 1) (o 2));
   mkLen "vcvtss2sh" (fun v => let (o, a, r, n, e, j, l, s) := v in i_vcvtss2sh (r 0) (r 1) (o 2));
   mkLen "vcvtss2usi" (fun v => let (o, a, r, n, e, j, l, s) := v in i_vcvtss2usi (r 0) (o 1));
   mkLen "vcvttnebf162ibs" (fun v => let (o, a, r, n, e, j, l, s) := v in i_vcvttnebf162ibs (r 0) (o 1))].
Lemma lens72_ok : Forall entry_within lens72.
Proof. unfold lens72.
row. { unfold i_vcvtph2psx. row_len. }
row. { unfold i_vcvtph2qq. row_len. }
row. { unfold i_vcvtph2udq. row_len. }
row. { unfold i_vcvtph2uqq. row_len. }
row. { unfold i_vcvtph2uw. row_len. }
row. { unfold i_vcvtph2w. row_len. }
row. { unfold i_vcvtps2ibs. row_len. }
row. { unfold i_vcvtps2iubs. row_len. }
row. { unfold i_vcvtps2phx. row_len. }
row. { unfold i_vcvtps2qq. row_len. }
row. { unfold i_vcvtps2udq. row_len. }
row. { unfold i_vcvtps2uqq. row_len. }
row. { unfold i_vcvtqq2pd. row_len. }
row. { unfold i_vcvtqq2ph. row_len. }
row. { unfold i_vcvtqq2ps. row_len. }
row. { unfold i_vcvtsd2sh. row_len. }
row. { unfold i_vcvtsd2usi. row_len. }
row. { unfold i_vcvtsh2sd. row_len. }
row. { unfold i_vcvtsh2si. row_len. }
row. { unfold i_vcvtsh2ss. row_len. }
row. { unfold i_vcvtsh2usi. row_len. }
row. { unfold i_vcvtsi2sh. row_len. }
row. { unfold i_vcvtss2sh. row_len. }
row. { unfold i_vcvtss2usi. row_len. }
row. { unfold i_vcvttnebf162ibs. row_len. }
apply Forall_nil. Qed.
Definition lens73 : list len_entry :=
  [mkLen "vcvttnebf162iubs" (fun v => let (o, a, r, n, e, j, l, s) := v in i_vcvttnebf162iubs (r 0) (o 1));
   mkLen "vcvttpd2dqs" (fun v => let (o, a, r, n, e, j, l, s) := v in i_vcvttpd2dqs (r 0) (o 1));
   mkLen "vcvttpd2qq" (fun v => let (o, a, r, n, e, j, l, s) := v in i_vcvttpd2qq (r 0) (o 1));
   mkLen "vcvttpd2qqs" (fun v => let (o, a, r, n, e, j, l, s) := v in i_vcvttpd2qqs (r 0) (o 1));
   mkLen "vcvttpd2udq" (fun v => let (o, a, r, n, e, j, l, s) := v in i_vcvttpd2udq (r 0) (o 1));
   mkLen "vcvttpd2udqs" (fun v => let (o, a, r, n, e, j, l, s) := v in i_vcvttpd2udqs (r 0) (o 1));
   mkLen "vcvttpd2uqq" (fun v => let (o, a, r, n, e, j, l, s) := v in i_vcvttpd2uqq (r 0) (o 1));
   mkLen "vcvttpd2uqqs" (fun v => let (o, a, r, n, e, j, l, s) := v in i_vcvttpd2uqqs (r 0) (o 1));
   mkLen "vcvttph2dq" (fun v => let (o, a, r, n, e, j, l, s) := v in i_vcvttph2dq (r 0) (o 1));
   mkLen "vcvttph2ibs" (fun v => let (o, a, r, n, e, j, l, s) := v in i_vcvttph2ibs (r 0) (o 1));
   mkLen "vcvttph2iubs" (fun v => let (o, a, r, n, e, j, l, s) := v in i_vcvttph2iubs (r 0) (o 1));
   mkLen "vcvttph2qq" (fun v => let (o, a, r, n, e, j, l, s) := v in i_vcvttph2qq (r 0) (o 1));
   mkLen "vcvttph2udq" (fun v => let (o, a, r, n, e, j, l, s) := v in i_vcvttph2udq (r 0) (o 1));
   mkLen "vcvttph2uqq" (fun v => let (o, a, r, n, e, j, l, s) := v in i_vcvttph2uqq (r 0) (o 1));
   mkLen "vcvttph2uw" (fun v => let (o, a, r, n, e, j, l, s) := v in i_vcvttph2uw (r 0) (o 1));
   mkLen "vcvttph2w" (fun v => let (o, a, r, n, e, j, l, s) := v in i_vcvttph2w (r 0) (o 1));
   mkLen "vcvttps2dqs" (fun v => let (o, a, r, n, e, j, l, s) := v in i_vcvttps2dqs (r 0) (o 1));
   mkLen "vcvttps2ibs" (fun v => let (o, a, r, n, e, j, l, s) := v in i_vcvttps2ibs (r 0) (o 1));
   mkLen "vcvttps2iubs" (fun v => let (o, a, r, n, e, j, l, s) := v in i_vcvttps2iubs (r 0) (o 1));
   mkLen "vcvttps2qq" (fun v => let (o, a, r, n, e, j, l, s) := v in i_vcvttps2qq (r 0) (o 1));
   mkLen "vcvttps2qqs" (fun v => let (o, a, r, n, e, j, l, s) := v in i_vcvttps2qqs (r 0) (o 1));
   mkLen "vcvttps2udq" (fun v => let (o, a, r, n, e, j, l, s) := v in i_vcvttps2udq (r 0) (o 1));
   mkLen "vcvttps2udqs" (fun v => let (o, a, r, n, e, j, l, s) := v in i_vcvttps2udqs (r 0) (o 1));
   mkLen "vcvttps2uqq" (fun v => let (o, a, r, n, e, j, l, s) := v in i_vcvttps2uqq (r 0) (o 1));
   mkLen "vcvttps2uqqs" (fun v => let (o, a, r, n, e, j, l, s) := v in i_vcvttps2uqqs (r 0) (o 1))].
Lemma lens73_ok : Forall entry_within lens73.
Proof. unfold lens73.
row. { unfold i_vcvttnebf162iubs. row_len. }
row. { unfold i_vcvttpd2dqs. row_len. }
row. { unfold i_vcvttpd2qq. row_len. }
row. { unfold i_vcvttpd2qqs. row_len. }
row. { unfold i_vcvttpd2udq. row_len. }
row. { unfold i_vcvttpd2udqs. row_len. }
row. { unfold i_vcvttpd2uqq. row_len. }
row. { unfold i_vcvttpd2uqqs. row_len. }
row. { unfold i_vcvttph2dq. row_len. }
row. { unfold i_vcvttph2ibs. row_len. }
row. { unfold i_vcvttph2iubs. row_len. }
row. { unfold i_vcvttph2qq. row_len. }
row. { unfold i_vcvttph2udq. row_len. }
row. { unfold i_vcvttph2uqq. row_len. }
row. { unfold i_vcvttph2uw. row_len. }
row. { unfold i_vcvttph2w. row_len. }
row. { unfold i_vcvttps2dqs. row_len. }
row. { unfold i_vcvttps2ibs. row_len. }
row. { unfold i_vcvttps2iubs. row_len. }
row. { unfold i_vcvttps2qq. row_len. }
row. { unfold i_vcvttps2qqs. row_len. }
row. { unfold i_vcvttps2udq. row_len. }
row. { unfold i_vcvttps2udqs. row_len. }
row. { unfold i_vcvttps2uqq. row_len. }
row. { unfold i_vcvttps2uqqs. row_len. }
apply Forall_nil. Qed.
Definition lens74 : list len_entry :=
  [mkLen "vcvttsd2sis" (fun v => let (o, a, r, n, e, j, l, s) := v in i_vcvttsd2sis (r 0) (o 1));
   mkLen "vcvttsd2usi" (fun v => let (o, a, r, n, e, j, l, s) := v in i_vcvttsd2usi (r 0) (o 1));
   mkLen "vcvttsd2usis" (fun v => let (o, a, r, n, e, j, l, s) := v in i_vcvttsd2usis (r 0) (o 1));
   mkLen "vcvttsh2si" (fun v => let (o, a, r, n, e, j, l, s) := v in i_vcvttsh2si (r 0) (o 1));
   mkLen "vcvttsh2usi" (fun v => let (o, a, r, n, e, j, l, s) := v in i_vcvttsh2usi (r 0) (o 1));
   mkLen "vcvttss2sis" (fun v => let (o, a, r, n, e, j, l, s) := v in i_vcvttss2sis (r 0) (o 1));
   mkLen "vcvttss2usi" (fun v => let (o, a, r, n, e, j, l, s) := v in i_vcvttss2usi (r 0) (o 1));
   mkLen "vcvttss2usis" (fun v => let (o, a, r, n, e, j, l, s) := v in i_vcvttss2usis (r 0) (o 1));
   mkLen "vcvtudq2pd" (fun v => let (o, a, r, n, e, j, l, s) := v in i_vcvtudq2pd (r 0) (o 1));
   mkLen "vcvtudq2ph" (fun v => let (o, a, r, n, e, j, l, s) := v in i_vcvtudq2ph (r 0) (o 1));
   mkLen "vcvtudq2ps" (fun v => let (o, a, r, n, e, j, l, s) := v in i_vcvtudq2ps (r 0) (o 1));
   mkLen "vcvtuqq2pd" (fun v => let (o, a, r, n, e, j, l, s) := v in i_vcvtuqq2pd (r 0) (o 1));
   mkLen "vcvtuqq2ph" (fun v => let (o, a, r, n, e, j, l, s) := v in i_vcvtuqq2ph (r 0) (o 1));
   mkLen "vcvtuqq2ps" (fun v => let (o, a, r, n, e, j, l, s) := v in i_vcvtuqq2ps (r 0) (o 1));
   mkLen "vcvtusi2sd" (fun v => let (o, a, r, n, e, j, l, s) := v in i_vcvtusi2sd (r 0) (r 1) (o 2));
   mkLen "vcvtusi2sh" (fun v => let (o, a, r, n, e, j, l, s) := v in i_vcvtusi2sh (r 0) (r 1) (o 2));
   mkLen "vcvtusi2ss" (fun v => let (o, a, r, n, e, j, l, s) := v in i_vcvtusi2ss (r 0) (r 1) (o 2));
   mkLen "vcvtuw2ph" (fun v => let (o, a, r, n, e, j, l, s) := v in i_vcvtuw2ph (r 0) (o 1));
   mkLen "vcvtw2ph" (fun v => let (o, a, r, n, e, j, l, s) := v in i_vcvtw2ph (r 0) (o 1));
   mkLen "vdbpsadbw" (fun v => let (o, a, r, n, e, j, l, s) := v in i_vdbpsadbw (r 0) (r 1) (o 2) (n 3));
   mkLen "vdivnepbf16" (fun v => let (o, a, r, n, e, j, l, s) := v in i_vdivnepbf16 (r 0) (r 1) (o 2));
   mkLen "vdivph" (fun v => let (o, a, r, n, e, j, l, s) := v in i_vdivph (r 0) (o 1) (o 2));
   mkLen "vdivsh" (fun v => let (o, a, r, n, e, j, l, s) := v in i_vdivsh (r 0) (o 1) (o 2));
   mkLen "vdpbf16ps" (fun v => let (o, a, r, n, e, j, l, s) := v in i_vdpbf16ps (r 0) (r 1) (o 2));
   mkLen "vdpphps" (fun v => let (o, a, r, n, e, j, l, s) := v in i_vdpphps (r 0) (r 1) (o 2))].
Lemma lens74_ok : Forall entry_within lens74.
Proof. unfold lens74.
row. { unfold i_vcvttsd2sis. row_len. }
row. { unfold i_vcvttsd2usi. row_len. }
row. { unfold i_vcvttsd2usis. row_len. }
row. { unfold i_vcvttsh2si. row_len. }
row. { unfold i_vcvttsh2usi. row_len. }
row. { unfold i_vcvttss2sis. row_len. }
row. { unfold i_vcvttss2usi. row_len. }
row. { unfold i_vcvttss2usis. row_len. }
row. { unfold i_vcvtudq2pd. row_len. }
row. { unfold i_vcvtudq2ph. row_len. }
row. { unfold i_vcvtudq2ps. row_len. }
row. { unfold i_vcvtuqq2pd. row_len. }
row. { unfold i_vcvtuqq2ph. row_len. }
row. { unfold i_vcvtuqq2ps. row_len. }
row. { unfold i_vcvtusi2sd. row_len. }
row. { unfold i_vcvtusi2sh. row_len. }
row. { unfold i_vcvtusi2ss. row_len. }
row. { unfold i_vcvtuw2ph. row_len. }
row. { unfold i_vcvtw2ph. row_len. }
row. { unfold i_vdbpsadbw. row_len. }
row. { unfold i_vdivnepbf16. row_len. }
row. { unfold i_vdivph. row_len. }
row. { unfold i_vdivsh. row_len. }
row. { unfold i_vdpbf16ps. row_len. }
row. { unfold i_vdpphps. row_len. }
apply Forall_nil. Qed.
Definition lens75 : list len_entry :=
  [mkLen "vexp2pd" (fun v => let (o, a, r, n, e, j, l, s) := v in i_vexp2pd (r 0) (o 1));
   mkLen "vexp2ps" (fun v => let (o, a, r, n, e, j, l, s) := v in i_vexp2ps (r 0) (o 1));
   mkLen "vexpandpd" (fun v => let (o, a, r, n, e, j, l, s) := v in i_vexpandpd (r 0) (o 1));
   mkLen "vexpandps" (fun v => let (o, a, r, n, e, j, l, s) := v in i_vexpandps (r 0) (o 1));
   mkLen "vextractf32x4" (fun v => let (o, a, r, n, e, j, l, s) := v in i_vextractf32x4 (o 0) (r 1) (n 2));
   mkLen "vextractf32x8" (fun v => let (o, a, r, n, e, j, l, s) := v in i_vextractf32x8 (o 0) (r 1) (n 2));
   mkLen "vextractf64x2" (fun v => let (o, a, r, n, e, j, l, s) := v in i_vextractf64x2 (o 0) (r 1) (n 2));
   mkLen "vextractf64x4" (fun v => let (o, a, r, n, e, j, l, s) := v in i_vextractf64x4 (o 0) (r 1) (n 2));
   mkLen "vextracti32x4" (fun v => let (o, a, r, n, e, j, l, s) := v in i_vextracti32x4 (o 0) (r 1) (n 2));
   mkLen "vextracti32x8" (fun v => let (o, a, r, n, e, j, l, s) := v in i_vextracti32x8 (o 0) (r 1) (n 2));
   mkLen "vextracti64x2" (fun v => let (o, a, r, n, e, j, l, s) := v in i_vextracti64x2 (o 0) (r 1) (n 2));
   mkLen "vextracti64x4" (fun v => let (o, a, r, n, e, j, l, s) := v in i_vextracti64x4 (o 0) (r 1) (n 2));
   mkLen "vfcmaddcph" (fun v => let (o, a, r, n, e, j, l, s) := v in i_vfcmaddcph (r 0) (r 1) (o 2));
   mkLen "vfcmulcph" (fun v => let (o, a, r, n, e, j, l, s) := v in i_vfcmulcph (r 0) (r 1) (o 2));
   mkLen "vfixupimmpd" (fun v => let (o, a, r, n, e, j, l, s) := v in i_vfixupimmpd (r 0) (r 1) (o 2) (n 3));
   mkLen "vfixupimmps" (fun v => let (o, a, r, n, e, j, l, s) := v in i_vfixupimmps (r 0) (r 1) (o 2) (n 3));
   mkLen "vfixupimmsd" (fun v => let (o, a, r, n, e, j, l, s) := v in i_vfixupimmsd (r 0) (r 1) (o 2) (n 3));
   mkLen "vfixupimmss" (fun v => let (o, a, r, n, e, j, l, s) := v in i_vfixupimmss (r 0) (r 1) (o 2) (n 3));
   mkLen "vfmadd132nepbf16" (fun v => let (o, a, r, n, e, j, l, s) := v in i_vfmadd132nepbf16 (r 0) (r 1) (o 2));
   mkLen "vfmadd132ph" (fun v => let (o, a, r, n, e, j, l, s) := v in i_vfmadd132ph (r 0) (r 1) (o 2));
   mkLen "vfmadd132sh" (fun v => let (o, a, r, n, e, j, l, s) := v in i_vfmadd132sh (r 0) (r 1) (o 2));
   mkLen "vfmadd213nepbf16" (fun v => let (o, a, r, n, e, j, l, s) := v in i_vfmadd213nepbf16 (r 0) (r 1) (o 2));
   mkLen "vfmadd213ph" (fun v => let (o, a, r, n, e, j, l, s) := v in i_vfmadd213ph (r 0) (r 1) (o 2));
   mkLen "vfmadd213sh" (fun v => let (o, a, r, n, e, j, l, s) := v in i_vfmadd213sh (r 0) (r 1) (o 2));
   mkLen "vfmadd231nepbf16" (fun v => let (o, a, r, n, e, j, l, s) := v in i_vfmadd231nepbf16 (r 0) (r 1) (o 2))].
Lemma lens75_ok : Forall entry_within lens75.
Proof. unfold lens75.
row. { unfold i_vexp2pd. row_len. }
row. { unfold i_vexp2ps. row_len. }
row. { unfold i_vexpandpd. row_len. }
row. { unfold i_vexpandps. row_len. }
row. { unfold i_vextractf32x4. row_len. }
row. { unfold i_vextractf32x8. row_len. }
row. { unfold i_vextractf64x2. row_len. }
row. { unfold i_vextractf64x4. row_len. }
row. { unfold i_vextracti32x4. row_len. }
row. { unfold i_vextracti32x8. row_len. }
row. { unfold i_vextracti64x2. row_len. }
row. { unfold i_vextracti64x4. row_len. }
row. { unfold i_vfcmaddcph. row_len. }
row. { unfold i_vfcmulcph. row_len. }
row. { unfold i_vfixupimmpd. row_len. }
row. { unfold i_vfixupimmps. row_len. }
row. { unfold i_vfixupimmsd. row_len. }
row. { unfold i_vfixupimmss. row_len. }
row. { unfold i_vfmadd132nepbf16. row_len. }
row. { unfold i_vfmadd132ph. row_len. }
row. { unfold i_vfmadd132sh. row_len. }
row. { unfold i_vfmadd213nepbf16. row_len. }
row. { unfold i_vfmadd213ph. row_len. }
row. { unfold i_vfmadd213sh. row_len. }
row. { unfold i_vfmadd231nepbf16. row_len. }
apply Forall_nil. Qed.
Definition lens76 : list len_entry :=
  [mkLen "vfmadd231ph" (fun v => let (o, a, r, n, e, j, l, s) := v in i_vfmadd231ph (r 0) (r 1) (o 2));
   mkLen "vfmadd231sh" (fun v => let (o, a, r, n, e, j, l, s) := v in i_vfmadd231sh (r 0) (r 1) (o 2));
   mkLen "vfmaddcph" (fun v => let (o, a, r, n, e, j, l, s) := v in i_vfmaddcph (r 0) (r 1) (o 2));
   mkLen "vfmaddsub132ph" (fun v => let (o, a, r, n, e, j, l, s) := v in i_vfmaddsub132ph (r 0) (r 1) (o 2));
   mkLen "vfmaddsub213ph" (fun v => let (o, a, r, n, e, j, l, s) := v in i_vfmaddsub213ph (r 0) (r 1) (o 2));
   mkLen "vfmaddsub231ph" (fun v => let (o, a, r, n, e, j, l, s) := v in i_vfmaddsub231ph (r 0) (r 1) (o 2));
   mkLen "vfmsub132nepbf16" (fun v => let (o, a, r, n, e, j, l, s) := v in i_vfmsub132nepbf16 (r 0) (r 1) (o 2));
   mkLen "vfmsub132ph" (fun v => let (o, a, r, n, e, j, l, s) := v in i_vfmsub132ph (r 0) (r 1) (o 2));
   mkLen "vfmsub132sh" (fun v => let (o, a, r, n, e, j, l, s) := v in i_vfmsub132sh (r 0) (r 1) (o 2));
   mkLen "vfmsub213nepbf16" (fun v => let (o, a, r, n, e, j, l, s) := v in i_vfmsub213nepbf16 (r 0) (r 1) (o 2));
   mkLen "vfmsub213ph" (fun v => let (o, a, r, n, e, j, l, s) := v in i_vfmsub213ph (r 0) (r 1) (o 2));
   mkLen "vfmsub213sh" (fun v => let (o, a, r, n, e, j, l, s) := v in i_vfmsub213sh (r 0) (r 1) (o 2));
   mkLen "vfmsub231nepbf16" (fun v => let (o, a, r, n, e, j, l, s) := v in i_vfmsub231nepbf16 (r 0) (r 1) (o 2));
   mkLen "vfmsub231ph" (fun v => let (o, a, r, n, e, j, l, s) := v in i_vfmsub231ph (r 0) (r 1) (o 2));
   mkLen "vfmsub231sh" (fun v => let (o, a, r, n, e, j, l, s) := v in i_vfmsub231sh (r 0) (r 1) (o 2));
   mkLen "vfmsubadd132ph" (fun v => let (o, a, r, n, e, j, l, s) := v in i_vfmsubadd132ph (r 0) (r 1) (o 2));
   mkLen "vfmsubadd213ph" (fun v => let (o, a, r, n, e, j, l, s) := v in i_vfmsubadd213ph (r 0) (r 1) (o 2));
   mkLen "vfmsubadd231ph" (fun v => let (o, a, r, n, e, j, l, s) := v in i_vfmsubadd231ph (r 0) (r 1) (o 2));
   mkLen "vfmulcph" (fun v => let (o, a, r, n, e, j, l, s) := v in i_vfmulcph (r 0) (r 1) (o 2));
   mkLen "vfnmadd132nepbf16" (fun v => let (o, a, r, n, e, j, l, s) := v in i_vfnmadd132nepbf16 (r 0) (r 1) (o 2));
   mkLen "vfnmadd132ph" (fun v => let (o, a, r, n, e, j, l, s) := v in i_vfnmadd132ph (r 0) (r 1) (o 2));
   mkLen "vfnmadd132sh" (fun v => let (o, a, r, n, e, j, l, s) := v in i_vfnmadd132sh (r 0) (r 1) (o 2));
   mkLen "vfnmadd213nepbf16" (fun v => let (o, a, r, n, e, j, l, s) := v in i_vfnmadd213nepbf16 (r 0) (r 1) (o 2));
   mkLen "vfnmadd213ph" (fun v => let (o, a, r, n, e, j, l, s) := v in i_vfnmadd213ph (r 0) (r 1) (o 2));
   mkLen "vfnmadd213sh" (fun v => let (o, a, r, n, e, j, l, s) := v in i_vfnmadd213sh (r 0) (r 1) (o 2))].
Lemma lens76_ok : Forall entry_within lens76.
Proof. unfold lens76.
row. { unfold i_vfmadd231ph. row_len. }
row. { unfold i_vfmadd231sh. row_len. }
row. { unfold i_vfmaddcph. row_len. }
row. { unfold i_vfmaddsub132ph. row_len. }
row. { unfold i_vfmaddsub213ph. row_len. }
row. { unfold i_vfmaddsub231ph. row_len. }
row. { unfold i_vfmsub132nepbf16. row_len. }
row. { unfold i_vfmsub132ph. row_len. }
row. { unfold i_vfmsub132sh. row_len. }
row. { unfold i_vfmsub213nepbf16. row_len. }
row. { unfold i_vfmsub213ph. row_len. }
row. { unfold i_vfmsub213sh. row_len. }
row. { unfold i_vfmsub231nepbf16. row_len. }
row. { unfold i_vfmsub231ph. row_len. }
row. { unfold i_vfmsub231sh. row_len. }
row. { unfold i_vfmsubadd132ph. row_len. }
row. { unfold i_vfmsubadd213ph. row_len. }
row. { unfold i_vfmsubadd231ph. row_len. }
row. { unfold i_vfmulcph. row_len. }
row. { unfold i_vfnmadd132nepbf16. row_len. }
row. { unfold i_vfnmadd132ph. row_len. }
row. { unfold i_vfnmadd132sh. row_len. }
row. { unfold i_vfnmadd213nepbf16. row_len. }
row. { unfold i_vfnmadd213ph. row_len. }
row. { unfold i_vfnmadd213sh. row_len. }
apply Forall_nil. Qed.
Definition lens77 : list len_entry :=
  [mkLen "vfnmadd231nepbf16" (fun v => let (o, a, r, n, e, j, l, s) := v in i_vfnmadd231nepbf16 (r 0) (r 1) (o 2));
   mkLen "vfnmadd231ph" (fun v => let (o, a, r, n, e, j, l, s) := v in i_vfnmadd231ph (r 0) (r 1) (o 2));
   mkLen "vfnmadd231sh" (fun v => let (o, a, r, n, e, j, l, s) := v in i_vfnmadd231sh (r 0) (r 1) (o 2));
   mkLen "vfnmsub132nepbf16" (fun v => let (o, a, r, n, e, j, l, s) := v in i_vfnmsub132nepbf16 (r 0) (r 1) (o 2));
   mkLen "vfnmsub132ph" (fun v => let (o, a, r, n, e, j, l, s) := v in i_vfnmsub132ph (r 0) (r 1) (o 2));
   mkLen "vfnmsub132sh" (fun v => let (o, a, r, n, e, j, l, s) := v in i_vfnmsub132sh (r 0) (r 1) (o 2));
   mkLen "vfnmsub213nepbf16" (fun v => let (o, a, r, n, e, j, l, s) := v in i_vfnmsub213nepbf16 (r 0) (r 1) (o 2));
   mkLen "vfnmsub213ph" (fun v => let (o, a, r, n, e, j, l, s) := v in i_vfnmsub213ph (r 0) (r 1) (o 2));
   mkLen "vfnmsub213sh" (fun v => let (o, a, r, n, e, j, l, s) := v in i_vfnmsub213sh (r 0) (r 1) (o 2));
   mkLen "vfnmsub231nepbf16" (fun v => let (o, a, r, n, e, j, l, s) := v in i_vfnmsub231nepbf16 (r 0) (r 1) (o 2));
   mkLen "vfnmsub231ph" (fun v => let (o, a, r, n, e, j, l, s) := v in i_vfnmsub231ph (r 0) (r 1) (o 2));
   mkLen "vfnmsub231sh" (fun v => let (o, a, r, n, e, j, l, s) := v in i_vfnmsub231sh (r 0) (r 1) (o 2));
   mkLen "vfpclasspbf16" (fun v => let (o, a, r, n, e, j, l, s) := v in i_vfpclasspbf16 (r 0) (o 1) (n 2));
   mkLen "vfpclasspd" (fun v => let (o, a, r, n, e, j, l, s) := v in i_vfpclasspd (r 0) (o 1) (n 2));
   mkLen "vfpclassph" (fun v => let (o, a, r, n, e, j, l, s) := v in i_vfpclassph (r 0) (o 1) (n 2));
   mkLen "vfpclassps" (fun v => let (o, a, r, n, e, j, l, s) := v in i_vfpclassps (r 0) (o 1) (n 2));
   mkLen "vfpclasssd" (fun v => let (o, a, r, n, e, j, l, s) := v in i_vfpclasssd (r 0) (o 1) (n 2));
   mkLen "vfpclasssh" (fun v => let (o, a, r, n, e, j, l, s) := v in i_vfpclasssh (r 0) (o 1) (n 2));
   mkLen "vfpclassss" (fun v => let (o, a, r, n, e, j, l, s) := v in i_vfpclassss (r 0) (o 1) (n 2));
   mkLen "vgatherdpd_xa" (fun v => let (o, a, r, n, e, j, l, s) := v in i_vgatherdpd_xa (r 0) (a 1));
   mkLen "vgatherdps_xa" (fun v => let (o, a, r, n, e, j, l, s) := v in i_vgatherdps_xa (r 0) (a 1));
   mkLen "vgatherpf0dpd" (fun v => let (o, a, r, n, e, j, l, s) := v in i_vgatherpf0dpd (a 0));
   mkLen "vgatherpf0dps" (fun v => let (o, a, r, n, e, j, l, s) := v in i_vgatherpf0dps (a 0));
   mkLen "vgatherpf0qpd" (fun v => let (o, a, r, n, e, j, l, s) := v in i_vgatherpf0qpd (a 0));
   mkLen "vgatherpf0qps" (fun v => let (o, a, r, n, e, j, l, s) := v in i_vgatherpf0qps (a 0))].
Lemma lens77_ok : Forall entry_within lens77.
Proof. unfold lens77.
row. { unfold i_vfnmadd231nepbf16. row_len. }
row. { unfold i_vfnmadd231ph. row_len. }
row. { unfold i_vfnmadd231sh. row_len. }
row. { unfold i_vfnmsub132nepbf16. row_len. }
row. { unfold i_vfnmsub132ph. row_len. }
row. { unfold i_vfnmsub132sh. row_len. }
row. { unfold i_vfnmsub213nepbf16. row_len. }
row. { unfold i_vfnmsub213ph. row_len. }
row. { unfold i_vfnmsub213sh. row_len. }
row. { unfold i_vfnmsub231nepbf16. row_len. }
row. { unfold i_vfnmsub231ph. row_len. }
row. { unfold i_vfnmsub231sh. row_len. }
row. { unfold i_vfpclasspbf16. row_len. }
row. { unfold i_vfpclasspd. row_len. }
row. { unfold i_vfpclassph. row_len. }
row. { unfold i_vfpclassps. row_len. }
row. { unfold i_vfpclasssd. row_len. }
row. { unfold i_vfpclasssh. row_len. }
row. { unfold i_vfpclassss. row_len. }
row. { unfold i_vgatherdpd_xa. row_len. }
row. { unfold i_vgatherdps_xa. row_len. }
row. { unfold i_vgatherpf0dpd. row_len. }
row. { unfold i_vgatherpf0dps. row_len. }
row. { unfold i_vgatherpf0qpd. row_len. }
row. { unfold i_vgatherpf0qps. row_len. }
apply Forall_nil. Qed.
Definition lens78 : list len_entry :=
  [mkLen "vgatherpf1dpd" (fun v => let (o, a, r, n, e, j, l, s) := v in i_vgatherpf1dpd (a 0));
   mkLen "vgatherpf1dps" (fun v => let (o, a, r, n, e, j, l, s) := v in i_vgatherpf1dps (a 0));
   mkLen "vgatherpf1qpd" (fun v => let (o, a, r, n, e, j, l, s) := v in i_vgatherpf1qpd (a 0));
   mkLen "vgatherpf1qps" (fun v => let (o, a, r, n, e, j, l, s) := v in i_vgatherpf1qps (a 0));
   mkLen "vgatherqpd_xa" (fun v => let (o, a, r, n, e, j, l, s) := v in i_vgatherqpd_xa (r 0) (a 1));
   mkLen "vgatherqps_xa" (fun v => let (o, a, r, n, e, j, l, s) := v in i_vgatherqps_xa (r 0) (a 1));
   mkLen "vgetexppbf16" (fun v => let (o, a, r, n, e, j, l, s) := v in i_vgetexppbf16 (r 0) (o 1));
   mkLen "vgetexppd" (fun v => let (o, a, r, n, e, j, l, s) := v in i_vgetexppd (r 0) (o 1));
   mkLen "vgetexpph" (fun v => let (o, a, r, n, e, j, l, s) := v in i_vgetexpph (r 0) (o 1));
   mkLen "vgetexpps" (fun v => let (o, a, r, n, e, j, l, s) := v in i_vgetexpps (r 0) (o 1));
   mkLen "vgetexpsd" (fun v => let (o, a, r, n, e, j, l, s) := v in i_vgetexpsd (r 0) (r 1) (o 2));
   mkLen "vgetexpsh" (fun v => let (o, a, r, n, e, j, l, s) := v in i_vgetexpsh (r 0) (r 1) (o 2));
   mkLen "vgetexpss" (fun v => let (o, a, r, n, e, j, l, s) := v in i_vgetexpss (r 0) (r 1) (o 2));
   mkLen "vgetmantpbf16" (fun v => let (o, a, r, n, e, j, l, s) := v in i_vgetmantpbf16 (r 0) (o 1) (n 2));
   mkLen "vgetmantpd" (fun v => let (o, a, r, n, e, j, l, s) := v in i_vgetmantpd (r 0) (o 1) (n 2));
   mkLen "vgetmantph" (fun v => let (o, a, r, n, e, j, l, s) := v in i_vgetmantph (r 0) (o 1) (n 2));
   mkLen "vgetmantps" (fun v => let (o, a, r, n, e, j, l, s) := v in i_vgetmantps (r 0) (o 1) (n 2));
   mkLen "vgetmantsd" (fun v => let (o, a, r, n, e, j, l, s) := v in i_vgetmantsd (r 0) (r 1) (o 2) (n 3));
   mkLen "vgetmantsh" (fun v => let (o, a, r, n, e, j, l, s) := v in i_vgetmantsh (r 0) (r 1) (o 2) (n 3));
   mkLen "vgetmantss" (fun v => let (o, a, r, n, e, j, l, s) := v in i_vgetmantss (r 0) (r 1) (o 2) (n 3));
   mkLen "vinsertf32x4" (fun v => let (o, a, r, n, e, j, l, s) := v in i_vinsertf32x4 (r 0) (r 1) (o 2) (n 3));
   mkLen "vinsertf32x8" (fun v => let (o, a, r, n, e, j, l, s) := v in i_vinsertf32x8 (r 0) (r 1) (o 2) (n 3));
   mkLen "vinsertf64x2" (fun v => let (o, a, r, n, e, j, l, s) := v in i_vinsertf64x2 (r 0) (r 1) (o 2) (n 3));
   mkLen "vinsertf64x4" (fun v => let (o, a, r, n, e, j, l, s) := v in i_vinsertf64x4 (r 0) (r 1) (o 2) (n 3));
   mkLen "vinserti32x4" (fun v => let (o, a, r, n, e, j, l, s) := v in i_vinserti32x4 (r 0) (r 1) (o 2) (n 3))].
Lemma lens78_ok : Forall entry_within lens78.
Proof. unfold lens78.
row. { unfold i_vgatherpf1dpd. row_len. }
row. { unfold i_vgatherpf1dps. row_len. }
row. { unfold i_vgatherpf1qpd. row_len. }
row. { unfold i_vgatherpf1qps. row_len. }
row. { unfold i_vgatherqpd_xa. row_len. }
row. { unfold i_vgatherqps_xa. row_len. }
row. { unfold i_vgetexppbf16. row_len. }
row. { unfold i_vgetexppd. row_len. }
row. { unfold i_vgetexpph. row_len. }
row. { unfold i_vgetexpps. row_len. }
row. { unfold i_vgetexpsd. row_len. }
row. { unfold i_vgetexpsh. row_len. }
row. { unfold i_vgetexpss. row_len. }
row. { unfold i_vgetmantpbf16. row_len. }
row. { unfold i_vgetmantpd. row_len. }
row. { unfold i_vgetmantph. row_len. }
row. { unfold i_vgetmantps. row_len. }
row. { unfold i_vgetmantsd. row_len. }
row. { unfold i_vgetmantsh. row_len. }
row. { unfold i_vgetmantss. row_len. }
row. { unfold i_vinsertf32x4. row_len. }
row. { unfold i_vinsertf32x8. row_len. }
row. { unfold i_vinsertf64x2. row_len. }
row. { unfold i_vinsertf64x4. row_len. }
row. { unfold i_vinserti32x4. row_len. }
apply Forall_nil. Qed.
Definition lens79 : list len_entry :=
  [mkLen "vinserti32x8" (fun v => let (o, a, r, n, e, j, l, s) := v in i_vinserti32x8 (r 0) (r 1) (o 2) (n 3));
   mkLen "vinserti64x2" (fun v => let (o, a, r, n, e, j, l, s) := v in i_vinserti64x2 (r 0) (r 1) (o 2) (n 3));
   mkLen "vinserti64x4" (fun v => let (o, a, r, n, e, j, l, s) := v in i_vinserti64x4 (r 0) (r 1) (o 2) (n 3));
   mkLen "vmaxpbf16" (fun v => let (o, a, r, n, e, j, l, s) := v in i_vmaxpbf16 (r 0) (r 1) (o 2));
   mkLen "vmaxph" (fun v => let (o, a, r, n, e, j, l, s) := v in i_vmaxph (r 0) (o 1) (o 2));
   mkLen "vmaxsh" (fun v => let (o, a, r, n, e, j, l, s) := v in i_vmaxsh (r 0) (o 1) (o 2));
   mkLen "vminmaxnepbf16" (fun v => let (o, a, r, n, e, j, l, s) := v in i_vminmaxnepbf16 (r 0) (r 1) (o 2) (n 3));
   mkLen "vminmaxpd" (fun v => let (o, a, r, n, e, j, l, s) := v in i_vminmaxpd (r 0) (r 1) (o 2) (n 3));
   mkLen "vminmaxph" (fun v => let (o, a, r, n, e, j, l, s) := v in i_vminmaxph (r 0) (r 1) (o 2) (n 3));
   mkLen "vminmaxps" (fun v => let (o, a, r, n, e, j, l, s) := v in i_vminmaxps (r 0) (r 1) (o 2) (n 3));
   mkLen "vminmaxsd" (fun v => let (o, a, r, n, e, j, l, s) := v in i_vminmaxsd (r 0) (r 1) (o 2) (n 3));
   mkLen "vminmaxsh" (fun v => let (o, a, r, n, e, j, l, s) := v in i_vminmaxsh (r 0) (r 1) (o 2) (n 3));
   mkLen "vminmaxss" (fun v => let (o, a, r, n, e, j, l, s) := v in i_vminmaxss (r 0) (r 1) (o 2) (n 3));
   mkLen "vminpbf16" (fun v => let (o, a, r, n, e, j, l, s) := v in i_vminpbf16 (r 0) (r 1) (o 2));
   mkLen "vminph" (fun v => let (o, a, r, n, e, j, l, s) := v in i_vminph (r 0) (o 1) (o 2));
   mkLen "vminsh" (fun v => let (o, a, r, n, e, j, l, s) := v in i_vminsh (r 0) (o 1) (o 2));
   mkLen "vmovdqa32_ax" (fun v => let (o, a, r, n, e, j, l, s) := v in i_vmovdqa32_ax (a 0) (r 1));
   mkLen "vmovdqa32_xo" (fun v => let (o, a, r, n, e, j, l, s) := v in i_vmovdqa32_xo (r 0) (o 1));
   mkLen "vmovdqa64_ax" (fun v => let (o, a, r, n, e, j, l, s) := v in i_vmovdqa64_ax (a 0) (r 1));
   mkLen "vmovdqa64_xo" (fun v => let (o, a, r, n, e, j, l, s) := v in i_vmovdqa64_xo (r 0) (o 1));
   mkLen "vmovdqu16_ax" (fun v => let (o, a, r, n, e, j, l, s) := v in i_vmovdqu16_ax (a 0) (r 1));
   mkLen "vmovdqu16_xo" (fun v => let (o, a, r, n, e, j, l, s) := v in i_vmovdqu16_xo (r 0) (o 1));
   mkLen "vmovdqu32_ax" (fun v => let (o, a, r, n, e, j, l, s) := v in i_vmovdqu32_ax (a 0) (r 1));
   mkLen "vmovdqu32_xo" (fun v => let (o, a, r, n, e, j, l, s) := v in i_vmovdqu32_xo (r 0) (o 1));
   mkLen "vmovdqu64_ax" (fun v => let (o, a, r, n, e, j, l, s) := v in i_vmovdqu64_ax (a 0) (r 1))].
Lemma lens79_ok : Forall entry_within lens79.
Proof. unfold lens79.
row. { unfold i_vinserti32x8. row_len. }
row. { unfold i_vinserti64x2. row_len. }
row. { unfold i_vinserti64x4. row_len. }
row. { unfold i_vmaxpbf16. row_len. }
row. { unfold i_vmaxph. row_len. }
row. { unfold i_vmaxsh. row_len. }
row. { unfold i_vminmaxnepbf16. row_len. }
row. { unfold i_vminmaxpd. row_len. }
row. { unfold i_vminmaxph. row_len. }
row. { unfold i_vminmaxps. row_len. }
row. { unfold i_vminmaxsd. row_len. }
row. { unfold i_vminmaxsh. row_len. }
row. { unfold i_vminmaxss. row_len. }
row. { unfold i_vminpbf16. row_len. }
row. { unfold i_vminph. row_len. }
row. { unfold i_vminsh. row_len. }
row. { unfold i_vmovdqa32_ax. row_len. }
row. { unfold i_vmovdqa32_xo. row_len. }
row. { unfold i_vmovdqa64_ax. row_len. }
row. { unfold i_vmovdqa64_xo. row_len. }
row. { unfold i_vmovdqu16_ax. row_len. }
row. { unfold i_vmovdqu16_xo. row_len. }
row. { unfold i_vmovdqu32_ax. row_len. }
row. { unfold i_vmovdqu32_xo. row_len. }
row. { unfold i_vmovdqu64_ax. row_len. }
apply Forall_nil. Qed.
Definition lens80 : list len_entry :=
  [mkLen "vmovdqu64_xo" (fun v => let (o, a, r, n, e, j, l, s) := v in i_vmovdqu64_xo (r 0) (o 1));
   mkLen "vmovdqu8_ax" (fun v => let (o, a, r, n, e, j, l, s) := v in i_vmovdqu8_ax (a 0) (r 1));
   mkLen "vmovdqu8_xo" (fun v => let (o, a, r, n, e, j, l, s) := v in i_vmovdqu8_xo (r 0) (o 1));
   mkLen "vmovsh_ax" (fun v => let (o, a, r, n, e, j, l, s) := v in i_vmovsh_ax (a 0) (r 1));
   mkLen "vmovsh_xa" (fun v => let (o, a, r, n, e, j, l, s) := v in i_vmovsh_xa (r 0) (a 1));
   mkLen "vmovsh_xxx" (fun v => let (o, a, r, n, e, j, l, s) := v in i_vmovsh_xxx (r 0) (r 1) (r 2));
   mkLen "vmulnepbf16" (fun v => let (o, a, r, n, e, j, l, s) := v in i_vmulnepbf16 (r 0) (r 1) (o 2));
   mkLen "vmulph" (fun v => let (o, a, r, n, e, j, l, s) := v in i_vmulph (r 0) (o 1) (o 2));
   mkLen "vmulsh" (fun v => let (o, a, r, n, e, j, l, s) := v in i_vmulsh (r 0) (o 1) (o 2));
   mkLen "vp2intersectd" (fun v => let (o, a, r, n, e, j, l, s) := v in i_vp2intersectd (r 0) (r 1) (o 2));
   mkLen "vp2intersectq" (fun v => let (o, a, r, n, e, j, l, s) := v in i_vp2intersectq (r 0) (r 1) (o 2));
   mkLen "vp4dpwssd" (fun v => let (o, a, r, n, e, j, l, s) := v in i_vp4dpwssd (r 0) (r 1) (a 2));
   mkLen "vp4dpwssds" (fun v => let (o, a, r, n, e, j, l, s) := v in i_vp4dpwssds (r 0) (r 1) (a 2));
   mkLen "vpabsq" (fun v => let (o, a, r, n, e, j, l, s) := v in i_vpabsq (r 0) (o 1));
   mkLen "vpandd" (fun v => let (o, a, r, n, e, j, l, s) := v in i_vpandd (r 0) (r 1) (o 2));
   mkLen "vpandnd" (fun v => let (o, a, r, n, e, j, l, s) := v in i_vpandnd (r 0) (r 1) (o 2));
   mkLen "vpandnq" (fun v => let (o, a, r, n, e, j, l, s) := v in i_vpandnq (r 0) (r 1) (o 2));
   mkLen "vpandq" (fun v => let (o, a, r, n, e, j, l, s) := v in i_vpandq (r 0) (r 1) (o 2));
   mkLen "vpblendmb" (fun v => let (o, a, r, n, e, j, l, s) := v in i_vpblendmb (r 0) (r 1) (o 2));
   mkLen "vpblendmd" (fun v => let (o, a, r, n, e, j, l, s) := v in i_vpblendmd (r 0) (r 1) (o 2));
   mkLen "vpblendmq" (fun v => let (o, a, r, n, e, j, l, s) := v in i_vpblendmq (r 0) (r 1) (o 2));
   mkLen "vpblendmw" (fun v => let (o, a, r, n, e, j, l, s) := v in i_vpblendmw (r 0) (r 1) (o 2));
   mkLen "vpbroadcastb_xb" (fun v => let (o, a, r, n, e, j, l, s) := v in i_vpbroadcastb_xb (r 0) (r 1));
   mkLen "vpbroadcastd_xd" (fun v => let (o, a, r, n, e, j, l, s) := v in i_vpbroadcastd_xd (r 0) (r 1));
   mkLen "vpbroadcastmb2q" (fun v => let (o, a, r, n, e, j, l, s) := v in i_vpbroadcastmb2q (r 0) (r 1))].
Lemma lens80_ok : Forall entry_within lens80.
Proof. unfold lens80.
row. { unfold i_vmovdqu64_xo. row_len. }
row. { unfold i_vmovdqu8_ax. row_len. }
row. { unfold i_vmovdqu8_xo. row_len. }
row. { unfold i_vmovsh_ax. row_len. }
row. { unfold i_vmovsh_xa. row_len. }
row. { unfold i_vmovsh_xxx. row_len. }
row. { unfold i_vmulnepbf16. row_len. }
row. { unfold i_vmulph. row_len. }
row. { unfold i_vmulsh. row_len. }
row. { unfold i_vp2intersectd. row_len. }
row. { unfold i_vp2intersectq. row_len. }
row. { unfold i_vp4dpwssd. row_len. }
row. { unfold i_vp4dpwssds. row_len. }
row. { unfold i_vpabsq. row_len. }
row. { unfold i_vpandd. row_len. }
row. { unfold i_vpandnd. row_len. }
row. { unfold i_vpandnq. row_len. }
row. { unfold i_vpandq. row_len. }
row. { unfold i_vpblendmb. row_len. }
row. { unfold i_vpblendmd. row_len. }
row. { unfold i_vpblendmq. row_len. }
row. { unfold i_vpblendmw. row_len. }
row. { unfold i_vpbroadcastb_xb. row_len. }
row. { unfold i_vpbroadcastd_xd. row_len. }
row. { unfold i_vpbroadcastmb2q. row_len. }
apply Forall_nil. Qed.
Definition lens81 : list len_entry :=
  [mkLen "vpbroadcastmw2d" (fun v => let (o, a, r, n, e, j, l, s) := v in i_vpbroadcastmw2d (r 0) (r 1));
   mkLen "vpbroadcastw_xw" (fun v => let (o, a, r, n, e, j, l, s) := v in i_vpbroadcastw_xw (r 0) (r 1));
   mkLen "vpcmpb" (fun v => let (o, a, r, n, e, j, l, s) := v in i_vpcmpb (r 0) (r 1) (o 2) (n 3));
   mkLen "vpcmpd" (fun v => let (o, a, r, n, e, j, l, s) := v in i_vpcmpd (r 0) (r 1) (o 2) (n 3));
   mkLen "vpcmpeqb_kxo" (fun v => let (o, a, r, n, e, j, l, s) := v in i_vpcmpeqb_kxo (r 0) (r 1) (o 2));
   mkLen "vpcmpeqd_kxo" (fun v => let (o, a, r, n, e, j, l, s) := v in i_vpcmpeqd_kxo (r 0) (r 1) (o 2));
   mkLen "vpcmpeqq_kxo" (fun v => let (o, a, r, n, e, j, l, s) := v in i_vpcmpeqq_kxo (r 0) (r 1) (o 2));
   mkLen "vpcmpeqw_kxo" (fun v => let (o, a, r, n, e, j, l, s) := v in i_vpcmpeqw_kxo (r 0) (r 1) (o 2));
   mkLen "vpcmpgtb_kxo" (fun v => let (o, a, r, n, e, j, l, s) := v in i_vpcmpgtb_kxo (r 0) (r 1) (o 2));
   mkLen "vpcmpgtd_kxo" (fun v => let (o, a, r, n, e, j, l, s) := v in i_vpcmpgtd_kxo (r 0) (r 1) (o 2));
   mkLen "vpcmpgtq_kxo" (fun v => let (o, a, r, n, e, j, l, s) := v in i_vpcmpgtq_kxo (r 0) (r 1) (o 2));
   mkLen "vpcmpgtw_kxo" (fun v => let (o, a, r, n, e, j, l, s) := v in i_vpcmpgtw_kxo (r 0) (r 1) (o 2));
   mkLen "vpcmpq" (fun v => let (o, a, r, n, e, j, l, s) := v in i_vpcmpq (r 0) (r 1) (o 2) (n 3));
   mkLen "vpcmpub" (fun v => let (o, a, r, n, e, j, l, s) := v in i_vpcmpub (r 0) (r 1) (o 2) (n 3));
   mkLen "vpcmpud" (fun v => let (o, a, r, n, e, j, l, s) := v in i_vpcmpud (r 0) (r 1) (o 2) (n 3));
   mkLen "vpcmpuq" (fun v => let (o, a, r, n, e, j, l, s) := v in i_vpcmpuq (r 0) (r 1) (o 2) (n 3));
   mkLen "vpcmpuw" (fun v => let (o, a, r, n, e, j, l, s) := v in i_vpcmpuw (r 0) (r 1) (o 2) (n 3));
   mkLen "vpcmpw" (fun v => let (o, a, r, n, e, j, l, s) := v in i_vpcmpw (r 0) (r 1) (o 2) (n 3));
   mkLen "vpcompressb" (fun v => let (o, a, r, n, e, j, l, s) := v in i_vpcompressb (o 0) (r 1));
   mkLen "vpcompressd" (fun v => let (o, a, r, n, e, j, l, s) := v in i_vpcompressd (o 0) (r 1));
   mkLen "vpcompressq" (fun v => let (o, a, r, n, e, j, l, s) := v in i_vpcompressq (o 0) (r 1));
   mkLen "vpcompressw" (fun v => let (o, a, r, n, e, j, l, s) := v in i_vpcompressw (o 0) (r 1));
   mkLen "vpconflictd" (fun v => let (o, a, r, n, e, j, l, s) := v in i_vpconflictd (r 0) (o 1));
   mkLen "vpconflictq" (fun v => let (o, a, r, n, e, j, l, s) := v in i_vpconflictq (r 0) (o 1));
   mkLen "vpdpbssd" (fun v => let (o, a, r, n, e, j, l, s) := v in i_vpdpbssd (r 0) (r 1) (o 2) e)].
Lemma lens81_ok : Forall entry_within lens81.
Proof. unfold lens81.
row. { unfold i_vpbroadcastmw2d. row_len. }
row. { unfold i_vpbroadcastw_xw. row_len. }
row. { unfold i_vpcmpb. row_len. }
row. { unfold i_vpcmpd. row_len. }
row. { unfold i_vpcmpeqb_kxo. row_len. }
row. { unfold i_vpcmpeqd_kxo. row_len. }
row. { unfold i_vpcmpeqq_kxo. row_len. }
row. { unfold i_vpcmpeqw_kxo. row_len. }
row. { unfold i_vpcmpgtb_kxo. row_len. }
row. { unfold i_vpcmpgtd_kxo. row_len. }
row. { unfold i_vpcmpgtq_kxo. row_len. }
row. { unfold i_vpcmpgtw_kxo. row_len. }
row. { unfold i_vpcmpq. row_len. }
row. { unfold i_vpcmpub. row_len. }
row. { unfold i_vpcmpud. row_len. }
row. { unfold i_vpcmpuq. row_len. }
row. { unfold i_vpcmpuw. row_len. }
row. { unfold i_vpcmpw. row_len. }
row. { unfold i_vpcompressb. row_len. }
row. { unfold i_vpcompressd. row_len. }
row. { unfold i_vpcompressq. row_len. }
row. { unfold i_vpcompressw. row_len. }
row. { unfold i_vpconflictd. row_len. }
row. { unfold i_vpconflictq. row_len. }
row. { unfold i_vpdpbssd. row_len. }
apply Forall_nil. Qed.
Definition lens82 : list len_entry :=
  [mkLen "vpdpbssds" (fun v => let (o, a, r, n, e, j, l, s) := v in i_vpdpbssds (r 0) (r 1) (o 2) e);
   mkLen "vpdpbsud" (fun v => let (o, a, r, n, e, j, l, s) := v in i_vpdpbsud (r 0) (r 1) (o 2) e);
   mkLen "vpdpbsuds" (fun v => let (o, a, r, n, e, j, l, s) := v in i_vpdpbsuds (r 0) (r 1) (o 2) e);
   mkLen "vpdpbuud" (fun v => let (o, a, r, n, e, j, l, s) := v in i_vpdpbuud (r 0) (r 1) (o 2) e);
   mkLen "vpdpbuuds" (fun v => let (o, a, r, n, e, j, l, s) := v in i_vpdpbuuds (r 0) (r 1) (o 2) e);
   mkLen "vpdpwsud" (fun v => let (o, a, r, n, e, j, l, s) := v in i_vpdpwsud (r 0) (r 1) (o 2) e);
   mkLen "vpdpwsuds" (fun v => let (o, a, r, n, e, j, l, s) := v in i_vpdpwsuds (r 0) (r 1) (o 2) e);
   mkLen "vpdpwusd" (fun v => let (o, a, r, n, e, j, l, s) := v in i_vpdpwusd (r 0) (r 1) (o 2) e);
   mkLen "vpdpwusds" (fun v => let (o, a, r, n, e, j, l, s) := v in i_vpdpwusds (r 0) (r 1) (o 2) e);
   mkLen "vpdpwuud" (fun v => let (o, a, r, n, e, j, l, s) := v in i_vpdpwuud (r 0) (r 1) (o 2) e);
   mkLen "vpdpwuuds" (fun v => let (o, a, r, n, e, j, l, s) := v in i_vpdpwuuds (r 0) (r 1) (o 2) e);
   mkLen "vpermb" (fun v => let (o, a, r, n, e, j, l, s) := v in i_vpermb (r 0) (r 1) (o 2));
   mkLen "vpermi2b" (fun v => let (o, a, r, n, e, j, l, s) := v in i_vpermi2b (r 0) (r 1) (o 2));
   mkLen "vpermi2d" (fun v => let (o, a, r, n, e, j, l, s) := v in i_vpermi2d (r 0) (r 1) (o 2));
   mkLen "vpermi2pd" (fun v => let (o, a, r, n, e, j, l, s) := v in i_vpermi2pd (r 0) (r 1) (o 2));
   mkLen "vpermi2ps" (fun v => let (o, a, r, n, e, j, l, s) := v in i_vpermi2ps (r 0) (r 1) (o 2));
   mkLen "vpermi2q" (fun v => let (o, a, r, n, e, j, l, s) := v in i_vpermi2q (r 0) (r 1) (o 2));
   mkLen "vpermi2w" (fun v => let (o, a, r, n, e, j, l, s) := v in i_vpermi2w (r 0) (r 1) (o 2));
   mkLen "vpermt2b" (fun v => let (o, a, r, n, e, j, l, s) := v in i_vpermt2b (r 0) (r 1) (o 2));
   mkLen "vpermt2d" (fun v => let (o, a, r, n, e, j, l, s) := v in i_vpermt2d (r 0) (r 1) (o 2));
   mkLen "vpermt2pd" (fun v => let (o, a, r, n, e, j, l, s) := v in i_vpermt2pd (r 0) (r 1) (o 2));
   mkLen "vpermt2ps" (fun v => let (o, a, r, n, e, j, l, s) := v in i_vpermt2ps (r 0) (r 1) (o 2));
   mkLen "vpermt2q" (fun v => let (o, a, r, n, e, j, l, s) := v in i_vpermt2q (r 0) (r 1) (o 2));
   mkLen "vpermt2w" (fun v => let (o, a, r, n, e, j, l, s) := v in i_vpermt2w (r 0) (r 1) (o 2));
   mkLen "vpermw" (fun v => let (o, a, r, n, e, j, l, s) := v in i_vpermw (r 0) (r 1) (o 2))].
Lemma lens82_ok : Forall entry_within lens82.
Proof. unfold lens82.
row. { unfold i_vpdpbssds. row_len. }
row. { unfold i_vpdpbsud. row_len. }
row. { unfold i_vpdpbsuds. row_len. }
row. { unfold i_vpdpbuud. row_len. }
row. { unfold i_vpdpbuuds. row_len. }
row. { unfold i_vpdpwsud. row_len. }
row. { unfold i_vpdpwsuds. row_len. }
row. { unfold i_vpdpwusd. row_len. }
row. { unfold i_vpdpwusds. row_len. }
row. { unfold i_vpdpwuud. row_len. }
row. { unfold i_vpdpwuuds. row_len. }
row. { unfold i_vpermb. row_len. }
row. { unfold i_vpermi2b. row_len. }
row. { unfold i_vpermi2d. row_len. }
row. { unfold i_vpermi2pd. row_len. }
row. { unfold i_vpermi2ps. row_len. }
row. { unfold i_vpermi2q. row_len. }
row. { unfold i_vpermi2w. row_len. }
row. { unfold i_vpermt2b. row_len. }
row. { unfold i_vpermt2d. row_len. }
row. { unfold i_vpermt2pd. row_len. }
row. { unfold i_vpermt2ps. row_len. }
row. { unfold i_vpermt2q. row_len. }
row. { unfold i_vpermt2w. row_len. }
row. { unfold i_vpermw. row_len. }
apply Forall_nil. Qed.
Definition lens83 : list len_entry :=
  [mkLen "vpexpandb" (fun v => let (o, a, r, n, e, j, l, s) := v in i_vpexpandb (r 0) (o 1));
   mkLen "vpexpandd" (fun v => let (o, a, r, n, e, j, l, s) := v in i_vpexpandd (r 0) (o 1));
   mkLen "vpexpandq" (fun v => let (o, a, r, n, e, j, l, s) := v in i_vpexpandq (r 0) (o 1));
   mkLen "vpexpandw" (fun v => let (o, a, r, n, e, j, l, s) := v in i_vpexpandw (r 0) (o 1));
   mkLen "vpgatherdd_xa" (fun v => let (o, a, r, n, e, j, l, s) := v in i_vpgatherdd_xa (r 0) (a 1));
   mkLen "vpgatherdq_xa" (fun v => let (o, a, r, n, e, j, l, s) := v in i_vpgatherdq_xa (r 0) (a 1));
   mkLen "vpgatherqd_xa" (fun v => let (o, a, r, n, e, j, l, s) := v in i_vpgatherqd_xa (r 0) (a 1));
   mkLen "vpgatherqq_xa" (fun v => let (o, a, r, n, e, j, l, s) := v in i_vpgatherqq_xa (r 0) (a 1));
   mkLen "vplzcntd" (fun v => let (o, a, r, n, e, j, l, s) := v in i_vplzcntd (r 0) (o 1));
   mkLen "vplzcntq" (fun v => let (o, a, r, n, e, j, l, s) := v in i_vplzcntq (r 0) (o 1));
   mkLen "vpmadd52huq" (fun v => let (o, a, r, n, e, j, l, s) := v in i_vpmadd52huq (r 0) (r 1) (o 2));
   mkLen "vpmadd52luq" (fun v => let (o, a, r, n, e, j, l, s) := v in i_vpmadd52luq (r 0) (r 1) (o 2));
   mkLen "vpmaxsq" (fun v => let (o, a, r, n, e, j, l, s) := v in i_vpmaxsq (r 0) (r 1) (o 2));
   mkLen "vpmaxuq" (fun v => let (o, a, r, n, e, j, l, s) := v in i_vpmaxuq (r 0) (r 1) (o 2));
   mkLen "vpminsq" (fun v => let (o, a, r, n, e, j, l, s) := v in i_vpminsq (r 0) (r 1) (o 2));
   mkLen "vpminuq" (fun v => let (o, a, r, n, e, j, l, s) := v in i_vpminuq (r 0) (r 1) (o 2));
   mkLen "vpmovb2m" (fun v => let (o, a, r, n, e, j, l, s) := v in i_vpmovb2m (r 0) (r 1));
   mkLen "vpmovd2m" (fun v => let (o, a, r, n, e, j, l, s) := v in i_vpmovd2m (r 0) (r 1));
   mkLen "vpmovdb" (fun v => let (o, a, r, n, e, j, l, s) := v in i_vpmovdb (o 0) (r 1));
   mkLen "vpmovdw" (fun v => let (o, a, r, n, e, j, l, s) := v in i_vpmovdw (o 0) (r 1));
   mkLen "vpmovm2b" (fun v => let (o, a, r, n, e, j, l, s) := v in i_vpmovm2b (r 0) (r 1));
   mkLen "vpmovm2d" (fun v => let (o, a, r, n, e, j, l, s) := v in i_vpmovm2d (r 0) (r 1));
   mkLen "vpmovm2q" (fun v => let (o, a, r, n, e, j, l, s) := v in i_vpmovm2q (r 0) (r 1));
   mkLen "vpmovm2w" (fun v => let (o, a, r, n, e, j, l, s) := v in i_vpmovm2w (r 0) (r 1));
   mkLen "vpmovq2m" (fun v => let (o, a, r, n, e, j, l, s) := v in i_vpmovq2m (r 0) (r 1))].
Lemma lens83_ok : Forall entry_within lens83.
Proof. unfold lens83.
row. { unfold i_vpexpandb. row_len. }
row. { unfold i_vpexpandd. row_len. }
row. { unfold i_vpexpandq. row_len. }
row. { unfold i_vpexpandw. row_len. }
row. { unfold i_vpgatherdd_xa. row_len. }
row. { unfold i_vpgatherdq_xa. row_len. }
row. { unfold i_vpgatherqd_xa. row_len. }
row. { unfold i_vpgatherqq_xa. row_len. }
row. { unfold i_vplzcntd. row_len. }
row. { unfold i_vplzcntq. row_len. }
row. { unfold i_vpmadd52huq. row_len. }
row. { unfold i_vpmadd52luq. row_len. }
row. { unfold i_vpmaxsq. row_len. }
row. { unfold i_vpmaxuq. row_len. }
row. { unfold i_vpminsq. row_len. }
row. { unfold i_vpminuq. row_len. }
row. { unfold i_vpmovb2m. row_len. }
row. { unfold i_vpmovd2m. row_len. }
row. { unfold i_vpmovdb. row_len. }
row. { unfold i_vpmovdw. row_len. }
row. { unfold i_vpmovm2b. row_len. }
row. { unfold i_vpmovm2d. row_len. }
row. { unfold i_vpmovm2q. row_len. }
row. { unfold i_vpmovm2w. row_len. }
row. { unfold i_vpmovq2m. row_len. }
apply Forall_nil. Qed.
Definition lens84 : list len_entry :=
  [mkLen "vpmovqb" (fun v => let (o, a, r, n, e, j, l, s) := v in i_vpmovqb (o 0) (r 1));
   mkLen "vpmovqd" (fun v => let (o, a, r, n, e, j, l, s) := v in i_vpmovqd (o 0) (r 1));
   mkLen "vpmovqw" (fun v => let (o, a, r, n, e, j, l, s) := v in i_vpmovqw (o 0) (r 1));
   mkLen "vpmovsdb" (fun v => let (o, a, r, n, e, j, l, s) := v in i_vpmovsdb (o 0) (r 1));
   mkLen "vpmovsdw" (fun v => let (o, a, r, n, e, j, l, s) := v in i_vpmovsdw (o 0) (r 1));
   mkLen "vpmovsqb" (fun v => let (o, a, r, n, e, j, l, s) := v in i_vpmovsqb (o 0) (r 1));
   mkLen "vpmovsqd" (fun v => let (o, a, r, n, e, j, l, s) := v in i_vpmovsqd (o 0) (r 1));
   mkLen "vpmovsqw" (fun v => let (o, a, r, n, e, j, l, s) := v in i_vpmovsqw (o 0) (r 1));
   mkLen "vpmovswb" (fun v => let (o, a, r, n, e, j, l, s) := v in i_vpmovswb (o 0) (r 1));
   mkLen "vpmovusdb" (fun v => let (o, a, r, n, e, j, l, s) := v in i_vpmovusdb (o 0) (r 1));
   mkLen "vpmovusdw" (fun v => let (o, a, r, n, e, j, l, s) := v in i_vpmovusdw (o 0) (r 1));
   mkLen "vpmovusqb" (fun v => let (o, a, r, n, e, j, l, s) := v in i_vpmovusqb (o 0) (r 1));
   mkLen "vpmovusqd" (fun v => let (o, a, r, n, e, j, l, s) := v in i_vpmovusqd (o 0) (r 1));
   mkLen "vpmovusqw" (fun v => let (o, a, r, n, e, j, l, s) := v in i_vpmovusqw (o 0) (r 1));
   mkLen "vpmovuswb" (fun v => let (o, a, r, n, e, j, l, s) := v in i_vpmovuswb (o 0) (r 1));
   mkLen "vpmovw2m" (fun v => let (o, a, r, n, e, j, l, s) := v in i_vpmovw2m (r 0) (r 1));
   mkLen "vpmovwb" (fun v => let (o, a, r, n, e, j, l, s) := v in i_vpmovwb (o 0) (r 1));
   mkLen "vpmullq" (fun v => let (o, a, r, n, e, j, l, s) := v in i_vpmullq (r 0) (r 1) (o 2));
   mkLen "vpmultishiftqb" (fun v => let (o, a, r, n, e, j, l, s) := v in i_vpmultishiftqb (r 0) (r 1) (o 2));
   mkLen "vpopcntb" (fun v => let (o, a, r, n, e, j, l, s) := v in i_vpopcntb (r 0) (o 1));
   mkLen "vpopcntd" (fun v => let (o, a, r, n, e, j, l, s) := v in i_vpopcntd (r 0) (o 1));
   mkLen "vpopcntq" (fun v => let (o, a, r, n, e, j, l, s) := v in i_vpopcntq (r 0) (o 1));
   mkLen "vpopcntw" (fun v => let (o, a, r, n, e, j, l, s) := v in i_vpopcntw (r 0) (o 1));
   mkLen "vpord" (fun v => let (o, a, r, n, e, j, l, s) := v in i_vpord (r 0) (r 1) (o 2));
   mkLen "vporq" (fun v => let (o, a, r, n, e, j, l, s) := v in i_vporq (r 0) (r 1) (o 2))].
Lemma lens84_ok : Forall entry_within lens84.
Proof. unfold lens84.
row. { unfold i_vpmovqb. row_len. }
row. { unfold i_vpmovqd. row_len. }
row. { unfold i_vpmovqw. row_len. }
row. { unfold i_vpmovsdb. row_len. }
row. { unfold i_vpmovsdw. row_len. }
row. { unfold i_vpmovsqb. row_len. }
row. { unfold i_vpmovsqd. row_len. }
row. { unfold i_vpmovsqw. row_len. }
row. { unfold i_vpmovswb. row_len. }
row. { unfold i_vpmovusdb. row_len. }
row. { unfold i_vpmovusdw. row_len. }
row. { unfold i_vpmovusqb. row_len. }
row. { unfold i_vpmovusqd. row_len. }
row. { unfold i_vpmovusqw. row_len. }
row. { unfold i_vpmovuswb. row_len. }
row. { unfold i_vpmovw2m. row_len. }
row. { unfold i_vpmovwb. row_len. }
row. { unfold i_vpmullq. row_len. }
row. { unfold i_vpmultishiftqb. row_len. }
row. { unfold i_vpopcntb. row_len. }
row. { unfold i_vpopcntd. row_len. }
row. { unfold i_vpopcntq. row_len. }
row. { unfold i_vpopcntw. row_len. }
row. { unfold i_vpord. row_len. }
row. { unfold i_vporq. row_len. }
apply Forall_nil. Qed.
Definition lens85 : list len_entry :=
  [mkLen "vprold" (fun v => let (o, a, r, n, e, j, l, s) := v in i_vprold (r 0) (o 1) (n 2));
   mkLen "vprolq" (fun v => let (o, a, r, n, e, j, l, s) := v in i_vprolq (r 0) (o 1) (n 2));
   mkLen "vprolvd" (fun v => let (o, a, r, n, e, j, l, s) := v in i_vprolvd (r 0) (r 1) (o 2));
   mkLen "vprolvq" (fun v => let (o, a, r, n, e, j, l, s) := v in i_vprolvq (r 0) (r 1) (o 2));
   mkLen "vprord" (fun v => let (o, a, r, n, e, j, l, s) := v in i_vprord (r 0) (o 1) (n 2));
   mkLen "vprorq" (fun v => let (o, a, r, n, e, j, l, s) := v in i_vprorq (r 0) (o 1) (n 2));
   mkLen "vprorvd" (fun v => let (o, a, r, n, e, j, l, s) := v in i_vprorvd (r 0) (r 1) (o 2));
   mkLen "vprorvq" (fun v => let (o, a, r, n, e, j, l, s) := v in i_vprorvq (r 0) (r 1) (o 2));
   mkLen "vpscatterdd" (fun v => let (o, a, r, n, e, j, l, s) := v in i_vpscatterdd (a 0) (r 1));
   mkLen "vpscatterdq" (fun v => let (o, a, r, n, e, j, l, s) := v in i_vpscatterdq (a 0) (r 1));
   mkLen "vpscatterqd" (fun v => let (o, a, r, n, e, j, l, s) := v in i_vpscatterqd (a 0) (r 1));
   mkLen "vpscatterqq" (fun v => let (o, a, r, n, e, j, l, s) := v in i_vpscatterqq (a 0) (r 1));
   mkLen "vpshldd" (fun v => let (o, a, r, n, e, j, l, s) := v in i_vpshldd (r 0) (r 1) (o 2) (n 3));
   mkLen "vpshldq" (fun v => let (o, a, r, n, e, j, l, s) := v in i_vpshldq (r 0) (r 1) (o 2) (n 3));
   mkLen "vpshldvd" (fun v => let (o, a, r, n, e, j, l, s) := v in i_vpshldvd (r 0) (r 1) (o 2));
   mkLen "vpshldvq" (fun v => let (o, a, r, n, e, j, l, s) := v in i_vpshldvq (r 0) (r 1) (o 2));
   mkLen "vpshldvw" (fun v => let (o, a, r, n, e, j, l, s) := v in i_vpshldvw (r 0) (r 1) (o 2));
   mkLen "vpshldw" (fun v => let (o, a, r, n, e, j, l, s) := v in i_vpshldw (r 0) (r 1) (o 2) (n 3));
   mkLen "vpshrdd" (fun v => let (o, a, r, n, e, j, l, s) := v in i_vpshrdd (r 0) (r 1) (o 2) (n 3));
   mkLen "vpshrdq" (fun v => let (o, a, r, n, e, j, l, s) := v in i_vpshrdq (r 0) (r 1) (o 2) (n 3));
   mkLen "vpshrdvd" (fun v => let (o, a, r, n, e, j, l, s) := v in i_vpshrdvd (r 0) (r 1) (o 2));
   mkLen "vpshrdvq" (fun v => let (o, a, r, n, e, j, l, s) := v in i_vpshrdvq (r 0) (r 1) (o 2));
   mkLen "vpshrdvw" (fun v => let (o, a, r, n, e, j, l, s) := v in i_vpshrdvw (r 0) (r 1) (o 2));
   mkLen "vpshrdw" (fun v => let (o, a, r, n, e, j, l, s) := v in i_vpshrdw (r 0) (r 1) (o 2) (n 3));
   mkLen "vpshufbitqmb" (fun v => let (o, a, r, n, e, j, l, s) := v in i_vpshufbitqmb (r 0) (r 1) (o 2))].
Lemma lens85_ok : Forall entry_within lens85.
Proof. unfold lens85.
row. { unfold i_vprold. row_len. }
row. { unfold i_vprolq. row_len. }
row. { unfold i_vprolvd. row_len. }
row. { unfold i_vprolvq. row_len. }
row. { unfold i_vprord. row_len. }
row. { unfold i_vprorq. row_len. }
row. { unfold i_vprorvd. row_len. }
row. { unfold i_vprorvq. row_len. }
row. { unfold i_vpscatterdd. row_len. }
row. { unfold i_vpscatterdq. row_len. }
row. { unfold i_vpscatterqd. row_len. }
row. { unfold i_vpscatterqq. row_len. }
row. { unfold i_vpshldd. row_len. }
row. { unfold i_vpshldq. row_len. }
row. { unfold i_vpshldvd. row_len. }
row. { unfold i_vpshldvq. row_len. }
row. { unfold i_vpshldvw. row_len. }
row. { unfold i_vpshldw. row_len. }
row. { unfold i_vpshrdd. row_len. }
row. { unfold i_vpshrdq. row_len. }
row. { unfold i_vpshrdvd. row_len. }
row. { unfold i_vpshrdvq. row_len. }
row. { unfold i_vpshrdvw. row_len. }
row. { unfold i_vpshrdw. row_len. }
row. { unfold i_vpshufbitqmb. row_len. }
apply Forall_nil. Qed.
Definition lens86 : list len_entry :=
  [mkLen "vpsllvw" (fun v => let (o, a, r, n, e, j, l, s) := v in i_vpsllvw (r 0) (r 1) (o 2));
   mkLen "vpsraq_xoi" (fun v => let (o, a, r, n, e, j, l, s) := v in i_vpsraq_xoi (r 0) (o 1) (n 2));
   mkLen "vpsraq_xxo" (fun v => let (o, a, r, n, e, j, l, s) := v in i_vpsraq_xxo (r 0) (r 1) (o 2));
   mkLen "vpsravq" (fun v => let (o, a, r, n, e, j, l, s) := v in i_vpsravq (r 0) (r 1) (o 2));
   mkLen "vpsravw" (fun v => let (o, a, r, n, e, j, l, s) := v in i_vpsravw (r 0) (r 1) (o 2));
   mkLen "vpsrlvw" (fun v => let (o, a, r, n, e, j, l, s) := v in i_vpsrlvw (r 0) (r 1) (o 2));
   mkLen "vpternlogd" (fun v => let (o, a, r, n, e, j, l, s) := v in i_vpternlogd (r 0) (r 1) (o 2) (n 3));
   mkLen "vpternlogq" (fun v => let (o, a, r, n, e, j, l, s) := v in i_vpternlogq (r 0) (r 1) (o 2) (n 3));
   mkLen "vptestmb" (fun v => let (o, a, r, n, e, j, l, s) := v in i_vptestmb (r 0) (r 1) (o 2));
   mkLen "vptestmd" (fun v => let (o, a, r, n, e, j, l, s) := v in i_vptestmd (r 0) (r 1) (o 2));
   mkLen "vptestmq" (fun v => let (o, a, r, n, e, j, l, s) := v in i_vptestmq (r 0) (r 1) (o 2));
   mkLen "vptestmw" (fun v => let (o, a, r, n, e, j, l, s) := v in i_vptestmw (r 0) (r 1) (o 2));
   mkLen "vptestnmb" (fun v => let (o, a, r, n, e, j, l, s) := v in i_vptestnmb (r 0) (r 1) (o 2));
   mkLen "vptestnmd" (fun v => let (o, a, r, n, e, j, l, s) := v in i_vptestnmd (r 0) (r 1) (o 2));
   mkLen "vptestnmq" (fun v => let (o, a, r, n, e, j, l, s) := v in i_vptestnmq (r 0) (r 1) (o 2));
   mkLen "vptestnmw" (fun v => let (o, a, r, n, e, j, l, s) := v in i_vptestnmw (r 0) (r 1) (o 2));
   mkLen "vpxord" (fun v => let (o, a, r, n, e, j, l, s) := v in i_vpxord (r 0) (r 1) (o 2));
   mkLen "vpxorq" (fun v => let (o, a, r, n, e, j, l, s) := v in i_vpxorq (r 0) (r 1) (o 2));
   mkLen "vrangepd" (fun v => let (o, a, r, n, e, j, l, s) := v in i_vrangepd (r 0) (r 1) (o 2) (n 3));
   mkLen "vrangeps" (fun v => let (o, a, r, n, e, j, l, s) := v in i_vrangeps (r 0) (r 1) (o 2) (n 3));
   mkLen "vrangesd" (fun v => let (o, a, r, n, e, j, l, s) := v in i_vrangesd (r 0) (r 1) (o 2) (n 3));
   mkLen "vrangess" (fun v => let (o, a, r, n, e, j, l, s) := v in i_vrangess (r 0) (r 1) (o 2) (n 3));
   mkLen "vrcp14pd" (fun v => let (o, a, r, n, e, j, l, s) := v in i_vrcp14pd (r 0) (o 1));
   mkLen "vrcp14ps" (fun v => let (o, a, r, n, e, j, l, s) := v in i_vrcp14ps (r 0) (o 1));
   mkLen "vrcp14sd" (fun v => let (o, a, r, n, e, j, l, s) := v in i_vrcp14sd (r 0) (r 1) (o 2))].
Lemma lens86_ok : Forall entry_within lens86.
Proof. unfold lens86.
row. { unfold i_vpsllvw. row_len. }
row. { unfold i_vpsraq_xoi. row_len. }
row. { unfold i_vpsraq_xxo. row_len. }
row. { unfold i_vpsravq. row_len. }
row. { unfold i_vpsravw. row_len. }
row. { unfold i_vpsrlvw. row_len. }
row. { unfold i_vpternlogd. row_len. }
row. { unfold i_vpternlogq. row_len. }
row. { unfold i_vptestmb. row_len. }
row. { unfold i_vptestmd. row_len. }
row. { unfold i_vptestmq. row_len. }
row. { unfold i_vptestmw. row_len. }
row. { unfold i_vptestnmb. row_len. }
row. { unfold i_vptestnmd. row_len. }
row. { unfold i_vptestnmq. row_len. }
row. { unfold i_vptestnmw. row_len. }
row. { unfold i_vpxord. row_len. }
row. { unfold i_vpxorq. row_len. }
row. { unfold i_vrangepd. row_len. }
row. { unfold i_vrangeps. row_len. }
row. { unfold i_vrangesd. row_len. }
row. { unfold i_vrangess. row_len. }
row. { unfold i_vrcp14pd. row_len. }
row. { unfold i_vrcp14ps. row_len. }
row. { unfold i_vrcp14sd. row_len. }
apply Forall_nil. Qed.
Definition lens87 : list len_entry :=
  [mkLen "vrcp14ss" (fun v => let (o, a, r, n, e, j, l, s) := v in i_vrcp14ss (r 0) (r 1) (o 2));
   mkLen "vrcp28pd" (fun v => let (o, a, r, n, e, j, l, s) := v in i_vrcp28pd (r 0) (o 1));
   mkLen "vrcp28ps" (fun v => let (o, a, r, n, e, j, l, s) := v in i_vrcp28ps (r 0) (o 1));
   mkLen "vrcp28sd" (fun v => let (o, a, r, n, e, j, l, s) := v in i_vrcp28sd (r 0) (r 1) (o 2));
   mkLen "vrcp28ss" (fun v => let (o, a, r, n, e, j, l, s) := v in i_vrcp28ss (r 0) (r 1) (o 2));
   mkLen "vrcppbf16" (fun v => let (o, a, r, n, e, j, l, s) := v in i_vrcppbf16 (r 0) (o 1));
   mkLen "vrcpph" (fun v => let (o, a, r, n, e, j, l, s) := v in i_vrcpph (r 0) (o 1));
   mkLen "vrcpsh" (fun v => let (o, a, r, n, e, j, l, s) := v in i_vrcpsh (r 0) (r 1) (o 2));
   mkLen "vreducenepbf16" (fun v => let (o, a, r, n, e, j, l, s) := v in i_vreducenepbf16 (r 0) (o 1) (n 2));
   mkLen "vreducepd" (fun v => let (o, a, r, n, e, j, l, s) := v in i_vreducepd (r 0) (o 1) (n 2));
   mkLen "vreduceph" (fun v => let (o, a, r, n, e, j, l, s) := v in i_vreduceph (r 0) (o 1) (n 2));
   mkLen "vreduceps" (fun v => let (o, a, r, n, e, j, l, s) := v in i_vreduceps (r 0) (o 1) (n 2));
   mkLen "vreducesd" (fun v => let (o, a, r, n, e, j, l, s) := v in i_vreducesd (r 0) (r 1) (o 2) (n 3));
   mkLen "vreducesh" (fun v => let (o, a, r, n, e, j, l, s) := v in i_vreducesh (r 0) (r 1) (o 2) (n 3));
   mkLen "vreducess" (fun v => let (o, a, r, n, e, j, l, s) := v in i_vreducess (r 0) (r 1) (o 2) (n 3));
   mkLen "vrndscalenepbf16" (fun v => let (o, a, r, n, e, j, l, s) := v in i_vrndscalenepbf16 (r 0) (o 1) (n 2));
   mkLen "vrndscalepd" (fun v => let (o, a, r, n, e, j, l, s) := v in i_vrndscalepd (r 0) (o 1) (n 2));
   mkLen "vrndscaleph" (fun v => let (o, a, r, n, e, j, l, s) := v in i_vrndscaleph (r 0) (o 1) (n 2));
   mkLen "vrndscaleps" (fun v => let (o, a, r, n, e, j, l, s) := v in i_vrndscaleps (r 0) (o 1) (n 2));
   mkLen "vrndscalesd" (fun v => let (o, a, r, n, e, j, l, s) := v in i_vrndscalesd (r 0) (r 1) (o 2) (n 3));
   mkLen "vrndscalesh" (fun v => let (o, a, r, n, e, j, l, s) := v in i_vrndscalesh (r 0) (r 1) (o 2) (n 3));
   mkLen "vrndscaless" (fun v => let (o, a, r, n, e, j, l, s) := v in i_vrndscaless (r 0) (r 1) (o 2) (n 3));
   mkLen "vrsqrt14pd" (fun v => let (o, a, r, n, e, j, l, s) := v in i_vrsqrt14pd (r 0) (o 1));
   mkLen "vrsqrt14ps" (fun v => let (o, a, r, n, e, j, l, s) := v in i_vrsqrt14ps (r 0) (o 1));
   mkLen "vrsqrt14sd" (fun v => let (o, a, r, n, e, j, l, s) := v in i_vrsqrt14sd (r 0) (r 1) (o 2))].
Lemma lens87_ok : Forall entry_within lens87.
Proof. unfold lens87.
row. { unfold i_vrcp14ss. row_len. }
row. { unfold i_vrcp28pd. row_len. }
row. { unfold i_vrcp28ps. row_len. }
row. { unfold i_vrcp28sd. row_len. }
row. { unfold i_vrcp28ss. row_len. }
row. { unfold i_vrcppbf16. row_len. }
row. { unfold i_vrcpph. row_len. }
row. { unfold i_vrcpsh. row_len. }
row. { unfold i_vreducenepbf16. row_len. }
row. { unfold i_vreducepd. row_len. }
row. { unfold i_vreduceph. row_len. }
row. { unfold i_vreduceps. row_len. }
row. { unfold i_vreducesd. row_len. }
row. { unfold i_vreducesh. row_len. }
row. { unfold i_vreducess. row_len. }
row. { unfold i_vrndscalenepbf16. row_len. }
row. { unfold i_vrndscalepd. row_len. }
row. { unfold i_vrndscaleph. row_len. }
row. { unfold i_vrndscaleps. row_len. }
row. { unfold i_vrndscalesd. row_len. }
row. { unfold i_vrndscalesh. row_len. }
row. { unfold i_vrndscaless. row_len. }
row. { unfold i_vrsqrt14pd. row_len. }
row. { unfold i_vrsqrt14ps. row_len. }
row. { unfold i_vrsqrt14sd. row_len. }
apply Forall_nil. Qed.
Definition lens88 : list len_entry :=
  [mkLen "vrsqrt14ss" (fun v => let (o, a, r, n, e, j, l, s) := v in i_vrsqrt14ss (r 0) (r 1) (o 2));
   mkLen "vrsqrt28pd" (fun v => let (o, a, r, n, e, j, l, s) := v in i_vrsqrt28pd (r 0) (o 1));
   mkLen "vrsqrt28ps" (fun v => let (o, a, r, n, e, j, l, s) := v in i_vrsqrt28ps (r 0) (o 1));
   mkLen "vrsqrt28sd" (fun v => let (o, a, r, n, e, j, l, s) := v in i_vrsqrt28sd (r 0) (r 1) (o 2));
   mkLen "vrsqrt28ss" (fun v => let (o, a, r, n, e, j, l, s) := v in i_vrsqrt28ss (r 0) (r 1) (o 2));
   mkLen "vrsqrtpbf16" (fun v => let (o, a, r, n, e, j, l, s) := v in i_vrsqrtpbf16 (r 0) (o 1));
   mkLen "vrsqrtph" (fun v => let (o, a, r, n, e, j, l, s) := v in i_vrsqrtph (r 0) (o 1));
   mkLen "vrsqrtsh" (fun v => let (o, a, r, n, e, j, l, s) := v in i_vrsqrtsh (r 0) (r 1) (o 2));
   mkLen "vscalefpbf16_xo" (fun v => let (o, a, r, n, e, j, l, s) := v in i_vscalefpbf16_xo (r 0) (o 1));
   mkLen "vscalefpbf16_xxo" (fun v => let (o, a, r, n, e, j, l, s) := v in i_vscalefpbf16_xxo (r 0) (r 1) (o 2));
   mkLen "vscalefpd" (fun v => let (o, a, r, n, e, j, l, s) := v in i_vscalefpd (r 0) (r 1) (o 2));
   mkLen "vscalefph" (fun v => let (o, a, r, n, e, j, l, s) := v in i_vscalefph (r 0) (r 1) (o 2));
   mkLen "vscalefps" (fun v => let (o, a, r, n, e, j, l, s) := v in i_vscalefps (r 0) (r 1) (o 2));
   mkLen "vscalefsd" (fun v => let (o, a, r, n, e, j, l, s) := v in i_vscalefsd (r 0) (r 1) (o 2));
   mkLen "vscalefsh" (fun v => let (o, a, r, n, e, j, l, s) := v in i_vscalefsh (r 0) (r 1) (o 2));
   mkLen "vscalefss" (fun v => let (o, a, r, n, e, j, l, s) := v in i_vscalefss (r 0) (r 1) (o 2));
   mkLen "vscatterdpd" (fun v => let (o, a, r, n, e, j, l, s) := v in i_vscatterdpd (a 0) (r 1));
   mkLen "vscatterdps" (fun v => let (o, a, r, n, e, j, l, s) := v in i_vscatterdps (a 0) (r 1));
   mkLen "vscatterpf0dpd" (fun v => let (o, a, r, n, e, j, l, s) := v in i_vscatterpf0dpd (a 0));
   mkLen "vscatterpf0dps" (fun v => let (o, a, r, n, e, j, l, s) := v in i_vscatterpf0dps (a 0));
   mkLen "vscatterpf0qpd" (fun v => let (o, a, r, n, e, j, l, s) := v in i_vscatterpf0qpd (a 0));
   mkLen "vscatterpf0qps" (fun v => let (o, a, r, n, e, j, l, s) := v in i_vscatterpf0qps (a 0));
   mkLen "vscatterpf1dpd" (fun v => let (o, a, r, n, e, j, l, s) := v in i_vscatterpf1dpd (a 0));
   mkLen "vscatterpf1dps" (fun v => let (o, a, r, n, e, j, l, s) := v in i_vscatterpf1dps (a 0));
   mkLen "vscatterpf1qpd" (fun v => let (o, a, r, n, e, j, l, s) := v in i_vscatterpf1qpd (a 0))].
Lemma lens88_ok : Forall entry_within lens88.
Proof. unfold lens88.
row. { unfold i_vrsqrt14ss. row_len. }
row. { unfold i_vrsqrt28pd. row_len. }
row. { unfold i_vrsqrt28ps. row_len. }
row. { unfold i_vrsqrt28sd. row_len. }
row. { unfold i_vrsqrt28ss. row_len. }
row. { unfold i_vrsqrtpbf16. row_len. }
row. { unfold i_vrsqrtph. row_len. }
row. { unfold i_vrsqrtsh. row_len. }
row. { unfold i_vscalefpbf16_xo. row_len. }
row. { unfold i_vscalefpbf16_xxo. row_len. }
row. { unfold i_vscalefpd. row_len. }
row. { unfold i_vscalefph. row_len. }
row. { unfold i_vscalefps. row_len. }
row. { unfold i_vscalefsd. row_len. }
row. { unfold i_vscalefsh. row_len. }
row. { unfold i_vscalefss. row_len. }
row. { unfold i_vscatterdpd. row_len. }
row. { unfold i_vscatterdps. row_len. }
row. { unfold i_vscatterpf0dpd. row_len. }
row. { unfold i_vscatterpf0dps. row_len. }
row. { unfold i_vscatterpf0qpd. row_len. }
row. { unfold i_vscatterpf0qps. row_len. }
row. { unfold i_vscatterpf1dpd. row_len. }
row. { unfold i_vscatterpf1dps. row_len. }
row. { unfold i_vscatterpf1qpd. row_len. }
apply Forall_nil. Qed.
Definition lens89 : list len_entry :=
  [mkLen "vscatterpf1qps" (fun v => let (o, a, r, n, e, j, l, s) := v in i_vscatterpf1qps (a 0));
   mkLen "vscatterqpd" (fun v => let (o, a, r, n, e, j, l, s) := v in i_vscatterqpd (a 0) (r 1));
   mkLen "vscatterqps" (fun v => let (o, a, r, n, e, j, l, s) := v in i_vscatterqps (a 0) (r 1));
   mkLen "vshuff32x4" (fun v => let (o, a, r, n, e, j, l, s) := v in i_vshuff32x4 (r 0) (r 1) (o 2) (n 3));
   mkLen "vshuff64x2" (fun v => let (o, a, r, n, e, j, l, s) := v in i_vshuff64x2 (r 0) (r 1) (o 2) (n 3));
   mkLen "vshufi32x4" (fun v => let (o, a, r, n, e, j, l, s) := v in i_vshufi32x4 (r 0) (r 1) (o 2) (n 3));
   mkLen "vshufi64x2" (fun v => let (o, a, r, n, e, j, l, s) := v in i_vshufi64x2 (r 0) (r 1) (o 2) (n 3));
   mkLen "vsqrtnepbf16" (fun v => let (o, a, r, n, e, j, l, s) := v in i_vsqrtnepbf16 (r 0) (o 1));
   mkLen "vsqrtph" (fun v => let (o, a, r, n, e, j, l, s) := v in i_vsqrtph (r 0) (o 1));
   mkLen "vsqrtsh" (fun v => let (o, a, r, n, e, j, l, s) := v in i_vsqrtsh (r 0) (r 1) (o 2));
   mkLen "vsubnepbf16" (fun v => let (o, a, r, n, e, j, l, s) := v in i_vsubnepbf16 (r 0) (r 1) (o 2));
   mkLen "vsubph" (fun v => let (o, a, r, n, e, j, l, s) := v in i_vsubph (r 0) (o 1) (o 2));
   mkLen "vsubsh" (fun v => let (o, a, r, n, e, j, l, s) := v in i_vsubsh (r 0) (o 1) (o 2));
   mkLen "vucomish" (fun v => let (o, a, r, n, e, j, l, s) := v in i_vucomish (r 0) (o 1));
   mkLen "vucomxsd" (fun v => let (o, a, r, n, e, j, l, s) := v in i_vucomxsd (r 0) (o 1));
   mkLen "vucomxsh" (fun v => let (o, a, r, n, e, j, l, s) := v in i_vucomxsh (r 0) (o 1));
   mkLen "vucomxss" (fun v => let (o, a, r, n, e, j, l, s) := v in i_vucomxss (r 0) (o 1));
   mkLen "kmovq_qk" (fun v => let (o, a, r, n, e, j, l, s) := v in i_kmovq_qk (r 0) (r 1));
   mkLen "vpbroadcastq_xq" (fun v => let (o, a, r, n, e, j, l, s) := v in i_vpbroadcastq_xq (r 0) (r 1));
   mkLen "vblendpd_xoi" (fun v => let (o, a, r, n, e, j, l, s) := v in i_vblendpd_xoi (r 0) (o 1) (n 2));
   mkLen "vblendps_xoi" (fun v => let (o, a, r, n, e, j, l, s) := v in i_vblendps_xoi (r 0) (o 1) (n 2));
   mkLen "vblendvpd_xox" (fun v => let (o, a, r, n, e, j, l, s) := v in i_vblendvpd_xox (r 0) (o 1) (r 2));
   mkLen "vblendvps_xox" (fun v => let (o, a, r, n, e, j, l, s) := v in i_vblendvps_xox (r 0) (o 1) (r 2));
   mkLen "vcmpeq_ospd_xo" (fun v => let (o, a, r, n, e, j, l, s) := v in i_vcmpeq_ospd_xo (r 0) (o 1));
   mkLen "vcmpeq_osps_xo" (fun v => let (o, a, r, n, e, j, l, s) := v in i_vcmpeq_osps_xo (r 0) (o 1))].
Lemma lens89_ok : Forall entry_within lens89.
Proof. unfold lens89.
row. { unfold i_vscatterpf1qps. row_len. }
row. { unfold i_vscatterqpd. row_len. }
row. { unfold i_vscatterqps. row_len. }
row. { unfold i_vshuff32x4. row_len. }
row. { unfold i_vshuff64x2. row_len. }
row. { unfold i_vshufi32x4. row_len. }
row. { unfold i_vshufi64x2. row_len. }
row. { unfold i_vsqrtnepbf16. row_len. }
row. { unfold i_vsqrtph. row_len. }
row. { unfold i_vsqrtsh. row_len. }
row. { unfold i_vsubnepbf16. row_len. }
row. { unfold i_vsubph. row_len. }
row. { unfold i_vsubsh. row_len. }
row. { unfold i_vucomish. row_len. }
row. { unfold i_vucomxsd. row_len. }
row. { unfold i_vucomxsh. row_len. }
row. { unfold i_vucomxss. row_len. }
row. { unfold i_kmovq_qk. row_len. }
row. { unfold i_vpbroadcastq_xq. row_len. }
row. { unfold i_vblendpd_xoi, i_vblendpd_xxoi. row_len. }
row. { unfold i_vblendps_xoi, i_vblendps_xxoi. row_len. }
row. { unfold i_vblendvpd_xox, i_vblendvpd_xxox. row_len. }
row. { unfold i_vblendvps_xox, i_vblendvps_xxox. row_len. }
row. { unfold i_vcmpeq_ospd_xo, i_vcmpeq_ospd_xxo, i_vcmppd_xxoi. row_len. }
row. { unfold i_vcmpeq_osps_xo, i_vcmpeq_osps_xxo, i_vcmpps_xxoi. row_len. }
apply Forall_nil. Qed.
Definition lens90 : list len_entry :=
  [mkLen "vcmpeq_ossd_xo" (fun v => let (o, a, r, n, e, j, l, s) := v in i_vcmpeq_ossd_xo (r 0) (o 1));
   mkLen "vcmpeq_osss_xo" (fun v => let (o, a, r, n, e, j, l, s) := v in i_vcmpeq_osss_xo (r 0) (o 1));
   mkLen "vcmpeq_uqpd_xo" (fun v => let (o, a, r, n, e, j, l, s) := v in i_vcmpeq_uqpd_xo (r 0) (o 1));
   mkLen "vcmpeq_uqps_xo" (fun v => let (o, a, r, n, e, j, l, s) := v in i_vcmpeq_uqps_xo (r 0) (o 1));
   mkLen "vcmpeq_uqsd_xo" (fun v => let (o, a, r, n, e, j, l, s) := v in i_vcmpeq_uqsd_xo (r 0) (o 1));
   mkLen "vcmpeq_uqss_xo" (fun v => let (o, a, r, n, e, j, l, s) := v in i_vcmpeq_uqss_xo (r 0) (o 1));
   mkLen "vcmpeq_uspd_xo" (fun v => let (o, a, r, n, e, j, l, s) := v in i_vcmpeq_uspd_xo (r 0) (o 1));
   mkLen "vcmpeq_usps_xo" (fun v => let (o, a, r, n, e, j, l, s) := v in i_vcmpeq_usps_xo (r 0) (o 1));
   mkLen "vcmpeq_ussd_xo" (fun v => let (o, a, r, n, e, j, l, s) := v in i_vcmpeq_ussd_xo (r 0) (o 1));
   mkLen "vcmpeq_usss_xo" (fun v => let (o, a, r, n, e, j, l, s) := v in i_vcmpeq_usss_xo (r 0) (o 1));
   mkLen "vcmpeqpd_xo" (fun v => let (o, a, r, n, e, j, l, s) := v in i_vcmpeqpd_xo (r 0) (o 1));
   mkLen "vcmpeqps_xo" (fun v => let (o, a, r, n, e, j, l, s) := v in i_vcmpeqps_xo (r 0) (o 1));
   mkLen "vcmpeqsd_xo" (fun v => let (o, a, r, n, e, j, l, s) := v in i_vcmpeqsd_xo (r 0) (o 1));
   mkLen "vcmpeqss_xo" (fun v => let (o, a, r, n, e, j, l, s) := v in i_vcmpeqss_xo (r 0) (o 1));
   mkLen "vcmpfalse_ospd_xo" (fun v => let (o, a, r, n, e, j, l, s) := v in i_vcmpfalse_ospd_xo (r 0) (o 1));
   mkLen "vcmpfalse_osps_xo" (fun v => let (o, a, r, n, e, j, l, s) := v in i_vcmpfalse_osps_xo (r 0) (o 1));
   mkLen "vcmpfalse_ossd_xo" (fun v => let (o, a, r, n, e, j, l, s) := v in i_vcmpfalse_ossd_xo (r 0) (o 1));
   mkLen "vcmpfalse_osss_xo" (fun v => let (o, a, r, n, e, j, l, s) := v in i_vcmpfalse_osss_xo (r 0) (o 1));
   mkLen "vcmpfalsepd_xo" (fun v => let (o, a, r, n, e, j, l, s) := v in i_vcmpfalsepd_xo (r 0) (o 1));
   mkLen "vcmpfalseps_xo" (fun v => let (o, a, r, n, e, j, l, s) := v in i_vcmpfalseps_xo (r 0) (o 1));
   mkLen "vcmpfalsesd_xo" (fun v => let (o, a, r, n, e, j, l, s) := v in i_vcmpfalsesd_xo (r 0) (o 1));
   mkLen "vcmpfalsess_xo" (fun v => let (o, a, r, n, e, j, l, s) := v in i_vcmpfalsess_xo (r 0) (o 1));
   mkLen "vcmpge_oqpd_xo" (fun v => let (o, a, r, n, e, j, l, s) := v in i_vcmpge_oqpd_xo (r 0) (o 1));
   mkLen "vcmpge_oqps_xo" (fun v => let (o, a, r, n, e, j, l, s) := v in i_vcmpge_oqps_xo (r 0) (o 1));
   mkLen "vcmpge_oqsd_xo" (fun v => let (o, a, r, n, e, j, l, s) := v in i_vcmpge_oqsd_xo (r 0) (o 1))].
Lemma lens90_ok : Forall entry_within lens90.
Proof. unfold lens90.
row. { unfold i_vcmpeq_ossd_xo, i_vcmpeq_ossd_xxo, i_vcmpsd_xxoi. row_len. }
row. { unfold i_vcmpeq_osss_xo, i_vcmpeq_osss_xxo, i_vcmpss_xxoi. row_len. }
row. { unfold i_vcmpeq_uqpd_xo, i_vcmpeq_uqpd_xxo, i_vcmppd_xxoi. row_len. }
row. { unfold i_vcmpeq_uqps_xo, i_vcmpeq_uqps_xxo, i_vcmpps_xxoi. row_len. }
row. { unfold i_vcmpeq_uqsd_xo, i_vcmpeq_uqsd_xxo, i_vcmpsd_xxoi. row_len. }
row. { unfold i_vcmpeq_uqss_xo, i_vcmpeq_uqss_xxo, i_vcmpss_xxoi. row_len. }
row. { unfold i_vcmpeq_uspd_xo, i_vcmpeq_uspd_xxo, i_vcmppd_xxoi. row_len. }
row. { unfold i_vcmpeq_usps_xo, i_vcmpeq_usps_xxo, i_vcmpps_xxoi. row_len. }
row. { unfold i_vcmpeq_ussd_xo, i_vcmpeq_ussd_xxo, i_vcmpsd_xxoi. row_len. }
row. { unfold i_vcmpeq_usss_xo, i_vcmpeq_usss_xxo, i_vcmpss_xxoi. row_len. }
row. { unfold i_vcmpeqpd_xo, i_vcmpeqpd_xxo, i_vcmppd_xxoi. row_len. }
row. { unfold i_vcmpeqps_xo, i_vcmpeqps_xxo, i_vcmpps_xxoi. row_len. }
row. { unfold i_vcmpeqsd_xo, i_vcmpeqsd_xxo, i_vcmpsd_xxoi. row_len. }
row. { unfold i_vcmpeqss_xo, i_vcmpeqss_xxo, i_vcmpss_xxoi. row_len. }
row. { unfold i_vcmpfalse_ospd_xo, i_vcmpfalse_ospd_xxo, i_vcmppd_xxoi. row_len. }
row. { unfold i_vcmpfalse_osps_xo, i_vcmpfalse_osps_xxo, i_vcmpps_xxoi. row_len. }
row. { unfold i_vcmpfalse_ossd_xo, i_vcmpfalse_ossd_xxo, i_vcmpsd_xxoi. row_len. }
row. { unfold i_vcmpfalse_osss_xo, i_vcmpfalse_osss_xxo, i_vcmpss_xxoi. row_len. }
row. { unfold i_vcmpfalsepd_xo, i_vcmpfalsepd_xxo, i_vcmppd_xxoi. row_len. }
row. { unfold i_vcmpfalseps_xo, i_vcmpfalseps_xxo, i_vcmpps_xxoi. row_len. }
row. { unfold i_vcmpfalsesd_xo, i_vcmpfalsesd_xxo, i_vcmpsd_xxoi. row_len. }
row. { unfold i_vcmpfalsess_xo, i_vcmpfalsess_xxo, i_vcmpss_xxoi. row_len. }
row. { unfold i_vcmpge_oqpd_xo, i_vcmpge_oqpd_xxo, i_vcmppd_xxoi. row_len. }
row. { unfold i_vcmpge_oqps_xo, i_vcmpge_oqps_xxo, i_vcmpps_xxoi. row_len. }
row. { unfold i_vcmpge_oqsd_xo, i_vcmpge_oqsd_xxo, i_vcmpsd_xxoi. row_len. }
apply Forall_nil. Qed.
Definition lens91 : list len_entry :=
  [mkLen "vcmpge_oqss_xo" (fun v => let (o, a, r, n, e, j, l, s) := v in i_vcmpge_oqss_xo (r 0) (o 1));
   mkLen "vcmpgepd_xo" (fun v => let (o, a, r, n, e, j, l, s) := v in i_vcmpgepd_xo (r 0) (o 1));
   mkLen "vcmpgeps_xo" (fun v => let (o, a, r, n, e, j, l, s) := v in i_vcmpgeps_xo (r 0) (o 1));
   mkLen "vcmpgesd_xo" (fun v => let (o, a, r, n, e, j, l, s) := v in i_vcmpgesd_xo (r 0) (o 1));
   mkLen "vcmpgess_xo" (fun v => let (o, a, r, n, e, j, l, s) := v in i_vcmpgess_xo (r 0) (o 1));
   mkLen "vcmpgt_oqpd_xo" (fun v => let (o, a, r, n, e, j, l, s) := v in i_vcmpgt_oqpd_xo (r 0) (o 1));
   mkLen "vcmpgt_oqps_xo" (fun v => let (o, a, r, n, e, j, l, s) := v in i_vcmpgt_oqps_xo (r 0) (o 1));
   mkLen "vcmpgt_oqsd_xo" (fun v => let (o, a, r, n, e, j, l, s) := v in i_vcmpgt_oqsd_xo (r 0) (o 1));
   mkLen "vcmpgt_oqss_xo" (fun v => let (o, a, r, n, e, j, l, s) := v in i_vcmpgt_oqss_xo (r 0) (o 1));
   mkLen "vcmpgtpd_xo" (fun v => let (o, a, r, n, e, j, l, s) := v in i_vcmpgtpd_xo (r 0) (o 1));
   mkLen "vcmpgtps_xo" (fun v => let (o, a, r, n, e, j, l, s) := v in i_vcmpgtps_xo (r 0) (o 1));
   mkLen "vcmpgtsd_xo" (fun v => let (o, a, r, n, e, j, l, s) := v in i_vcmpgtsd_xo (r 0) (o 1));
   mkLen "vcmpgtss_xo" (fun v => let (o, a, r, n, e, j, l, s) := v in i_vcmpgtss_xo (r 0) (o 1));
   mkLen "vcmple_oqpd_xo" (fun v => let (o, a, r, n, e, j, l, s) := v in i_vcmple_oqpd_xo (r 0) (o 1));
   mkLen "vcmple_oqps_xo" (fun v => let (o, a, r, n, e, j, l, s) := v in i_vcmple_oqps_xo (r 0) (o 1));
   mkLen "vcmple_oqsd_xo" (fun v => let (o, a, r, n, e, j, l, s) := v in i_vcmple_oqsd_xo (r 0) (o 1));
   mkLen "vcmple_oqss_xo" (fun v => let (o, a, r, n, e, j, l, s) := v in i_vcmple_oqss_xo (r 0) (o 1));
   mkLen "vcmplepd_xo" (fun v => let (o, a, r, n, e, j, l, s) := v in i_vcmplepd_xo (r 0) (o 1));
   mkLen "vcmpleps_xo" (fun v => let (o, a, r, n, e, j, l, s) := v in i_vcmpleps_xo (r 0) (o 1));
   mkLen "vcmplesd_xo" (fun v => let (o, a, r, n, e, j, l, s) := v in i_vcmplesd_xo (r 0) (o 1));
   mkLen "vcmpless_xo" (fun v => let (o, a, r, n, e, j, l, s) := v in i_vcmpless_xo (r 0) (o 1));
   mkLen "vcmplt_oqpd_xo" (fun v => let (o, a, r, n, e, j, l, s) := v in i_vcmplt_oqpd_xo (r 0) (o 1));
   mkLen "vcmplt_oqps_xo" (fun v => let (o, a, r, n, e, j, l, s) := v in i_vcmplt_oqps_xo (r 0) (o 1));
   mkLen "vcmplt_oqsd_xo" (fun v => let (o, a, r, n, e, j, l, s) := v in i_vcmplt_oqsd_xo (r 0) (o 1));
   mkLen "vcmplt_oqss_xo" (fun v => let (o, a, r, n, e, j, l, s) := v in i_vcmplt_oqss_xo (r 0) (o 1))].
Lemma lens91_ok : Forall entry_within lens91.
Proof. unfold lens91.
row. { unfold i_vcmpge_oqss_xo, i_vcmpge_oqss_xxo, i_vcmpss_xxoi. row_len. }
row. { unfold i_vcmpgepd_xo, i_vcmpgepd_xxo, i_vcmppd_xxoi. row_len. }
row. { unfold i_vcmpgeps_xo, i_vcmpgeps_xxo, i_vcmpps_xxoi. row_len. }
row. { unfold i_vcmpgesd_xo, i_vcmpgesd_xxo, i_vcmpsd_xxoi. row_len. }
row. { unfold i_vcmpgess_xo, i_vcmpgess_xxo, i_vcmpss_xxoi. row_len. }
row. { unfold i_vcmpgt_oqpd_xo, i_vcmpgt_oqpd_xxo, i_vcmppd_xxoi. row_len. }
row. { unfold i_vcmpgt_oqps_xo, i_vcmpgt_oqps_xxo, i_vcmpps_xxoi. row_len. }
row. { unfold i_vcmpgt_oqsd_xo, i_vcmpgt_oqsd_xxo, i_vcmpsd_xxoi. row_len. }
row. { unfold i_vcmpgt_oqss_xo, i_vcmpgt_oqss_xxo, i_vcmpss_xxoi. row_len. }
row. { unfold i_vcmpgtpd_xo, i_vcmpgtpd_xxo, i_vcmppd_xxoi. row_len. }
row. { unfold i_vcmpgtps_xo, i_vcmpgtps_xxo, i_vcmpps_xxoi. row_len. }
row. { unfold i_vcmpgtsd_xo, i_vcmpgtsd_xxo, i_vcmpsd_xxoi. row_len. }
row. { unfold i_vcmpgtss_xo, i_vcmpgtss_xxo, i_vcmpss_xxoi. row_len. }
row. { unfold i_vcmple_oqpd_xo, i_vcmple_oqpd_xxo, i_vcmppd_xxoi. row_len. }
row. { unfold i_vcmple_oqps_xo, i_vcmple_oqps_xxo, i_vcmpps_xxoi. row_len. }
row. { unfold i_vcmple_oqsd_xo, i_vcmple_oqsd_xxo, i_vcmpsd_xxoi. row_len. }
row. { unfold i_vcmple_oqss_xo, i_vcmple_oqss_xxo, i_vcmpss_xxoi. row_len. }
row. { unfold i_vcmplepd_xo, i_vcmplepd_xxo, i_vcmppd_xxoi. row_len. }
row. { unfold i_vcmpleps_xo, i_vcmpleps_xxo, i_vcmpps_xxoi. row_len. }
row. { unfold i_vcmplesd_xo, i_vcmplesd_xxo, i_vcmpsd_xxoi. row_len. }
row. { unfold i_vcmpless_xo, i_vcmpless_xxo, i_vcmpss_xxoi. row_len. }
row. { unfold i_vcmplt_oqpd_xo, i_vcmplt_oqpd_xxo, i_vcmppd_xxoi. row_len. }
row. { unfold i_vcmplt_oqps_xo, i_vcmplt_oqps_xxo, i_vcmpps_xxoi. row_len. }
row. { unfold i_vcmplt_oqsd_xo, i_vcmplt_oqsd_xxo, i_vcmpsd_xxoi. row_len. }
row. { unfold i_vcmplt_oqss_xo, i_vcmplt_oqss_xxo, i_vcmpss_xxoi. row_len. }
apply Forall_nil. Qed.
Definition lens92 : list len_entry :=
  [mkLen "vcmpltpd_xo" (fun v => let (o, a, r, n, e, j, l, s) := v in i_vcmpltpd_xo (r 0) (o 1));
   mkLen "vcmpltps_xo" (fun v => let (o, a, r, n, e, j, l, s) := v in i_vcmpltps_xo (r 0) (o 1));
   mkLen "vcmpltsd_xo" (fun v => let (o, a, r, n, e, j, l, s) := v in i_vcmpltsd_xo (r 0) (o 1));
   mkLen "vcmpltss_xo" (fun v => let (o, a, r, n, e, j, l, s) := v in i_vcmpltss_xo (r 0) (o 1));
   mkLen "vcmpneq_oqpd_xo" (fun v => let (o, a, r, n, e, j, l, s) := v in i_vcmpneq_oqpd_xo (r 0) (o 1));
   mkLen "vcmpneq_oqps_xo" (fun v => let (o, a, r, n, e, j, l, s) := v in i_vcmpneq_oqps_xo (r 0) (o 1));
   mkLen "vcmpneq_oqsd_xo" (fun v => let (o, a, r, n, e, j, l, s) := v in i_vcmpneq_oqsd_xo (r 0) (o 1));
   mkLen "vcmpneq_oqss_xo" (fun v => let (o, a, r, n, e, j, l, s) := v in i_vcmpneq_oqss_xo (r 0) (o 1));
   mkLen "vcmpneq_ospd_xo" (fun v => let (o, a, r, n, e, j, l, s) := v in i_vcmpneq_ospd_xo (r 0) (o 1));
   mkLen "vcmpneq_osps_xo" (fun v => let (o, a, r, n, e, j, l, s) := v in i_vcmpneq_osps_xo (r 0) (o 1));
   mkLen "vcmpneq_ossd_xo" (fun v => let (o, a, r, n, e, j, l, s) := v in i_vcmpneq_ossd_xo (r 0) (o 1));
   mkLen "vcmpneq_osss_xo" (fun v => let (o, a, r, n, e, j, l, s) := v in i_vcmpneq_osss_xo (r 0) (o 1));
   mkLen "vcmpneq_uspd_xo" (fun v => let (o, a, r, n, e, j, l, s) := v in i_vcmpneq_uspd_xo (r 0) (o 1));
   mkLen "vcmpneq_usps_xo" (fun v => let (o, a, r, n, e, j, l, s) := v in i_vcmpneq_usps_xo (r 0) (o 1));
   mkLen "vcmpneq_ussd_xo" (fun v => let (o, a, r, n, e, j, l, s) := v in i_vcmpneq_ussd_xo (r 0) (o 1));
   mkLen "vcmpneq_usss_xo" (fun v => let (o, a, r, n, e, j, l, s) := v in i_vcmpneq_usss_xo (r 0) (o 1));
   mkLen "vcmpneqpd_xo" (fun v => let (o, a, r, n, e, j, l, s) := v in i_vcmpneqpd_xo (r 0) (o 1));
   mkLen "vcmpneqps_xo" (fun v => let (o, a, r, n, e, j, l, s) := v in i_vcmpneqps_xo (r 0) (o 1));
   mkLen "vcmpneqsd_xo" (fun v => let (o, a, r, n, e, j, l, s) := v in i_vcmpneqsd_xo (r 0) (o 1));
   mkLen "vcmpneqss_xo" (fun v => let (o, a, r, n, e, j, l, s) := v in i_vcmpneqss_xo (r 0) (o 1));
   mkLen "vcmpnge_uqpd_xo" (fun v => let (o, a, r, n, e, j, l, s) := v in i_vcmpnge_uqpd_xo (r 0) (o 1));
   mkLen "vcmpnge_uqps_xo" (fun v => let (o, a, r, n, e, j, l, s) := v in i_vcmpnge_uqps_xo (r 0) (o 1));
   mkLen "vcmpnge_uqsd_xo" (fun v => let (o, a, r, n, e, j, l, s) := v in i_vcmpnge_uqsd_xo (r 0) (o 1));
   mkLen "vcmpnge_uqss_xo" (fun v => let (o, a, r, n, e, j, l, s) := v in i_vcmpnge_uqss_xo (r 0) (o 1));
   mkLen "vcmpngepd_xo" (fun v => let (o, a, r, n, e, j, l, s) := v in i_vcmpngepd_xo (r 0) (o 1))].
Lemma lens92_ok : Forall entry_within lens92.
Proof. unfold lens92.
row. { unfold i_vcmpltpd_xo, i_vcmpltpd_xxo, i_vcmppd_xxoi. row_len. }
row. { unfold i_vcmpltps_xo, i_vcmpltps_xxo, i_vcmpps_xxoi. row_len. }
row. { unfold i_vcmpltsd_xo, i_vcmpltsd_xxo, i_vcmpsd_xxoi. row_len. }
row. { unfold i_vcmpltss_xo, i_vcmpltss_xxo, i_vcmpss_xxoi. row_len. }
row. { unfold i_vcmpneq_oqpd_xo, i_vcmpneq_oqpd_xxo, i_vcmppd_xxoi. row_len. }
row. { unfold i_vcmpneq_oqps_xo, i_vcmpneq_oqps_xxo, i_vcmpps_xxoi. row_len. }
row. { unfold i_vcmpneq_oqsd_xo, i_vcmpneq_oqsd_xxo, i_vcmpsd_xxoi. row_len. }
row. { unfold i_vcmpneq_oqss_xo, i_vcmpneq_oqss_xxo, i_vcmpss_xxoi. row_len. }
row. { unfold i_vcmpneq_ospd_xo, i_vcmpneq_ospd_xxo, i_vcmppd_xxoi. row_len. }
row. { unfold i_vcmpneq_osps_xo, i_vcmpneq_osps_xxo, i_vcmpps_xxoi. row_len. }
row. { unfold i_vcmpneq_ossd_xo, i_vcmpneq_ossd_xxo, i_vcmpsd_xxoi. row_len. }
row. { unfold i_vcmpneq_osss_xo, i_vcmpneq_osss_xxo, i_vcmpss_xxoi. row_len. }
row. { unfold i_vcmpneq_uspd_xo, i_vcmpneq_uspd_xxo, i_vcmppd_xxoi. row_len. }
row. { unfold i_vcmpneq_usps_xo, i_vcmpneq_usps_xxo, i_vcmpps_xxoi. row_len. }
row. { unfold i_vcmpneq_ussd_xo, i_vcmpneq_ussd_xxo, i_vcmpsd_xxoi. row_len. }
row. { unfold i_vcmpneq_usss_xo, i_vcmpneq_usss_xxo, i_vcmpss_xxoi. row_len. }
row. { unfold i_vcmpneqpd_xo, i_vcmpneqpd_xxo, i_vcmppd_xxoi. row_len. }
row. { unfold i_vcmpneqps_xo, i_vcmpneqps_xxo, i_vcmpps_xxoi. row_len. }
row. { unfold i_vcmpneqsd_xo, i_vcmpneqsd_xxo, i_vcmpsd_xxoi. row_len. }
row. { unfold i_vcmpneqss_xo, i_vcmpneqss_xxo, i_vcmpss_xxoi. row_len. }
row. { unfold i_vcmpnge_uqpd_xo, i_vcmpnge_uqpd_xxo, i_vcmppd_xxoi. row_len. }
row. { unfold i_vcmpnge_uqps_xo, i_vcmpnge_uqps_xxo, i_vcmpps_xxoi. row_len. }
row. { unfold i_vcmpnge_uqsd_xo, i_vcmpnge_uqsd_xxo, i_vcmpsd_xxoi. row_len. }
row. { unfold i_vcmpnge_uqss_xo, i_vcmpnge_uqss_xxo, i_vcmpss_xxoi. row_len. }
row. { unfold i_vcmpngepd_xo, i_vcmpngepd_xxo, i_vcmppd_xxoi. row_len. }
apply Forall_nil. Qed.
Definition lens93 : list len_entry :=
  [mkLen "vcmpngeps_xo" (fun v => let (o, a, r, n, e, j, l, s) := v in i_vcmpngeps_xo (r 0) (o 1));
   mkLen "vcmpngesd_xo" (fun v => let (o, a, r, n, e, j, l, s) := v in i_vcmpngesd_xo (r 0) (o 1));
   mkLen "vcmpngess_xo" (fun v => let (o, a, r, n, e, j, l, s) := v in i_vcmpngess_xo (r 0) (o 1));
   mkLen "vcmpngt_uqpd_xo" (fun v => let (o, a, r, n, e, j, l, s) := v in i_vcmpngt_uqpd_xo (r 0) (o 1));
   mkLen "vcmpngt_uqps_xo" (fun v => let (o, a, r, n, e, j, l, s) := v in i_vcmpngt_uqps_xo (r 0) (o 1));
   mkLen "vcmpngt_uqsd_xo" (fun v => let (o, a, r, n, e, j, l, s) := v in i_vcmpngt_uqsd_xo (r 0) (o 1));
   mkLen "vcmpngt_uqss_xo" (fun v => let (o, a, r, n, e, j, l, s) := v in i_vcmpngt_uqss_xo (r 0) (o 1));
   mkLen "vcmpngtpd_xo" (fun v => let (o, a, r, n, e, j, l, s) := v in i_vcmpngtpd_xo (r 0) (o 1));
   mkLen "vcmpngtps_xo" (fun v => let (o, a, r, n, e, j, l, s) := v in i_vcmpngtps_xo (r 0) (o 1));
   mkLen "vcmpngtsd_xo" (fun v => let (o, a, r, n, e, j, l, s) := v in i_vcmpngtsd_xo (r 0) (o 1));
   mkLen "vcmpngtss_xo" (fun v => let (o, a, r, n, e, j, l, s) := v in i_vcmpngtss_xo (r 0) (o 1));
   mkLen "vcmpnle_uqpd_xo" (fun v => let (o, a, r, n, e, j, l, s) := v in i_vcmpnle_uqpd_xo (r 0) (o 1));
   mkLen "vcmpnle_uqps_xo" (fun v => let (o, a, r, n, e, j, l, s) := v in i_vcmpnle_uqps_xo (r 0) (o 1));
   mkLen "vcmpnle_uqsd_xo" (fun v => let (o, a, r, n, e, j, l, s) := v in i_vcmpnle_uqsd_xo (r 0) (o 1));
   mkLen "vcmpnle_uqss_xo" (fun v => let (o, a, r, n, e, j, l, s) := v in i_vcmpnle_uqss_xo (r 0) (o 1));
   mkLen "vcmpnlepd_xo" (fun v => let (o, a, r, n, e, j, l, s) := v in i_vcmpnlepd_xo (r 0) (o 1));
   mkLen "vcmpnleps_xo" (fun v => let (o, a, r, n, e, j, l, s) := v in i_vcmpnleps_xo (r 0) (o 1));
   mkLen "vcmpnlesd_xo" (fun v => let (o, a, r, n, e, j, l, s) := v in i_vcmpnlesd_xo (r 0) (o 1));
   mkLen "vcmpnless_xo" (fun v => let (o, a, r, n, e, j, l, s) := v in i_vcmpnless_xo (r 0) (o 1));
   mkLen "vcmpnlt_uqpd_xo" (fun v => let (o, a, r, n, e, j, l, s) := v in i_vcmpnlt_uqpd_xo (r 0) (o 1));
   mkLen "vcmpnlt_uqps_xo" (fun v => let (o, a, r, n, e, j, l, s) := v in i_vcmpnlt_uqps_xo (r 0) (o 1));
   mkLen "vcmpnlt_uqsd_xo" (fun v => let (o, a, r, n, e, j, l, s) := v in i_vcmpnlt_uqsd_xo (r 0) (o 1));
   mkLen "vcmpnlt_uqss_xo" (fun v => let (o, a, r, n, e, j, l, s) := v in i_vcmpnlt_uqss_xo (r 0) (o 1));
   mkLen "vcmpnltpd_xo" (fun v => let (o, a, r, n, e, j, l, s) := v in i_vcmpnltpd_xo (r 0) (o 1));
   mkLen "vcmpnltps_xo" (fun v => let (o, a, r, n, e, j, l, s) := v in i_vcmpnltps_xo (r 0) (o 1))].
Lemma lens93_ok : Forall entry_within lens93.
Proof. unfold lens93.
row. { unfold i_vcmpngeps_xo, i_vcmpngeps_xxo, i_vcmpps_xxoi. row_len. }
row. { unfold i_vcmpngesd_xo, i_vcmpngesd_xxo, i_vcmpsd_xxoi. row_len. }
row. { unfold i_vcmpngess_xo, i_vcmpngess_xxo, i_vcmpss_xxoi. row_len. }
row. { unfold i_vcmpngt_uqpd_xo, i_vcmpngt_uqpd_xxo, i_vcmppd_xxoi. row_len. }
row. { unfold i_vcmpngt_uqps_xo, i_vcmpngt_uqps_xxo, i_vcmpps_xxoi. row_len. }
row. { unfold i_vcmpngt_uqsd_xo, i_vcmpngt_uqsd_xxo, i_vcmpsd_xxoi. row_len. }
row. { unfold i_vcmpngt_uqss_xo, i_vcmpngt_uqss_xxo, i_vcmpss_xxoi. row_len. }
row. { unfold i_vcmpngtpd_xo, i_vcmpngtpd_xxo, i_vcmppd_xxoi. row_len. }
row. { unfold i_vcmpngtps_xo, i_vcmpngtps_xxo, i_vcmpps_xxoi. row_len. }
row. { unfold i_vcmpngtsd_xo, i_vcmpngtsd_xxo, i_vcmpsd_xxoi. row_len. }
row. { unfold i_vcmpngtss_xo, i_vcmpngtss_xxo, i_vcmpss_xxoi. row_len. }
row. { unfold i_vcmpnle_uqpd_xo, i_vcmpnle_uqpd_xxo, i_vcmppd_xxoi. row_len. }
row. { unfold i_vcmpnle_uqps_xo, i_vcmpnle_uqps_xxo, i_vcmpps_xxoi. row_len. }
row. { unfold i_vcmpnle_uqsd_xo, i_vcmpnle_uqsd_xxo, i_vcmpsd_xxoi. row_len. }
row. { unfold i_vcmpnle_uqss_xo, i_vcmpnle_uqss_xxo, i_vcmpss_xxoi. row_len. }
row. { unfold i_vcmpnlepd_xo, i_vcmpnlepd_xxo, i_vcmppd_xxoi. row_len. }
row. { unfold i_vcmpnleps_xo, i_vcmpnleps_xxo, i_vcmpps_xxoi. row_len. }
row. { unfold i_vcmpnlesd_xo, i_vcmpnlesd_xxo, i_vcmpsd_xxoi. row_len. }
row. { unfold i_vcmpnless_xo, i_vcmpnless_xxo, i_vcmpss_xxoi. row_len. }
row. { unfold i_vcmpnlt_uqpd_xo, i_vcmpnlt_uqpd_xxo, i_vcmppd_xxoi. row_len. }
row. { unfold i_vcmpnlt_uqps_xo, i_vcmpnlt_uqps_xxo, i_vcmpps_xxoi. row_len. }
row. { unfold i_vcmpnlt_uqsd_xo, i_vcmpnlt_uqsd_xxo, i_vcmpsd_xxoi. row_len. }
row. { unfold i_vcmpnlt_uqss_xo, i_vcmpnlt_uqss_xxo, i_vcmpss_xxoi. row_len. }
row. { unfold i_vcmpnltpd_xo, i_vcmpnltpd_xxo, i_vcmppd_xxoi. row_len. }
row. { unfold i_vcmpnltps_xo, i_vcmpnltps_xxo, i_vcmpps_xxoi. row_len. }
apply Forall_nil. Qed.
Definition lens94 : list len_entry :=
  [mkLen "vcmpnltsd_xo" (fun v => let (o, a, r, n, e, j, l, s) := v in i_vcmpnltsd_xo (r 0) (o 1));
   mkLen "vcmpnltss_xo" (fun v => let (o, a, r, n, e, j, l, s) := v in i_vcmpnltss_xo (r 0) (o 1));
   mkLen "vcmpord_spd_xo" (fun v => let (o, a, r, n, e, j, l, s) := v in i_vcmpord_spd_xo (r 0) (o 1));
   mkLen "vcmpord_sps_xo" (fun v => let (o, a, r, n, e, j, l, s) := v in i_vcmpord_sps_xo (r 0) (o 1));
   mkLen "vcmpord_ssd_xo" (fun v => let (o, a, r, n, e, j, l, s) := v in i_vcmpord_ssd_xo (r 0) (o 1));
   mkLen "vcmpord_sss_xo" (fun v => let (o, a, r, n, e, j, l, s) := v in i_vcmpord_sss_xo (r 0) (o 1));
   mkLen "vcmpordpd_xo" (fun v => let (o, a, r, n, e, j, l, s) := v in i_vcmpordpd_xo (r 0) (o 1));
   mkLen "vcmpordps_xo" (fun v => let (o, a, r, n, e, j, l, s) := v in i_vcmpordps_xo (r 0) (o 1));
   mkLen "vcmpordsd_xo" (fun v => let (o, a, r, n, e, j, l, s) := v in i_vcmpordsd_xo (r 0) (o 1));
   mkLen "vcmpordss_xo" (fun v => let (o, a, r, n, e, j, l, s) := v in i_vcmpordss_xo (r 0) (o 1));
   mkLen "vcmppd_xoi" (fun v => let (o, a, r, n, e, j, l, s) := v in i_vcmppd_xoi (r 0) (o 1) (n 2));
   mkLen "vcmpps_xoi" (fun v => let (o, a, r, n, e, j, l, s) := v in i_vcmpps_xoi (r 0) (o 1) (n 2));
   mkLen "vcmpsd_xoi" (fun v => let (o, a, r, n, e, j, l, s) := v in i_vcmpsd_xoi (r 0) (o 1) (n 2));
   mkLen "vcmpss_xoi" (fun v => let (o, a, r, n, e, j, l, s) := v in i_vcmpss_xoi (r 0) (o 1) (n 2));
   mkLen "vcmptrue_uspd_xo" (fun v => let (o, a, r, n, e, j, l, s) := v in i_vcmptrue_uspd_xo (r 0) (o 1));
   mkLen "vcmptrue_usps_xo" (fun v => let (o, a, r, n, e, j, l, s) := v in i_vcmptrue_usps_xo (r 0) (o 1));
   mkLen "vcmptrue_ussd_xo" (fun v => let (o, a, r, n, e, j, l, s) := v in i_vcmptrue_ussd_xo (r 0) (o 1));
   mkLen "vcmptrue_usss_xo" (fun v => let (o, a, r, n, e, j, l, s) := v in i_vcmptrue_usss_xo (r 0) (o 1));
   mkLen "vcmptruepd_xo" (fun v => let (o, a, r, n, e, j, l, s) := v in i_vcmptruepd_xo (r 0) (o 1));
   mkLen "vcmptrueps_xo" (fun v => let (o, a, r, n, e, j, l, s) := v in i_vcmptrueps_xo (r 0) (o 1));
   mkLen "vcmptruesd_xo" (fun v => let (o, a, r, n, e, j, l, s) := v in i_vcmptruesd_xo (r 0) (o 1));
   mkLen "vcmptruess_xo" (fun v => let (o, a, r, n, e, j, l, s) := v in i_vcmptruess_xo (r 0) (o 1));
   mkLen "vcmpunord_spd_xo" (fun v => let (o, a, r, n, e, j, l, s) := v in i_vcmpunord_spd_xo (r 0) (o 1));
   mkLen "vcmpunord_sps_xo" (fun v => let (o, a, r, n, e, j, l, s) := v in i_vcmpunord_sps_xo (r 0) (o 1));
   mkLen "vcmpunord_ssd_xo" (fun v => let (o, a, r, n, e, j, l, s) := v in i_vcmpunord_ssd_xo (r 0) (o 1))].
Lemma lens94_ok : Forall entry_within lens94.
Proof. unfold lens94.
row. { unfold i_vcmpnltsd_xo, i_vcmpnltsd_xxo, i_vcmpsd_xxoi. row_len. }
row. { unfold i_vcmpnltss_xo, i_vcmpnltss_xxo, i_vcmpss_xxoi. row_len. }
row. { unfold i_vcmpord_spd_xo, i_vcmpord_spd_xxo, i_vcmppd_xxoi. row_len. }
row. { unfold i_vcmpord_sps_xo, i_vcmpord_sps_xxo, i_vcmpps_xxoi. row_len. }
row. { unfold i_vcmpord_ssd_xo, i_vcmpord_ssd_xxo, i_vcmpsd_xxoi. row_len. }
row. { unfold i_vcmpord_sss_xo, i_vcmpord_sss_xxo, i_vcmpss_xxoi. row_len. }
row. { unfold i_vcmpordpd_xo, i_vcmpordpd_xxo, i_vcmppd_xxoi. row_len. }
row. { unfold i_vcmpordps_xo, i_vcmpordps_xxo, i_vcmpps_xxoi. row_len. }
row. { unfold i_vcmpordsd_xo, i_vcmpordsd_xxo, i_vcmpsd_xxoi. row_len. }
row. { unfold i_vcmpordss_xo, i_vcmpordss_xxo, i_vcmpss_xxoi. row_len. }
row. { unfold i_vcmppd_xoi, i_vcmppd_xxoi. row_len. }
row. { unfold i_vcmpps_xoi, i_vcmpps_xxoi. row_len. }
row. { unfold i_vcmpsd_xoi, i_vcmpsd_xxoi. row_len. }
row. { unfold i_vcmpss_xoi, i_vcmpss_xxoi. row_len. }
row. { unfold i_vcmptrue_uspd_xo, i_vcmptrue_uspd_xxo, i_vcmppd_xxoi. row_len. }
row. { unfold i_vcmptrue_usps_xo, i_vcmptrue_usps_xxo, i_vcmpps_xxoi. row_len. }
row. { unfold i_vcmptrue_ussd_xo, i_vcmptrue_ussd_xxo, i_vcmpsd_xxoi. row_len. }
row. { unfold i_vcmptrue_usss_xo, i_vcmptrue_usss_xxo, i_vcmpss_xxoi. row_len. }
row. { unfold i_vcmptruepd_xo, i_vcmptruepd_xxo, i_vcmppd_xxoi. row_len. }
row. { unfold i_vcmptrueps_xo, i_vcmptrueps_xxo, i_vcmpps_xxoi. row_len. }
row. { unfold i_vcmptruesd_xo, i_vcmptruesd_xxo, i_vcmpsd_xxoi. row_len. }
row. { unfold i_vcmptruess_xo, i_vcmptruess_xxo, i_vcmpss_xxoi. row_len. }
row. { unfold i_vcmpunord_spd_xo, i_vcmpunord_spd_xxo, i_vcmppd_xxoi. row_len. }
row. { unfold i_vcmpunord_sps_xo, i_vcmpunord_sps_xxo, i_vcmpps_xxoi. row_len. }
row. { unfold i_vcmpunord_ssd_xo, i_vcmpunord_ssd_xxo, i_vcmpsd_xxoi. row_len. }
apply Forall_nil. Qed.
Definition lens95 : list len_entry :=
  [mkLen "vcmpunord_sss_xo" (fun v => let (o, a, r, n, e, j, l, s) := v in i_vcmpunord_sss_xo (r 0) (o 1));
   mkLen "vcmpunordpd_xo" (fun v => let (o, a, r, n, e, j, l, s) := v in i_vcmpunordpd_xo (r 0) (o 1));
   mkLen "vcmpunordps_xo" (fun v => let (o, a, r, n, e, j, l, s) := v in i_vcmpunordps_xo (r 0) (o 1));
   mkLen "vcmpunordsd_xo" (fun v => let (o, a, r, n, e, j, l, s) := v in i_vcmpunordsd_xo (r 0) (o 1));
   mkLen "vcmpunordss_xo" (fun v => let (o, a, r, n, e, j, l, s) := v in i_vcmpunordss_xo (r 0) (o 1));
   mkLen "vcvtsd2ss_xo" (fun v => let (o, a, r, n, e, j, l, s) := v in i_vcvtsd2ss_xo (r 0) (o 1));
   mkLen "vcvtsi2sd_xo" (fun v => let (o, a, r, n, e, j, l, s) := v in i_vcvtsi2sd_xo (r 0) (o 1));
   mkLen "vcvtsi2ss_xo" (fun v => let (o, a, r, n, e, j, l, s) := v in i_vcvtsi2ss_xo (r 0) (o 1));
   mkLen "vcvtss2sd_xo" (fun v => let (o, a, r, n, e, j, l, s) := v in i_vcvtss2sd_xo (r 0) (o 1));
   mkLen "vdppd_xoi" (fun v => let (o, a, r, n, e, j, l, s) := v in i_vdppd_xoi (r 0) (o 1) (n 2));
   mkLen "vdpps_xoi" (fun v => let (o, a, r, n, e, j, l, s) := v in i_vdpps_xoi (r 0) (o 1) (n 2));
   mkLen "vinsertps_xoi" (fun v => let (o, a, r, n, e, j, l, s) := v in i_vinsertps_xoi (r 0) (o 1) (n 2));
   mkLen "vmpsadbw_xoi" (fun v => let (o, a, r, n, e, j, l, s) := v in i_vmpsadbw_xoi (r 0) (o 1) (n 2));
   mkLen "vpackssdw_xo" (fun v => let (o, a, r, n, e, j, l, s) := v in i_vpackssdw_xo (r 0) (o 1));
   mkLen "vpacksswb_xo" (fun v => let (o, a, r, n, e, j, l, s) := v in i_vpacksswb_xo (r 0) (o 1));
   mkLen "vpackusdw_xo" (fun v => let (o, a, r, n, e, j, l, s) := v in i_vpackusdw_xo (r 0) (o 1));
   mkLen "vpackuswb_xo" (fun v => let (o, a, r, n, e, j, l, s) := v in i_vpackuswb_xo (r 0) (o 1));
   mkLen "vpaddb_xo" (fun v => let (o, a, r, n, e, j, l, s) := v in i_vpaddb_xo (r 0) (o 1));
   mkLen "vpaddd_xo" (fun v => let (o, a, r, n, e, j, l, s) := v in i_vpaddd_xo (r 0) (o 1));
   mkLen "vpaddq_xo" (fun v => let (o, a, r, n, e, j, l, s) := v in i_vpaddq_xo (r 0) (o 1));
   mkLen "vpaddsb_xo" (fun v => let (o, a, r, n, e, j, l, s) := v in i_vpaddsb_xo (r 0) (o 1));
   mkLen "vpaddsw_xo" (fun v => let (o, a, r, n, e, j, l, s) := v in i_vpaddsw_xo (r 0) (o 1));
   mkLen "vpaddusb_xo" (fun v => let (o, a, r, n, e, j, l, s) := v in i_vpaddusb_xo (r 0) (o 1));
   mkLen "vpaddusw_xo" (fun v => let (o, a, r, n, e, j, l, s) := v in i_vpaddusw_xo (r 0) (o 1));
   mkLen "vpaddw_xo" (fun v => let (o, a, r, n, e, j, l, s) := v in i_vpaddw_xo (r 0) (o 1))].
Lemma lens95_ok : Forall entry_within lens95.
Proof. unfold lens95.
row. { unfold i_vcmpunord_sss_xo, i_vcmpunord_sss_xxo, i_vcmpss_xxoi. row_len. }
row. { unfold i_vcmpunordpd_xo, i_vcmpunordpd_xxo, i_vcmppd_xxoi. row_len. }
row. { unfold i_vcmpunordps_xo, i_vcmpunordps_xxo, i_vcmpps_xxoi. row_len. }
row. { unfold i_vcmpunordsd_xo, i_vcmpunordsd_xxo, i_vcmpsd_xxoi. row_len. }
row. { unfold i_vcmpunordss_xo, i_vcmpunordss_xxo, i_vcmpss_xxoi. row_len. }
row. { unfold i_vcvtsd2ss_xo, i_vcvtsd2ss_xxo. row_len. }
row. { unfold i_vcvtsi2sd_xo, i_vcvtsi2sd_xxo. row_len. }
row. { unfold i_vcvtsi2ss_xo, i_vcvtsi2ss_xxo. row_len. }
row. { unfold i_vcvtss2sd_xo, i_vcvtss2sd_xxo. row_len. }
row. { unfold i_vdppd_xoi, i_vdppd_xxoi. row_len. }
row. { unfold i_vdpps_xoi, i_vdpps_xxoi. row_len. }
row. { unfold i_vinsertps_xoi, i_vinsertps_xxoi. row_len. }
row. { unfold i_vmpsadbw_xoi, i_vmpsadbw_xxoip. row_len. }
row. { unfold i_vpackssdw_xo, i_vpackssdw_xxo. row_len. }
row. { unfold i_vpacksswb_xo, i_vpacksswb_xxo. row_len. }
row. { unfold i_vpackusdw_xo, i_vpackusdw_xxo. row_len. }
row. { unfold i_vpackuswb_xo, i_vpackuswb_xxo. row_len. }
row. { unfold i_vpaddb_xo, i_vpaddb_xxo. row_len. }
row. { unfold i_vpaddd_xo, i_vpaddd_xxo. row_len. }
row. { unfold i_vpaddq_xo, i_vpaddq_xxo. row_len. }
row. { unfold i_vpaddsb_xo, i_vpaddsb_xxo. row_len. }
row. { unfold i_vpaddsw_xo, i_vpaddsw_xxo. row_len. }
row. { unfold i_vpaddusb_xo, i_vpaddusb_xxo. row_len. }
row. { unfold i_vpaddusw_xo, i_vpaddusw_xxo. row_len. }
row. { unfold i_vpaddw_xo, i_vpaddw_xxo. row_len. }
apply Forall_nil. Qed.
Definition lens96 : list len_entry :=
  [mkLen "vpalignr_xoi" (fun v => let (o, a, r, n, e, j, l, s) := v in i_vpalignr_xoi (r 0) (o 1) (n 2));
   mkLen "vpand_xo" (fun v => let (o, a, r, n, e, j, l, s) := v in i_vpand_xo (r 0) (o 1));
   mkLen "vpandn_xo" (fun v => let (o, a, r, n, e, j, l, s) := v in i_vpandn_xo (r 0) (o 1));
   mkLen "vpavgb_xo" (fun v => let (o, a, r, n, e, j, l, s) := v in i_vpavgb_xo (r 0) (o 1));
   mkLen "vpavgw_xo" (fun v => let (o, a, r, n, e, j, l, s) := v in i_vpavgw_xo (r 0) (o 1));
   mkLen "vpblendd_xoi" (fun v => let (o, a, r, n, e, j, l, s) := v in i_vpblendd_xoi (r 0) (o 1) (n 2));
   mkLen "vpblendvb_xox" (fun v => let (o, a, r, n, e, j, l, s) := v in i_vpblendvb_xox (r 0) (o 1) (r 2));
   mkLen "vpblendw_xoi" (fun v => let (o, a, r, n, e, j, l, s) := v in i_vpblendw_xoi (r 0) (o 1) (n 2));
   mkLen "vpclmulqdq_xoi" (fun v => let (o, a, r, n, e, j, l, s) := v in i_vpclmulqdq_xoi (r 0) (o 1) (n 2));
   mkLen "vpcmpeqb_xo" (fun v => let (o, a, r, n, e, j, l, s) := v in i_vpcmpeqb_xo (r 0) (o 1));
   mkLen "vpcmpeqd_xo" (fun v => let (o, a, r, n, e, j, l, s) := v in i_vpcmpeqd_xo (r 0) (o 1));
   mkLen "vpcmpeqq_xo" (fun v => let (o, a, r, n, e, j, l, s) := v in i_vpcmpeqq_xo (r 0) (o 1));
   mkLen "vpcmpeqw_xo" (fun v => let (o, a, r, n, e, j, l, s) := v in i_vpcmpeqw_xo (r 0) (o 1));
   mkLen "vpcmpgtb_xo" (fun v => let (o, a, r, n, e, j, l, s) := v in i_vpcmpgtb_xo (r 0) (o 1));
   mkLen "vpcmpgtd_xo" (fun v => let (o, a, r, n, e, j, l, s) := v in i_vpcmpgtd_xo (r 0) (o 1));
   mkLen "vpcmpgtq_xo" (fun v => let (o, a, r, n, e, j, l, s) := v in i_vpcmpgtq_xo (r 0) (o 1));
   mkLen "vpcmpgtw_xo" (fun v => let (o, a, r, n, e, j, l, s) := v in i_vpcmpgtw_xo (r 0) (o 1));
   mkLen "vphaddd_xo" (fun v => let (o, a, r, n, e, j, l, s) := v in i_vphaddd_xo (r 0) (o 1));
   mkLen "vphaddsw_xo" (fun v => let (o, a, r, n, e, j, l, s) := v in i_vphaddsw_xo (r 0) (o 1));
   mkLen "vphaddw_xo" (fun v => let (o, a, r, n, e, j, l, s) := v in i_vphaddw_xo (r 0) (o 1));
   mkLen "vphsubd_xo" (fun v => let (o, a, r, n, e, j, l, s) := v in i_vphsubd_xo (r 0) (o 1));
   mkLen "vphsubsw_xo" (fun v => let (o, a, r, n, e, j, l, s) := v in i_vphsubsw_xo (r 0) (o 1));
   mkLen "vphsubw_xo" (fun v => let (o, a, r, n, e, j, l, s) := v in i_vphsubw_xo (r 0) (o 1));
   mkLen "vpinsrb_xoi" (fun v => let (o, a, r, n, e, j, l, s) := v in i_vpinsrb_xoi (r 0) (o 1) (n 2));
   mkLen "vpinsrd_xoi" (fun v => let (o, a, r, n, e, j, l, s) := v in i_vpinsrd_xoi (r 0) (o 1) (n 2))].
Lemma lens96_ok : Forall entry_within lens96.
Proof. unfold lens96.
row. { unfold i_vpalignr_xoi, i_vpalignr_xxoi. row_len. }
row. { unfold i_vpand_xo, i_vpand_xxo. row_len. }
row. { unfold i_vpandn_xo, i_vpandn_xxo. row_len. }
row. { unfold i_vpavgb_xo, i_vpavgb_xxo. row_len. }
row. { unfold i_vpavgw_xo, i_vpavgw_xxo. row_len. }
row. { unfold i_vpblendd_xoi, i_vpblendd_xxoi. row_len. }
row. { unfold i_vpblendvb_xox, i_vpblendvb_xxox. row_len. }
row. { unfold i_vpblendw_xoi, i_vpblendw_xxoi. row_len. }
row. { unfold i_vpclmulqdq_xoi, i_vpclmulqdq_xxoi. row_len. }
row. { unfold i_vpcmpeqb_xo, i_vpcmpeqb_xxo. row_len. }
row. { unfold i_vpcmpeqd_xo, i_vpcmpeqd_xxo. row_len. }
row. { unfold i_vpcmpeqq_xo, i_vpcmpeqq_xxo. row_len. }
row. { unfold i_vpcmpeqw_xo, i_vpcmpeqw_xxo. row_len. }
row. { unfold i_vpcmpgtb_xo, i_vpcmpgtb_xxo. row_len. }
row. { unfold i_vpcmpgtd_xo, i_vpcmpgtd_xxo. row_len. }
row. { unfold i_vpcmpgtq_xo, i_vpcmpgtq_xxo. row_len. }
row. { unfold i_vpcmpgtw_xo, i_vpcmpgtw_xxo. row_len. }
row. { unfold i_vphaddd_xo, i_vphaddd_xxo. row_len. }
row. { unfold i_vphaddsw_xo, i_vphaddsw_xxo. row_len. }
row. { unfold i_vphaddw_xo, i_vphaddw_xxo. row_len. }
row. { unfold i_vphsubd_xo, i_vphsubd_xxo. row_len. }
row. { unfold i_vphsubsw_xo, i_vphsubsw_xxo. row_len. }
row. { unfold i_vphsubw_xo, i_vphsubw_xxo. row_len. }
row. { unfold i_vpinsrb_xoi, i_vpinsrb_xxoi. row_len. }
row. { unfold i_vpinsrd_xoi, i_vpinsrd_xxoi. row_len. }
apply Forall_nil. Qed.
Definition lens97 : list len_entry :=
  [mkLen "vpinsrq_xoi" (fun v => let (o, a, r, n, e, j, l, s) := v in i_vpinsrq_xoi (r 0) (o 1) (n 2));
   mkLen "vpinsrw_xoi" (fun v => let (o, a, r, n, e, j, l, s) := v in i_vpinsrw_xoi (r 0) (o 1) (n 2));
   mkLen "vpmaddubsw_xo" (fun v => let (o, a, r, n, e, j, l, s) := v in i_vpmaddubsw_xo (r 0) (o 1));
   mkLen "vpmaddwd_xo" (fun v => let (o, a, r, n, e, j, l, s) := v in i_vpmaddwd_xo (r 0) (o 1));
   mkLen "vpmaxsb_xo" (fun v => let (o, a, r, n, e, j, l, s) := v in i_vpmaxsb_xo (r 0) (o 1));
   mkLen "vpmaxsd_xo" (fun v => let (o, a, r, n, e, j, l, s) := v in i_vpmaxsd_xo (r 0) (o 1));
   mkLen "vpmaxsw_xo" (fun v => let (o, a, r, n, e, j, l, s) := v in i_vpmaxsw_xo (r 0) (o 1));
   mkLen "vpmaxub_xo" (fun v => let (o, a, r, n, e, j, l, s) := v in i_vpmaxub_xo (r 0) (o 1));
   mkLen "vpmaxud_xo" (fun v => let (o, a, r, n, e, j, l, s) := v in i_vpmaxud_xo (r 0) (o 1));
   mkLen "vpmaxuw_xo" (fun v => let (o, a, r, n, e, j, l, s) := v in i_vpmaxuw_xo (r 0) (o 1));
   mkLen "vpminsb_xo" (fun v => let (o, a, r, n, e, j, l, s) := v in i_vpminsb_xo (r 0) (o 1));
   mkLen "vpminsd_xo" (fun v => let (o, a, r, n, e, j, l, s) := v in i_vpminsd_xo (r 0) (o 1));
   mkLen "vpminsw_xo" (fun v => let (o, a, r, n, e, j, l, s) := v in i_vpminsw_xo (r 0) (o 1));
   mkLen "vpminub_xo" (fun v => let (o, a, r, n, e, j, l, s) := v in i_vpminub_xo (r 0) (o 1));
   mkLen "vpminud_xo" (fun v => let (o, a, r, n, e, j, l, s) := v in i_vpminud_xo (r 0) (o 1));
   mkLen "vpminuw_xo" (fun v => let (o, a, r, n, e, j, l, s) := v in i_vpminuw_xo (r 0) (o 1));
   mkLen "vpmuldq_xo" (fun v => let (o, a, r, n, e, j, l, s) := v in i_vpmuldq_xo (r 0) (o 1));
   mkLen "vpmulhrsw_xo" (fun v => let (o, a, r, n, e, j, l, s) := v in i_vpmulhrsw_xo (r 0) (o 1));
   mkLen "vpmulhuw_xo" (fun v => let (o, a, r, n, e, j, l, s) := v in i_vpmulhuw_xo (r 0) (o 1));
   mkLen "vpmulhw_xo" (fun v => let (o, a, r, n, e, j, l, s) := v in i_vpmulhw_xo (r 0) (o 1));
   mkLen "vpmulld_xo" (fun v => let (o, a, r, n, e, j, l, s) := v in i_vpmulld_xo (r 0) (o 1));
   mkLen "vpmullw_xo" (fun v => let (o, a, r, n, e, j, l, s) := v in i_vpmullw_xo (r 0) (o 1));
   mkLen "vpmuludq_xo" (fun v => let (o, a, r, n, e, j, l, s) := v in i_vpmuludq_xo (r 0) (o 1));
   mkLen "vpor_xo" (fun v => let (o, a, r, n, e, j, l, s) := v in i_vpor_xo (r 0) (o 1));
   mkLen "vpsadbw_xo" (fun v => let (o, a, r, n, e, j, l, s) := v in i_vpsadbw_xo (r 0) (o 1))].
Lemma lens97_ok : Forall entry_within lens97.
Proof. unfold lens97.
row. { unfold i_vpinsrq_xoi, i_vpinsrq_xxoi. row_len. }
row. { unfold i_vpinsrw_xoi, i_vpinsrw_xxoi. row_len. }
row. { unfold i_vpmaddubsw_xo, i_vpmaddubsw_xxo. row_len. }
row. { unfold i_vpmaddwd_xo, i_vpmaddwd_xxo. row_len. }
row. { unfold i_vpmaxsb_xo, i_vpmaxsb_xxo. row_len. }
row. { unfold i_vpmaxsd_xo, i_vpmaxsd_xxo. row_len. }
row. { unfold i_vpmaxsw_xo, i_vpmaxsw_xxo. row_len. }
row. { unfold i_vpmaxub_xo, i_vpmaxub_xxo. row_len. }
row. { unfold i_vpmaxud_xo, i_vpmaxud_xxo. row_len. }
row. { unfold i_vpmaxuw_xo, i_vpmaxuw_xxo. row_len. }
row. { unfold i_vpminsb_xo, i_vpminsb_xxo. row_len. }
row. { unfold i_vpminsd_xo, i_vpminsd_xxo. row_len. }
row. { unfold i_vpminsw_xo, i_vpminsw_xxo. row_len. }
row. { unfold i_vpminub_xo, i_vpminub_xxo. row_len. }
row. { unfold i_vpminud_xo, i_vpminud_xxo. row_len. }
row. { unfold i_vpminuw_xo, i_vpminuw_xxo. row_len. }
row. { unfold i_vpmuldq_xo, i_vpmuldq_xxo. row_len. }
row. { unfold i_vpmulhrsw_xo, i_vpmulhrsw_xxo. row_len. }
row. { unfold i_vpmulhuw_xo, i_vpmulhuw_xxo. row_len. }
row. { unfold i_vpmulhw_xo, i_vpmulhw_xxo. row_len. }
row. { unfold i_vpmulld_xo, i_vpmulld_xxo. row_len. }
row. { unfold i_vpmullw_xo, i_vpmullw_xxo. row_len. }
row. { unfold i_vpmuludq_xo, i_vpmuludq_xxo. row_len. }
row. { unfold i_vpor_xo, i_vpor_xxo. row_len. }
row. { unfold i_vpsadbw_xo, i_vpsadbw_xxo. row_len. }
apply Forall_nil. Qed.
Definition lens98 : list len_entry :=
  [mkLen "vpsignb_xo" (fun v => let (o, a, r, n, e, j, l, s) := v in i_vpsignb_xo (r 0) (o 1));
   mkLen "vpsignd_xo" (fun v => let (o, a, r, n, e, j, l, s) := v in i_vpsignd_xo (r 0) (o 1));
   mkLen "vpsignw_xo" (fun v => let (o, a, r, n, e, j, l, s) := v in i_vpsignw_xo (r 0) (o 1));
   mkLen "vpslld_xo" (fun v => let (o, a, r, n, e, j, l, s) := v in i_vpslld_xo (r 0) (o 1));
   mkLen "vpslld_xi" (fun v => let (o, a, r, n, e, j, l, s) := v in i_vpslld_xi (r 0) (n 1));
   mkLen "vpslldq_xi" (fun v => let (o, a, r, n, e, j, l, s) := v in i_vpslldq_xi (r 0) (n 1));
   mkLen "vpsllq_xo" (fun v => let (o, a, r, n, e, j, l, s) := v in i_vpsllq_xo (r 0) (o 1));
   mkLen "vpsllq_xi" (fun v => let (o, a, r, n, e, j, l, s) := v in i_vpsllq_xi (r 0) (n 1));
   mkLen "vpsllw_xo" (fun v => let (o, a, r, n, e, j, l, s) := v in i_vpsllw_xo (r 0) (o 1));
   mkLen "vpsllw_xi" (fun v => let (o, a, r, n, e, j, l, s) := v in i_vpsllw_xi (r 0) (n 1));
   mkLen "vpsrad_xo" (fun v => let (o, a, r, n, e, j, l, s) := v in i_vpsrad_xo (r 0) (o 1));
   mkLen "vpsrad_xi" (fun v => let (o, a, r, n, e, j, l, s) := v in i_vpsrad_xi (r 0) (n 1));
   mkLen "vpsraw_xo" (fun v => let (o, a, r, n, e, j, l, s) := v in i_vpsraw_xo (r 0) (o 1));
   mkLen "vpsraw_xi" (fun v => let (o, a, r, n, e, j, l, s) := v in i_vpsraw_xi (r 0) (n 1));
   mkLen "vpsrld_xo" (fun v => let (o, a, r, n, e, j, l, s) := v in i_vpsrld_xo (r 0) (o 1));
   mkLen "vpsrld_xi" (fun v => let (o, a, r, n, e, j, l, s) := v in i_vpsrld_xi (r 0) (n 1));
   mkLen "vpsrldq_xi" (fun v => let (o, a, r, n, e, j, l, s) := v in i_vpsrldq_xi (r 0) (n 1));
   mkLen "vpsrlq_xo" (fun v => let (o, a, r, n, e, j, l, s) := v in i_vpsrlq_xo (r 0) (o 1));
   mkLen "vpsrlq_xi" (fun v => let (o, a, r, n, e, j, l, s) := v in i_vpsrlq_xi (r 0) (n 1));
   mkLen "vpsrlw_xo" (fun v => let (o, a, r, n, e, j, l, s) := v in i_vpsrlw_xo (r 0) (o 1));
   mkLen "vpsrlw_xi" (fun v => let (o, a, r, n, e, j, l, s) := v in i_vpsrlw_xi (r 0) (n 1));
   mkLen "vpsubb_xo" (fun v => let (o, a, r, n, e, j, l, s) := v in i_vpsubb_xo (r 0) (o 1));
   mkLen "vpsubd_xo" (fun v => let (o, a, r, n, e, j, l, s) := v in i_vpsubd_xo (r 0) (o 1));
   mkLen "vpsubq_xo" (fun v => let (o, a, r, n, e, j, l, s) := v in i_vpsubq_xo (r 0) (o 1));
   mkLen "vpsubsb_xo" (fun v => let (o, a, r, n, e, j, l, s) := v in i_vpsubsb_xo (r 0) (o 1))].
Lemma lens98_ok : Forall entry_within lens98.
Proof. unfold lens98.
row. { unfold i_vpsignb_xo, i_vpsignb_xxo. row_len. }
row. { unfold i_vpsignd_xo, i_vpsignd_xxo. row_len. }
row. { unfold i_vpsignw_xo, i_vpsignw_xxo. row_len. }
row. { unfold i_vpslld_xo, i_vpslld_xxo. row_len. }
row. { unfold i_vpslld_xi, i_vpslld_xoi. row_len. }
row. { unfold i_vpslldq_xi, i_vpslldq_xoi. row_len. }
row. { unfold i_vpsllq_xo, i_vpsllq_xxo. row_len. }
row. { unfold i_vpsllq_xi, i_vpsllq_xoi. row_len. }
row. { unfold i_vpsllw_xo, i_vpsllw_xxo. row_len. }
row. { unfold i_vpsllw_xi, i_vpsllw_xoi. row_len. }
row. { unfold i_vpsrad_xo, i_vpsrad_xxo. row_len. }
row. { unfold i_vpsrad_xi, i_vpsrad_xoi. row_len. }
row. { unfold i_vpsraw_xo, i_vpsraw_xxo. row_len. }
row. { unfold i_vpsraw_xi, i_vpsraw_xoi. row_len. }
row. { unfold i_vpsrld_xo, i_vpsrld_xxo. row_len. }
row. { unfold i_vpsrld_xi, i_vpsrld_xoi. row_len. }
row. { unfold i_vpsrldq_xi, i_vpsrldq_xoi. row_len. }
row. { unfold i_vpsrlq_xo, i_vpsrlq_xxo. row_len. }
row. { unfold i_vpsrlq_xi, i_vpsrlq_xoi. row_len. }
row. { unfold i_vpsrlw_xo, i_vpsrlw_xxo. row_len. }
row. { unfold i_vpsrlw_xi, i_vpsrlw_xoi. row_len. }
row. { unfold i_vpsubb_xo, i_vpsubb_xxo. row_len. }
row. { unfold i_vpsubd_xo, i_vpsubd_xxo. row_len. }
row. { unfold i_vpsubq_xo, i_vpsubq_xxo. row_len. }
row. { unfold i_vpsubsb_xo, i_vpsubsb_xxo. row_len. }
apply Forall_nil. Qed.
Definition lens99 : list len_entry :=
  [mkLen "vpsubsw_xo" (fun v => let (o, a, r, n, e, j, l, s) := v in i_vpsubsw_xo (r 0) (o 1));
   mkLen "vpsubusb_xo" (fun v => let (o, a, r, n, e, j, l, s) := v in i_vpsubusb_xo (r 0) (o 1));
   mkLen "vpsubusw_xo" (fun v => let (o, a, r, n, e, j, l, s) := v in i_vpsubusw_xo (r 0) (o 1));
   mkLen "vpsubw_xo" (fun v => let (o, a, r, n, e, j, l, s) := v in i_vpsubw_xo (r 0) (o 1));
   mkLen "vpunpckhbw_xo" (fun v => let (o, a, r, n, e, j, l, s) := v in i_vpunpckhbw_xo (r 0) (o 1));
   mkLen "vpunpckhdq_xo" (fun v => let (o, a, r, n, e, j, l, s) := v in i_vpunpckhdq_xo (r 0) (o 1));
   mkLen "vpunpckhqdq_xo" (fun v => let (o, a, r, n, e, j, l, s) := v in i_vpunpckhqdq_xo (r 0) (o 1));
   mkLen "vpunpckhwd_xo" (fun v => let (o, a, r, n, e, j, l, s) := v in i_vpunpckhwd_xo (r 0) (o 1));
   mkLen "vpunpcklbw_xo" (fun v => let (o, a, r, n, e, j, l, s) := v in i_vpunpcklbw_xo (r 0) (o 1));
   mkLen "vpunpckldq_xo" (fun v => let (o, a, r, n, e, j, l, s) := v in i_vpunpckldq_xo (r 0) (o 1));
   mkLen "vpunpcklqdq_xo" (fun v => let (o, a, r, n, e, j, l, s) := v in i_vpunpcklqdq_xo (r 0) (o 1));
   mkLen "vpunpcklwd_xo" (fun v => let (o, a, r, n, e, j, l, s) := v in i_vpunpcklwd_xo (r 0) (o 1));
   mkLen "vpxor_xo" (fun v => let (o, a, r, n, e, j, l, s) := v in i_vpxor_xo (r 0) (o 1));
   mkLen "vrcpss_xo" (fun v => let (o, a, r, n, e, j, l, s) := v in i_vrcpss_xo (r 0) (o 1));
   mkLen "vroundsd_xoi" (fun v => let (o, a, r, n, e, j, l, s) := v in i_vroundsd_xoi (r 0) (o 1) (n 2));
   mkLen "vroundss_xoi" (fun v => let (o, a, r, n, e, j, l, s) := v in i_vroundss_xoi (r 0) (o 1) (n 2));
   mkLen "vrsqrtss_xo" (fun v => let (o, a, r, n, e, j, l, s) := v in i_vrsqrtss_xo (r 0) (o 1));
   mkLen "vshufpd_xoi" (fun v => let (o, a, r, n, e, j, l, s) := v in i_vshufpd_xoi (r 0) (o 1) (n 2));
   mkLen "vshufps_xoi" (fun v => let (o, a, r, n, e, j, l, s) := v in i_vshufps_xoi (r 0) (o 1) (n 2));
   mkLen "vsqrtsd_xo" (fun v => let (o, a, r, n, e, j, l, s) := v in i_vsqrtsd_xo (r 0) (o 1));
   mkLen "vsqrtss_xo" (fun v => let (o, a, r, n, e, j, l, s) := v in i_vsqrtss_xo (r 0) (o 1));
   mkLen "vunpckhpd_xo" (fun v => let (o, a, r, n, e, j, l, s) := v in i_vunpckhpd_xo (r 0) (o 1));
   mkLen "vunpckhps_xo" (fun v => let (o, a, r, n, e, j, l, s) := v in i_vunpckhps_xo (r 0) (o 1));
   mkLen "vunpcklpd_xo" (fun v => let (o, a, r, n, e, j, l, s) := v in i_vunpcklpd_xo (r 0) (o 1));
   mkLen "vunpcklps_xo" (fun v => let (o, a, r, n, e, j, l, s) := v in i_vunpcklps_xo (r 0) (o 1))].
Lemma lens99_ok : Forall entry_within lens99.
Proof. unfold lens99.
row. { unfold i_vpsubsw_xo, i_vpsubsw_xxo. row_len. }
row. { unfold i_vpsubusb_xo, i_vpsubusb_xxo. row_len. }
row. { unfold i_vpsubusw_xo, i_vpsubusw_xxo. row_len. }
row. { unfold i_vpsubw_xo, i_vpsubw_xxo. row_len. }
row. { unfold i_vpunpckhbw_xo, i_vpunpckhbw_xxo. row_len. }
row. { unfold i_vpunpckhdq_xo, i_vpunpckhdq_xxo. row_len. }
row. { unfold i_vpunpckhqdq_xo, i_vpunpckhqdq_xxo. row_len. }
row. { unfold i_vpunpckhwd_xo, i_vpunpckhwd_xxo. row_len. }
row. { unfold i_vpunpcklbw_xo, i_vpunpcklbw_xxo. row_len. }
row. { unfold i_vpunpckldq_xo, i_vpunpckldq_xxo. row_len. }
row. { unfold i_vpunpcklqdq_xo, i_vpunpcklqdq_xxo. row_len. }
row. { unfold i_vpunpcklwd_xo, i_vpunpcklwd_xxo. row_len. }
row. { unfold i_vpxor_xo, i_vpxor_xxo. row_len. }
row. { unfold i_vrcpss_xo, i_vrcpss_xxo. row_len. }
row. { unfold i_vroundsd_xoi, i_vroundsd_xxoi. row_len. }
row. { unfold i_vroundss_xoi, i_vroundss_xxoi. row_len. }
row. { unfold i_vrsqrtss_xo, i_vrsqrtss_xxo. row_len. }
row. { unfold i_vshufpd_xoi, i_vshufpd_xxoi. row_len. }
row. { unfold i_vshufps_xoi, i_vshufps_xxoi. row_len. }
row. { unfold i_vsqrtsd_xo, i_vsqrtsd_xxo. row_len. }
row. { unfold i_vsqrtss_xo, i_vsqrtss_xxo. row_len. }
row. { unfold i_vunpckhpd_xo, i_vunpckhpd_xxo. row_len. }
row. { unfold i_vunpckhps_xo, i_vunpckhps_xxo. row_len. }
row. { unfold i_vunpcklpd_xo, i_vunpcklpd_xxo. row_len. }
row. { unfold i_vunpcklps_xo, i_vunpcklps_xxo. row_len. }
apply Forall_nil. Qed.
Definition lens100 : list len_entry :=
  [mkLen "test_" (fun v => let (o, a, r, n, e, j, l, s) := v in test_ (o 0) (r 1));
   mkLen "test_imm" (fun v => let (o, a, r, n, e, j, l, s) := v in test_imm (o 0) (n 1));
   mkLen "imul_imm" (fun v => let (o, a, r, n, e, j, l, s) := v in imul_imm (r 0) (o 1) (n 2));
   mkLen "push_op" (fun v => let (o, a, r, n, e, j, l, s) := v in push_op (o 0));
   mkLen "pop_op" (fun v => let (o, a, r, n, e, j, l, s) := v in pop_op (o 0));
   mkLen "mov_oo" (fun v => let (o, a, r, n, e, j, l, s) := v in mov_oo (o 0) (o 1));
   mkLen "mov_oi" (fun v => let (o, a, r, n, e, j, l, s) := v in mov_oi (o 0) (n 1));
   mkLen "xchg" (fun v => let (o, a, r, n, e, j, l, s) := v in xchg (o 0) (o 1));
   mkLen "vmovd" (fun v => let (o, a, r, n, e, j, l, s) := v in vmovd (o 0) (o 1) e);
   mkLen "vmovw" (fun v => let (o, a, r, n, e, j, l, s) := v in vmovw (o 0) (o 1) e);
   mkLen "jmp_op" (fun v => let (o, a, r, n, e, j, l, s) := v in jmp_op (o 0) j);
   mkLen "call_op" (fun v => let (o, a, r, n, e, j, l, s) := v in call_op (o 0) j);
   mkLen "mov_o_seg" (fun v => let (o, a, r, n, e, j, l, s) := v in mov_o_seg (o 0) s);
   mkLen "mov_seg_o" (fun v => let (o, a, r, n, e, j, l, s) := v in mov_seg_o s (o 1));
   mkLen "push_imm" (fun v => let (o, a, r, n, e, j, l, s) := v in push_imm (n 0));
   mkLen "push_af" (fun v => let (o, a, r, n, e, j, l, s) := v in push_af (n 0) (n 1));
   mkLen "push_seg" (fun v => let (o, a, r, n, e, j, l, s) := v in push_seg s);
   mkLen "pop_seg" (fun v => let (o, a, r, n, e, j, l, s) := v in pop_seg s);
   mkLen "mov_label" (fun v => let (o, a, r, n, e, j, l, s) := v in mov_label (r 0) l);
   mkLen "bswap" (fun v => let (o, a, r, n, e, j, l, s) := v in bswap (r 0))].
Lemma lens100_ok : Forall entry_within lens100.
Proof. unfold lens100.
row. { unfold test_. row_len. }
row. { row_len. }
row. { row_len. }
row. { unfold push_op. row_len. }
row. { unfold pop_op. row_len. }
row. { row_len. }
row. { row_len. }
row. { row_len. }
row. { unfold vmovd. row_len. }
row. { unfold vmovw. row_len. }
row. { unfold jmp_op. row_len. }
row. { unfold call_op. row_len. }
row. { row_len. }
row. { row_len. }
row. { row_len. }
row. { row_len. }
row. { unfold push_seg. row_len. }
row. { unfold pop_seg. row_len. }
row. { row_len. }
row. { row_len. }
apply Forall_nil. Qed.

Definition len_methods : list len_entry :=
  lens0 ++ lens1 ++ lens2 ++ lens3 ++ lens4 ++ lens5 ++ lens6 ++ lens7 ++ lens8 ++ lens9 ++ lens10 ++ lens11 ++ lens12 ++ lens13 ++ lens14 ++ lens15 ++ lens16 ++ lens17 ++ lens18 ++ lens19 ++ lens20 ++ lens21 ++ lens22 ++ lens23 ++ lens24 ++ lens25 ++ lens26 ++ lens27 ++ lens28 ++ lens29 ++ lens30 ++ lens31 ++ lens32 ++ lens33 ++ lens34 ++ lens35 ++ lens36 ++ lens37 ++ lens38 ++ lens39 ++ lens40 ++ lens41 ++ lens42 ++ lens43 ++ lens44 ++ lens45 ++ lens46 ++ lens47 ++ lens48 ++ lens49 ++ lens50 ++ lens51 ++ lens52 ++ lens53 ++ lens54 ++ lens55 ++ lens56 ++ lens57 ++ lens58 ++ lens59 ++ lens60 ++ lens61 ++ lens62 ++ lens63 ++ lens64 ++ lens65 ++ lens66 ++ lens67 ++ lens68 ++ lens69 ++ lens70 ++ lens71 ++ lens72 ++ lens73 ++ lens74 ++ lens75 ++ lens76 ++ lens77 ++ lens78 ++ lens79 ++ lens80 ++ lens81 ++ lens82 ++ lens83 ++ lens84 ++ lens85 ++ lens86 ++ lens87 ++ lens88 ++ lens89 ++ lens90 ++ lens91 ++ lens92 ++ lens93 ++ lens94 ++ lens95 ++ lens96 ++ lens97 ++ lens98 ++ lens99 ++ lens100.
Lemma len_methods_ok : Forall entry_within len_methods.
Proof. unfold len_methods. repeat (apply Forall_app; split); auto using lens0_ok, lens1_ok, lens2_ok, lens3_ok, lens4_ok, lens5_ok, lens6_ok, lens7_ok, lens8_ok, lens9_ok, lens10_ok, lens11_ok, lens12_ok, lens13_ok, lens14_ok, lens15_ok, lens16_ok, lens17_ok, lens18_ok, lens19_ok, lens20_ok, lens21_ok, lens22_ok, lens23_ok, lens24_ok, lens25_ok, lens26_ok, lens27_ok, lens28_ok, lens29_ok, lens30_ok, lens31_ok, lens32_ok, lens33_ok, lens34_ok, lens35_ok, lens36_ok, lens37_ok, lens38_ok, lens39_ok, lens40_ok, lens41_ok, lens42_ok, lens43_ok, lens44_ok, lens45_ok, lens46_ok, lens47_ok, lens48_ok, lens49_ok, lens50_ok, lens51_ok, lens52_ok, lens53_ok, lens54_ok, lens55_ok, lens56_ok, lens57_ok, lens58_ok, lens59_ok, lens60_ok, lens61_ok, lens62_ok, lens63_ok, lens64_ok, lens65_ok, lens66_ok, lens67_ok, lens68_ok, lens69_ok, lens70_ok, lens71_ok, lens72_ok, lens73_ok, lens74_ok, lens75_ok, lens76_ok, lens77_ok, lens78_ok, lens79_ok, lens80_ok, lens81_ok, lens82_ok, lens83_ok, lens84_ok, lens85_ok, lens86_ok, lens87_ok, lens88_ok, lens89_ok, lens90_ok, lens91_ok, lens92_ok, lens93_ok, lens94_ok, lens95_ok, lens96_ok, lens97_ok, lens98_ok, lens99_ok, lens100_ok. Qed.
