(* Every method of CodeGenerator with a parameter that may be a memory operand, once for each such parameter; the other
   operands are arbitrary registers and numbers.  Not in the table: the eight shifts by an immediate with a new data
   destination and rorx, see PropRip.v.  Produced by tools/riptab.py. *)
From Coq Require Import ZArith List Bool String.
From Verif Require Import Base Types Emit Encode Mnemonic MnemonicAvx MnemonicOmit SpecRip RipFacts.
Import ListNotations.
Open Scope Z_scope. Open Scope string_scope.

(* re_dest: register 0 is a data destination, which has to be a general register *)
Record rip_entry := mkRipE { re_name : string; re_dest : bool; re_fun : Address -> (Z -> Reg) -> (Z -> Z) -> PreferredEncoding -> E unit }.
Definition entry_refers (x : rip_entry) : Prop :=
  forall a r n e, rip_mem a -> (re_dest x = true -> isREG (r 0) = true) -> refers a (re_fun x a r n e).

Ltac row := apply Forall_cons; [intros a r n e Ha Hr; cbn [re_fun re_dest] in *; try specialize (Hr eq_refl); apply R_refers|].

Definition rips0 : list rip_entry :=
  [mkRipE "aadd/0" false (fun a r n e => i_aadd a (r 1));
   mkRipE "aand/0" false (fun a r n e => i_aand a (r 1));
   mkRipE "adc_oi/0" false (fun a r n e => i_adc_oi (OMem a) (n 1));
   mkRipE "adc_oo/0" false (fun a r n e => i_adc_oo (OMem a) (OReg (r 1)));
   mkRipE "adc_oo/1" false (fun a r n e => i_adc_oo (OReg (r 0)) (OMem a));
   mkRipE "adc_roi/1" true (fun a r n e => i_adc_roi (r 0) (OMem a) (n 2));
   mkRipE "adc_roo/1" true (fun a r n e => i_adc_roo (r 0) (OMem a) (OReg (r 2)));
   mkRipE "adc_roo/2" true (fun a r n e => i_adc_roo (r 0) (OReg (r 1)) (OMem a));
   mkRipE "adcx_eeo/2" true (fun a r n e => i_adcx_eeo (r 0) (r 1) (OMem a));
   mkRipE "adcx_eo/1" false (fun a r n e => i_adcx_eo (r 0) (OMem a));
   mkRipE "add_oi/0" false (fun a r n e => i_add_oi (OMem a) (n 1));
   mkRipE "add_oo/0" false (fun a r n e => i_add_oo (OMem a) (OReg (r 1)));
   mkRipE "add_oo/1" false (fun a r n e => i_add_oo (OReg (r 0)) (OMem a));
   mkRipE "add_roi/1" true (fun a r n e => i_add_roi (r 0) (OMem a) (n 2));
   mkRipE "add_roo/1" true (fun a r n e => i_add_roo (r 0) (OMem a) (OReg (r 2)));
   mkRipE "add_roo/2" true (fun a r n e => i_add_roo (r 0) (OReg (r 1)) (OMem a));
   mkRipE "addpd/1" false (fun a r n e => i_addpd (r 0) (OMem a));
   mkRipE "addps/1" false (fun a r n e => i_addps (r 0) (OMem a));
   mkRipE "addsd/1" false (fun a r n e => i_addsd (r 0) (OMem a));
   mkRipE "addss/1" false (fun a r n e => i_addss (r 0) (OMem a));
   mkRipE "addsubpd/1" false (fun a r n e => i_addsubpd (r 0) (OMem a));
   mkRipE "addsubps/1" false (fun a r n e => i_addsubps (r 0) (OMem a));
   mkRipE "adox_eeo/2" true (fun a r n e => i_adox_eeo (r 0) (r 1) (OMem a));
   mkRipE "adox_eo/1" false (fun a r n e => i_adox_eo (r 0) (OMem a));
   mkRipE "aesdec/1" false (fun a r n e => i_aesdec (r 0) (OMem a))].
Lemma rips0_ok : Forall entry_refers rips0.
Proof. unfold rips0. 
row. { unfold i_aadd. ref. }
row. { unfold i_aand. ref. }
row. { unfold i_adc_oi. ref. }
row. { unfold i_adc_oo. ref. }
row. { unfold i_adc_oo. ref. }
row. { unfold i_adc_roi. ref. }
row. { unfold i_adc_roo. ref. }
row. { unfold i_adc_roo. ref. }
row. { unfold i_adcx_eeo. ref. }
row. { unfold i_adcx_eo. ref. }
row. { unfold i_add_oi. ref. }
row. { unfold i_add_oo. ref. }
row. { unfold i_add_oo. ref. }
row. { unfold i_add_roi. ref. }
row. { unfold i_add_roo. ref. }
row. { unfold i_add_roo. ref. }
row. { unfold i_addpd. ref. }
row. { unfold i_addps. ref. }
row. { unfold i_addsd. ref. }
row. { unfold i_addss. ref. }
row. { unfold i_addsubpd. ref. }
row. { unfold i_addsubps. ref. }
row. { unfold i_adox_eeo. ref. }
row. { unfold i_adox_eo. ref. }
row. { unfold i_aesdec. ref. }
apply Forall_nil. Qed.
Definition rips1 : list rip_entry :=
  [mkRipE "aesdeclast/1" false (fun a r n e => i_aesdeclast (r 0) (OMem a));
   mkRipE "aesenc/1" false (fun a r n e => i_aesenc (r 0) (OMem a));
   mkRipE "aesenclast/1" false (fun a r n e => i_aesenclast (r 0) (OMem a));
   mkRipE "aesimc/1" false (fun a r n e => i_aesimc (r 0) (OMem a));
   mkRipE "aeskeygenassist/1" false (fun a r n e => i_aeskeygenassist (r 0) (OMem a) (n 2));
   mkRipE "and__oi/0" false (fun a r n e => i_and__oi (OMem a) (n 1));
   mkRipE "and__oo/0" false (fun a r n e => i_and__oo (OMem a) (OReg (r 1)));
   mkRipE "and__oo/1" false (fun a r n e => i_and__oo (OReg (r 0)) (OMem a));
   mkRipE "and__roi/1" true (fun a r n e => i_and__roi (r 0) (OMem a) (n 2));
   mkRipE "and__roo/1" true (fun a r n e => i_and__roo (r 0) (OMem a) (OReg (r 2)));
   mkRipE "and__roo/2" true (fun a r n e => i_and__roo (r 0) (OReg (r 1)) (OMem a));
   mkRipE "andn/2" false (fun a r n e => i_andn (r 0) (r 1) (OMem a));
   mkRipE "andnpd/1" false (fun a r n e => i_andnpd (r 0) (OMem a));
   mkRipE "andnps/1" false (fun a r n e => i_andnps (r 0) (OMem a));
   mkRipE "andpd/1" false (fun a r n e => i_andpd (r 0) (OMem a));
   mkRipE "andps/1" false (fun a r n e => i_andps (r 0) (OMem a));
   mkRipE "aor/0" false (fun a r n e => i_aor a (r 1));
   mkRipE "axor/0" false (fun a r n e => i_axor a (r 1));
   mkRipE "bextr/1" false (fun a r n e => i_bextr (r 0) (OMem a) (r 2));
   mkRipE "blendpd/1" false (fun a r n e => i_blendpd (r 0) (OMem a) (n 2));
   mkRipE "blendps/1" false (fun a r n e => i_blendps (r 0) (OMem a) (n 2));
   mkRipE "blendvpd/1" false (fun a r n e => i_blendvpd (r 0) (OMem a));
   mkRipE "blendvps/1" false (fun a r n e => i_blendvps (r 0) (OMem a));
   mkRipE "blsi/1" false (fun a r n e => i_blsi (r 0) (OMem a));
   mkRipE "blsmsk/1" false (fun a r n e => i_blsmsk (r 0) (OMem a))].
Lemma rips1_ok : Forall entry_refers rips1.
Proof. unfold rips1. 
row. { unfold i_aesdeclast. ref. }
row. { unfold i_aesenc. ref. }
row. { unfold i_aesenclast. ref. }
row. { unfold i_aesimc. ref. }
row. { unfold i_aeskeygenassist. ref. }
row. { unfold i_and__oi. ref. }
row. { unfold i_and__oo. ref. }
row. { unfold i_and__oo. ref. }
row. { unfold i_and__roi. ref. }
row. { unfold i_and__roo. ref. }
row. { unfold i_and__roo. ref. }
row. { unfold i_andn. ref. }
row. { unfold i_andnpd. ref. }
row. { unfold i_andnps. ref. }
row. { unfold i_andpd. ref. }
row. { unfold i_andps. ref. }
row. { unfold i_aor. ref. }
row. { unfold i_axor. ref. }
row. { unfold i_bextr. ref. }
row. { unfold i_blendpd. ref. }
row. { unfold i_blendps. ref. }
row. { unfold i_blendvpd. ref. }
row. { unfold i_blendvps. ref. }
row. { unfold i_blsi. ref. }
row. { unfold i_blsmsk. ref. }
apply Forall_nil. Qed.
Definition rips2 : list rip_entry :=
  [mkRipE "blsr/1" false (fun a r n e => i_blsr (r 0) (OMem a));
   mkRipE "bndcl/1" false (fun a r n e => i_bndcl (r 0) (OMem a));
   mkRipE "bndcn/1" false (fun a r n e => i_bndcn (r 0) (OMem a));
   mkRipE "bndcu/1" false (fun a r n e => i_bndcu (r 0) (OMem a));
   mkRipE "bndldx/1" false (fun a r n e => i_bndldx (r 0) a);
   mkRipE "bndmk/1" false (fun a r n e => i_bndmk (r 0) a);
   mkRipE "bndmov_an/0" false (fun a r n e => i_bndmov_an a (r 1));
   mkRipE "bndmov_no/1" false (fun a r n e => i_bndmov_no (r 0) (OMem a));
   mkRipE "bndstx/0" false (fun a r n e => i_bndstx a (r 1));
   mkRipE "bsf/1" false (fun a r n e => i_bsf (r 0) (OMem a));
   mkRipE "bsr/1" false (fun a r n e => i_bsr (r 0) (OMem a));
   mkRipE "bt_or/0" false (fun a r n e => i_bt_or (OMem a) (r 1));
   mkRipE "bt_oi/0" false (fun a r n e => i_bt_oi (OMem a) (n 1));
   mkRipE "btc_or/0" false (fun a r n e => i_btc_or (OMem a) (r 1));
   mkRipE "btc_oi/0" false (fun a r n e => i_btc_oi (OMem a) (n 1));
   mkRipE "btr_or/0" false (fun a r n e => i_btr_or (OMem a) (r 1));
   mkRipE "btr_oi/0" false (fun a r n e => i_btr_oi (OMem a) (n 1));
   mkRipE "bts_or/0" false (fun a r n e => i_bts_or (OMem a) (r 1));
   mkRipE "bts_oi/0" false (fun a r n e => i_bts_oi (OMem a) (n 1));
   mkRipE "bzhi/1" false (fun a r n e => i_bzhi (r 0) (OMem a) (r 2));
   mkRipE "ccmpa_oii/0" false (fun a r n e => i_ccmpa_oii (OMem a) (n 1) (n 2));
   mkRipE "ccmpa_ooi/0" false (fun a r n e => i_ccmpa_ooi (OMem a) (OReg (r 1)) (n 2));
   mkRipE "ccmpa_ooi/1" false (fun a r n e => i_ccmpa_ooi (OReg (r 0)) (OMem a) (n 2));
   mkRipE "ccmpae_oii/0" false (fun a r n e => i_ccmpae_oii (OMem a) (n 1) (n 2));
   mkRipE "ccmpae_ooi/0" false (fun a r n e => i_ccmpae_ooi (OMem a) (OReg (r 1)) (n 2))].
Lemma rips2_ok : Forall entry_refers rips2.
Proof. unfold rips2. 
row. { unfold i_blsr. ref. }
row. { unfold i_bndcl. ref. }
row. { unfold i_bndcn. ref. }
row. { unfold i_bndcu. ref. }
row. { unfold i_bndldx. ref. }
row. { unfold i_bndmk. ref. }
row. { unfold i_bndmov_an. ref. }
row. { unfold i_bndmov_no. ref. }
row. { unfold i_bndstx. ref. }
row. { unfold i_bsf. ref. }
row. { unfold i_bsr. ref. }
row. { unfold i_bt_or. ref. }
row. { unfold i_bt_oi. ref. }
row. { unfold i_btc_or. ref. }
row. { unfold i_btc_oi. ref. }
row. { unfold i_btr_or. ref. }
row. { unfold i_btr_oi. ref. }
row. { unfold i_bts_or. ref. }
row. { unfold i_bts_oi. ref. }
row. { unfold i_bzhi. ref. }
row. { unfold i_ccmpa_oii. ref. }
row. { unfold i_ccmpa_ooi. ref. }
row. { unfold i_ccmpa_ooi. ref. }
row. { unfold i_ccmpae_oii. ref. }
row. { unfold i_ccmpae_ooi. ref. }
apply Forall_nil. Qed.
Definition rips3 : list rip_entry :=
  [mkRipE "ccmpae_ooi/1" false (fun a r n e => i_ccmpae_ooi (OReg (r 0)) (OMem a) (n 2));
   mkRipE "ccmpb_oii/0" false (fun a r n e => i_ccmpb_oii (OMem a) (n 1) (n 2));
   mkRipE "ccmpb_ooi/0" false (fun a r n e => i_ccmpb_ooi (OMem a) (OReg (r 1)) (n 2));
   mkRipE "ccmpb_ooi/1" false (fun a r n e => i_ccmpb_ooi (OReg (r 0)) (OMem a) (n 2));
   mkRipE "ccmpbe_oii/0" false (fun a r n e => i_ccmpbe_oii (OMem a) (n 1) (n 2));
   mkRipE "ccmpbe_ooi/0" false (fun a r n e => i_ccmpbe_ooi (OMem a) (OReg (r 1)) (n 2));
   mkRipE "ccmpbe_ooi/1" false (fun a r n e => i_ccmpbe_ooi (OReg (r 0)) (OMem a) (n 2));
   mkRipE "ccmpc_oii/0" false (fun a r n e => i_ccmpc_oii (OMem a) (n 1) (n 2));
   mkRipE "ccmpc_ooi/0" false (fun a r n e => i_ccmpc_ooi (OMem a) (OReg (r 1)) (n 2));
   mkRipE "ccmpc_ooi/1" false (fun a r n e => i_ccmpc_ooi (OReg (r 0)) (OMem a) (n 2));
   mkRipE "ccmpe_oii/0" false (fun a r n e => i_ccmpe_oii (OMem a) (n 1) (n 2));
   mkRipE "ccmpe_ooi/0" false (fun a r n e => i_ccmpe_ooi (OMem a) (OReg (r 1)) (n 2));
   mkRipE "ccmpe_ooi/1" false (fun a r n e => i_ccmpe_ooi (OReg (r 0)) (OMem a) (n 2));
   mkRipE "ccmpf_oii/0" false (fun a r n e => i_ccmpf_oii (OMem a) (n 1) (n 2));
   mkRipE "ccmpf_ooi/0" false (fun a r n e => i_ccmpf_ooi (OMem a) (OReg (r 1)) (n 2));
   mkRipE "ccmpf_ooi/1" false (fun a r n e => i_ccmpf_ooi (OReg (r 0)) (OMem a) (n 2));
   mkRipE "ccmpg_oii/0" false (fun a r n e => i_ccmpg_oii (OMem a) (n 1) (n 2));
   mkRipE "ccmpg_ooi/0" false (fun a r n e => i_ccmpg_ooi (OMem a) (OReg (r 1)) (n 2));
   mkRipE "ccmpg_ooi/1" false (fun a r n e => i_ccmpg_ooi (OReg (r 0)) (OMem a) (n 2));
   mkRipE "ccmpge_oii/0" false (fun a r n e => i_ccmpge_oii (OMem a) (n 1) (n 2));
   mkRipE "ccmpge_ooi/0" false (fun a r n e => i_ccmpge_ooi (OMem a) (OReg (r 1)) (n 2));
   mkRipE "ccmpge_ooi/1" false (fun a r n e => i_ccmpge_ooi (OReg (r 0)) (OMem a) (n 2));
   mkRipE "ccmpl_oii/0" false (fun a r n e => i_ccmpl_oii (OMem a) (n 1) (n 2));
   mkRipE "ccmpl_ooi/0" false (fun a r n e => i_ccmpl_ooi (OMem a) (OReg (r 1)) (n 2));
   mkRipE "ccmpl_ooi/1" false (fun a r n e => i_ccmpl_ooi (OReg (r 0)) (OMem a) (n 2))].
Lemma rips3_ok : Forall entry_refers rips3.
Proof. unfold rips3. 
row. { unfold i_ccmpae_ooi. ref. }
row. { unfold i_ccmpb_oii. ref. }
row. { unfold i_ccmpb_ooi. ref. }
row. { unfold i_ccmpb_ooi. ref. }
row. { unfold i_ccmpbe_oii. ref. }
row. { unfold i_ccmpbe_ooi. ref. }
row. { unfold i_ccmpbe_ooi. ref. }
row. { unfold i_ccmpc_oii. ref. }
row. { unfold i_ccmpc_ooi. ref. }
row. { unfold i_ccmpc_ooi. ref. }
row. { unfold i_ccmpe_oii. ref. }
row. { unfold i_ccmpe_ooi. ref. }
row. { unfold i_ccmpe_ooi. ref. }
row. { unfold i_ccmpf_oii. ref. }
row. { unfold i_ccmpf_ooi. ref. }
row. { unfold i_ccmpf_ooi. ref. }
row. { unfold i_ccmpg_oii. ref. }
row. { unfold i_ccmpg_ooi. ref. }
row. { unfold i_ccmpg_ooi. ref. }
row. { unfold i_ccmpge_oii. ref. }
row. { unfold i_ccmpge_ooi. ref. }
row. { unfold i_ccmpge_ooi. ref. }
row. { unfold i_ccmpl_oii. ref. }
row. { unfold i_ccmpl_ooi. ref. }
row. { unfold i_ccmpl_ooi. ref. }
apply Forall_nil. Qed.
Definition rips4 : list rip_entry :=
  [mkRipE "ccmple_oii/0" false (fun a r n e => i_ccmple_oii (OMem a) (n 1) (n 2));
   mkRipE "ccmple_ooi/0" false (fun a r n e => i_ccmple_ooi (OMem a) (OReg (r 1)) (n 2));
   mkRipE "ccmple_ooi/1" false (fun a r n e => i_ccmple_ooi (OReg (r 0)) (OMem a) (n 2));
   mkRipE "ccmpna_oii/0" false (fun a r n e => i_ccmpna_oii (OMem a) (n 1) (n 2));
   mkRipE "ccmpna_ooi/0" false (fun a r n e => i_ccmpna_ooi (OMem a) (OReg (r 1)) (n 2));
   mkRipE "ccmpna_ooi/1" false (fun a r n e => i_ccmpna_ooi (OReg (r 0)) (OMem a) (n 2));
   mkRipE "ccmpnae_oii/0" false (fun a r n e => i_ccmpnae_oii (OMem a) (n 1) (n 2));
   mkRipE "ccmpnae_ooi/0" false (fun a r n e => i_ccmpnae_ooi (OMem a) (OReg (r 1)) (n 2));
   mkRipE "ccmpnae_ooi/1" false (fun a r n e => i_ccmpnae_ooi (OReg (r 0)) (OMem a) (n 2));
   mkRipE "ccmpnb_oii/0" false (fun a r n e => i_ccmpnb_oii (OMem a) (n 1) (n 2));
   mkRipE "ccmpnb_ooi/0" false (fun a r n e => i_ccmpnb_ooi (OMem a) (OReg (r 1)) (n 2));
   mkRipE "ccmpnb_ooi/1" false (fun a r n e => i_ccmpnb_ooi (OReg (r 0)) (OMem a) (n 2));
   mkRipE "ccmpnbe_oii/0" false (fun a r n e => i_ccmpnbe_oii (OMem a) (n 1) (n 2));
   mkRipE "ccmpnbe_ooi/0" false (fun a r n e => i_ccmpnbe_ooi (OMem a) (OReg (r 1)) (n 2));
   mkRipE "ccmpnbe_ooi/1" false (fun a r n e => i_ccmpnbe_ooi (OReg (r 0)) (OMem a) (n 2));
   mkRipE "ccmpnc_oii/0" false (fun a r n e => i_ccmpnc_oii (OMem a) (n 1) (n 2));
   mkRipE "ccmpnc_ooi/0" false (fun a r n e => i_ccmpnc_ooi (OMem a) (OReg (r 1)) (n 2));
   mkRipE "ccmpnc_ooi/1" false (fun a r n e => i_ccmpnc_ooi (OReg (r 0)) (OMem a) (n 2));
   mkRipE "ccmpne_oii/0" false (fun a r n e => i_ccmpne_oii (OMem a) (n 1) (n 2));
   mkRipE "ccmpne_ooi/0" false (fun a r n e => i_ccmpne_ooi (OMem a) (OReg (r 1)) (n 2));
   mkRipE "ccmpne_ooi/1" false (fun a r n e => i_ccmpne_ooi (OReg (r 0)) (OMem a) (n 2));
   mkRipE "ccmpng_oii/0" false (fun a r n e => i_ccmpng_oii (OMem a) (n 1) (n 2));
   mkRipE "ccmpng_ooi/0" false (fun a r n e => i_ccmpng_ooi (OMem a) (OReg (r 1)) (n 2));
   mkRipE "ccmpng_ooi/1" false (fun a r n e => i_ccmpng_ooi (OReg (r 0)) (OMem a) (n 2));
   mkRipE "ccmpnge_oii/0" false (fun a r n e => i_ccmpnge_oii (OMem a) (n 1) (n 2))].
Lemma rips4_ok : Forall entry_refers rips4.
Proof. unfold rips4. 
row. { unfold i_ccmple_oii. ref. }
row. { unfold i_ccmple_ooi. ref. }
row. { unfold i_ccmple_ooi. ref. }
row. { unfold i_ccmpna_oii. ref. }
row. { unfold i_ccmpna_ooi. ref. }
row. { unfold i_ccmpna_ooi. ref. }
row. { unfold i_ccmpnae_oii. ref. }
row. { unfold i_ccmpnae_ooi. ref. }
row. { unfold i_ccmpnae_ooi. ref. }
row. { unfold i_ccmpnb_oii. ref. }
row. { unfold i_ccmpnb_ooi. ref. }
row. { unfold i_ccmpnb_ooi. ref. }
row. { unfold i_ccmpnbe_oii. ref. }
row. { unfold i_ccmpnbe_ooi. ref. }
row. { unfold i_ccmpnbe_ooi. ref. }
row. { unfold i_ccmpnc_oii. ref. }
row. { unfold i_ccmpnc_ooi. ref. }
row. { unfold i_ccmpnc_ooi. ref. }
row. { unfold i_ccmpne_oii. ref. }
row. { unfold i_ccmpne_ooi. ref. }
row. { unfold i_ccmpne_ooi. ref. }
row. { unfold i_ccmpng_oii. ref. }
row. { unfold i_ccmpng_ooi. ref. }
row. { unfold i_ccmpng_ooi. ref. }
row. { unfold i_ccmpnge_oii. ref. }
apply Forall_nil. Qed.
Definition rips5 : list rip_entry :=
  [mkRipE "ccmpnge_ooi/0" false (fun a r n e => i_ccmpnge_ooi (OMem a) (OReg (r 1)) (n 2));
   mkRipE "ccmpnge_ooi/1" false (fun a r n e => i_ccmpnge_ooi (OReg (r 0)) (OMem a) (n 2));
   mkRipE "ccmpnl_oii/0" false (fun a r n e => i_ccmpnl_oii (OMem a) (n 1) (n 2));
   mkRipE "ccmpnl_ooi/0" false (fun a r n e => i_ccmpnl_ooi (OMem a) (OReg (r 1)) (n 2));
   mkRipE "ccmpnl_ooi/1" false (fun a r n e => i_ccmpnl_ooi (OReg (r 0)) (OMem a) (n 2));
   mkRipE "ccmpnle_oii/0" false (fun a r n e => i_ccmpnle_oii (OMem a) (n 1) (n 2));
   mkRipE "ccmpnle_ooi/0" false (fun a r n e => i_ccmpnle_ooi (OMem a) (OReg (r 1)) (n 2));
   mkRipE "ccmpnle_ooi/1" false (fun a r n e => i_ccmpnle_ooi (OReg (r 0)) (OMem a) (n 2));
   mkRipE "ccmpno_oii/0" false (fun a r n e => i_ccmpno_oii (OMem a) (n 1) (n 2));
   mkRipE "ccmpno_ooi/0" false (fun a r n e => i_ccmpno_ooi (OMem a) (OReg (r 1)) (n 2));
   mkRipE "ccmpno_ooi/1" false (fun a r n e => i_ccmpno_ooi (OReg (r 0)) (OMem a) (n 2));
   mkRipE "ccmpns_oii/0" false (fun a r n e => i_ccmpns_oii (OMem a) (n 1) (n 2));
   mkRipE "ccmpns_ooi/0" false (fun a r n e => i_ccmpns_ooi (OMem a) (OReg (r 1)) (n 2));
   mkRipE "ccmpns_ooi/1" false (fun a r n e => i_ccmpns_ooi (OReg (r 0)) (OMem a) (n 2));
   mkRipE "ccmpnz_oii/0" false (fun a r n e => i_ccmpnz_oii (OMem a) (n 1) (n 2));
   mkRipE "ccmpnz_ooi/0" false (fun a r n e => i_ccmpnz_ooi (OMem a) (OReg (r 1)) (n 2));
   mkRipE "ccmpnz_ooi/1" false (fun a r n e => i_ccmpnz_ooi (OReg (r 0)) (OMem a) (n 2));
   mkRipE "ccmpo_oii/0" false (fun a r n e => i_ccmpo_oii (OMem a) (n 1) (n 2));
   mkRipE "ccmpo_ooi/0" false (fun a r n e => i_ccmpo_ooi (OMem a) (OReg (r 1)) (n 2));
   mkRipE "ccmpo_ooi/1" false (fun a r n e => i_ccmpo_ooi (OReg (r 0)) (OMem a) (n 2));
   mkRipE "ccmps_oii/0" false (fun a r n e => i_ccmps_oii (OMem a) (n 1) (n 2));
   mkRipE "ccmps_ooi/0" false (fun a r n e => i_ccmps_ooi (OMem a) (OReg (r 1)) (n 2));
   mkRipE "ccmps_ooi/1" false (fun a r n e => i_ccmps_ooi (OReg (r 0)) (OMem a) (n 2));
   mkRipE "ccmpt_oii/0" false (fun a r n e => i_ccmpt_oii (OMem a) (n 1) (n 2));
   mkRipE "ccmpt_ooi/0" false (fun a r n e => i_ccmpt_ooi (OMem a) (OReg (r 1)) (n 2))].
Lemma rips5_ok : Forall entry_refers rips5.
Proof. unfold rips5. 
row. { unfold i_ccmpnge_ooi. ref. }
row. { unfold i_ccmpnge_ooi. ref. }
row. { unfold i_ccmpnl_oii. ref. }
row. { unfold i_ccmpnl_ooi. ref. }
row. { unfold i_ccmpnl_ooi. ref. }
row. { unfold i_ccmpnle_oii. ref. }
row. { unfold i_ccmpnle_ooi. ref. }
row. { unfold i_ccmpnle_ooi. ref. }
row. { unfold i_ccmpno_oii. ref. }
row. { unfold i_ccmpno_ooi. ref. }
row. { unfold i_ccmpno_ooi. ref. }
row. { unfold i_ccmpns_oii. ref. }
row. { unfold i_ccmpns_ooi. ref. }
row. { unfold i_ccmpns_ooi. ref. }
row. { unfold i_ccmpnz_oii. ref. }
row. { unfold i_ccmpnz_ooi. ref. }
row. { unfold i_ccmpnz_ooi. ref. }
row. { unfold i_ccmpo_oii. ref. }
row. { unfold i_ccmpo_ooi. ref. }
row. { unfold i_ccmpo_ooi. ref. }
row. { unfold i_ccmps_oii. ref. }
row. { unfold i_ccmps_ooi. ref. }
row. { unfold i_ccmps_ooi. ref. }
row. { unfold i_ccmpt_oii. ref. }
row. { unfold i_ccmpt_ooi. ref. }
apply Forall_nil. Qed.
Definition rips6 : list rip_entry :=
  [mkRipE "ccmpt_ooi/1" false (fun a r n e => i_ccmpt_ooi (OReg (r 0)) (OMem a) (n 2));
   mkRipE "ccmpz_oii/0" false (fun a r n e => i_ccmpz_oii (OMem a) (n 1) (n 2));
   mkRipE "ccmpz_ooi/0" false (fun a r n e => i_ccmpz_ooi (OMem a) (OReg (r 1)) (n 2));
   mkRipE "ccmpz_ooi/1" false (fun a r n e => i_ccmpz_ooi (OReg (r 0)) (OMem a) (n 2));
   mkRipE "cfcmovb_oo/0" false (fun a r n e => i_cfcmovb_oo (OMem a) (OReg (r 1)));
   mkRipE "cfcmovb_oo/1" false (fun a r n e => i_cfcmovb_oo (OReg (r 0)) (OMem a));
   mkRipE "cfcmovb_rro/2" false (fun a r n e => i_cfcmovb_rro (r 0) (r 1) (OMem a));
   mkRipE "cfcmovbe_oo/0" false (fun a r n e => i_cfcmovbe_oo (OMem a) (OReg (r 1)));
   mkRipE "cfcmovbe_oo/1" false (fun a r n e => i_cfcmovbe_oo (OReg (r 0)) (OMem a));
   mkRipE "cfcmovbe_rro/2" false (fun a r n e => i_cfcmovbe_rro (r 0) (r 1) (OMem a));
   mkRipE "cfcmovl_oo/0" false (fun a r n e => i_cfcmovl_oo (OMem a) (OReg (r 1)));
   mkRipE "cfcmovl_oo/1" false (fun a r n e => i_cfcmovl_oo (OReg (r 0)) (OMem a));
   mkRipE "cfcmovl_rro/2" false (fun a r n e => i_cfcmovl_rro (r 0) (r 1) (OMem a));
   mkRipE "cfcmovle_oo/0" false (fun a r n e => i_cfcmovle_oo (OMem a) (OReg (r 1)));
   mkRipE "cfcmovle_oo/1" false (fun a r n e => i_cfcmovle_oo (OReg (r 0)) (OMem a));
   mkRipE "cfcmovle_rro/2" false (fun a r n e => i_cfcmovle_rro (r 0) (r 1) (OMem a));
   mkRipE "cfcmovnb_oo/0" false (fun a r n e => i_cfcmovnb_oo (OMem a) (OReg (r 1)));
   mkRipE "cfcmovnb_oo/1" false (fun a r n e => i_cfcmovnb_oo (OReg (r 0)) (OMem a));
   mkRipE "cfcmovnb_rro/2" false (fun a r n e => i_cfcmovnb_rro (r 0) (r 1) (OMem a));
   mkRipE "cfcmovnbe_oo/0" false (fun a r n e => i_cfcmovnbe_oo (OMem a) (OReg (r 1)));
   mkRipE "cfcmovnbe_oo/1" false (fun a r n e => i_cfcmovnbe_oo (OReg (r 0)) (OMem a));
   mkRipE "cfcmovnbe_rro/2" false (fun a r n e => i_cfcmovnbe_rro (r 0) (r 1) (OMem a));
   mkRipE "cfcmovnl_oo/0" false (fun a r n e => i_cfcmovnl_oo (OMem a) (OReg (r 1)));
   mkRipE "cfcmovnl_oo/1" false (fun a r n e => i_cfcmovnl_oo (OReg (r 0)) (OMem a));
   mkRipE "cfcmovnl_rro/2" false (fun a r n e => i_cfcmovnl_rro (r 0) (r 1) (OMem a))].
Lemma rips6_ok : Forall entry_refers rips6.
Proof. unfold rips6. 
row. { unfold i_ccmpt_ooi. ref. }
row. { unfold i_ccmpz_oii. ref. }
row. { unfold i_ccmpz_ooi. ref. }
row. { unfold i_ccmpz_ooi. ref. }
row. { unfold i_cfcmovb_oo. ref. }
row. { unfold i_cfcmovb_oo. ref. }
row. { unfold i_cfcmovb_rro. ref. }
row. { unfold i_cfcmovbe_oo. ref. }
row. { unfold i_cfcmovbe_oo. ref. }
row. { unfold i_cfcmovbe_rro. ref. }
row. { unfold i_cfcmovl_oo. ref. }
row. { unfold i_cfcmovl_oo. ref. }
row. { unfold i_cfcmovl_rro. ref. }
row. { unfold i_cfcmovle_oo. ref. }
row. { unfold i_cfcmovle_oo. ref. }
row. { unfold i_cfcmovle_rro. ref. }
row. { unfold i_cfcmovnb_oo. ref. }
row. { unfold i_cfcmovnb_oo. ref. }
row. { unfold i_cfcmovnb_rro. ref. }
row. { unfold i_cfcmovnbe_oo. ref. }
row. { unfold i_cfcmovnbe_oo. ref. }
row. { unfold i_cfcmovnbe_rro. ref. }
row. { unfold i_cfcmovnl_oo. ref. }
row. { unfold i_cfcmovnl_oo. ref. }
row. { unfold i_cfcmovnl_rro. ref. }
apply Forall_nil. Qed.
Definition rips7 : list rip_entry :=
  [mkRipE "cfcmovnle_oo/0" false (fun a r n e => i_cfcmovnle_oo (OMem a) (OReg (r 1)));
   mkRipE "cfcmovnle_oo/1" false (fun a r n e => i_cfcmovnle_oo (OReg (r 0)) (OMem a));
   mkRipE "cfcmovnle_rro/2" false (fun a r n e => i_cfcmovnle_rro (r 0) (r 1) (OMem a));
   mkRipE "cfcmovno_oo/0" false (fun a r n e => i_cfcmovno_oo (OMem a) (OReg (r 1)));
   mkRipE "cfcmovno_oo/1" false (fun a r n e => i_cfcmovno_oo (OReg (r 0)) (OMem a));
   mkRipE "cfcmovno_rro/2" false (fun a r n e => i_cfcmovno_rro (r 0) (r 1) (OMem a));
   mkRipE "cfcmovnp_oo/0" false (fun a r n e => i_cfcmovnp_oo (OMem a) (OReg (r 1)));
   mkRipE "cfcmovnp_oo/1" false (fun a r n e => i_cfcmovnp_oo (OReg (r 0)) (OMem a));
   mkRipE "cfcmovnp_rro/2" false (fun a r n e => i_cfcmovnp_rro (r 0) (r 1) (OMem a));
   mkRipE "cfcmovns_oo/0" false (fun a r n e => i_cfcmovns_oo (OMem a) (OReg (r 1)));
   mkRipE "cfcmovns_oo/1" false (fun a r n e => i_cfcmovns_oo (OReg (r 0)) (OMem a));
   mkRipE "cfcmovns_rro/2" false (fun a r n e => i_cfcmovns_rro (r 0) (r 1) (OMem a));
   mkRipE "cfcmovnz_oo/0" false (fun a r n e => i_cfcmovnz_oo (OMem a) (OReg (r 1)));
   mkRipE "cfcmovnz_oo/1" false (fun a r n e => i_cfcmovnz_oo (OReg (r 0)) (OMem a));
   mkRipE "cfcmovnz_rro/2" false (fun a r n e => i_cfcmovnz_rro (r 0) (r 1) (OMem a));
   mkRipE "cfcmovo_oo/0" false (fun a r n e => i_cfcmovo_oo (OMem a) (OReg (r 1)));
   mkRipE "cfcmovo_oo/1" false (fun a r n e => i_cfcmovo_oo (OReg (r 0)) (OMem a));
   mkRipE "cfcmovo_rro/2" false (fun a r n e => i_cfcmovo_rro (r 0) (r 1) (OMem a));
   mkRipE "cfcmovp_oo/0" false (fun a r n e => i_cfcmovp_oo (OMem a) (OReg (r 1)));
   mkRipE "cfcmovp_oo/1" false (fun a r n e => i_cfcmovp_oo (OReg (r 0)) (OMem a));
   mkRipE "cfcmovp_rro/2" false (fun a r n e => i_cfcmovp_rro (r 0) (r 1) (OMem a));
   mkRipE "cfcmovs_oo/0" false (fun a r n e => i_cfcmovs_oo (OMem a) (OReg (r 1)));
   mkRipE "cfcmovs_oo/1" false (fun a r n e => i_cfcmovs_oo (OReg (r 0)) (OMem a));
   mkRipE "cfcmovs_rro/2" false (fun a r n e => i_cfcmovs_rro (r 0) (r 1) (OMem a));
   mkRipE "cfcmovz_oo/0" false (fun a r n e => i_cfcmovz_oo (OMem a) (OReg (r 1)))].
Lemma rips7_ok : Forall entry_refers rips7.
Proof. unfold rips7. 
row. { unfold i_cfcmovnle_oo. ref. }
row. { unfold i_cfcmovnle_oo. ref. }
row. { unfold i_cfcmovnle_rro. ref. }
row. { unfold i_cfcmovno_oo. ref. }
row. { unfold i_cfcmovno_oo. ref. }
row. { unfold i_cfcmovno_rro. ref. }
row. { unfold i_cfcmovnp_oo. ref. }
row. { unfold i_cfcmovnp_oo. ref. }
row. { unfold i_cfcmovnp_rro. ref. }
row. { unfold i_cfcmovns_oo. ref. }
row. { unfold i_cfcmovns_oo. ref. }
row. { unfold i_cfcmovns_rro. ref. }
row. { unfold i_cfcmovnz_oo. ref. }
row. { unfold i_cfcmovnz_oo. ref. }
row. { unfold i_cfcmovnz_rro. ref. }
row. { unfold i_cfcmovo_oo. ref. }
row. { unfold i_cfcmovo_oo. ref. }
row. { unfold i_cfcmovo_rro. ref. }
row. { unfold i_cfcmovp_oo. ref. }
row. { unfold i_cfcmovp_oo. ref. }
row. { unfold i_cfcmovp_rro. ref. }
row. { unfold i_cfcmovs_oo. ref. }
row. { unfold i_cfcmovs_oo. ref. }
row. { unfold i_cfcmovs_rro. ref. }
row. { unfold i_cfcmovz_oo. ref. }
apply Forall_nil. Qed.
Definition rips8 : list rip_entry :=
  [mkRipE "cfcmovz_oo/1" false (fun a r n e => i_cfcmovz_oo (OReg (r 0)) (OMem a));
   mkRipE "cfcmovz_rro/2" false (fun a r n e => i_cfcmovz_rro (r 0) (r 1) (OMem a));
   mkRipE "cldemote/0" false (fun a r n e => i_cldemote a);
   mkRipE "clflush/0" false (fun a r n e => i_clflush a);
   mkRipE "clflushopt/0" false (fun a r n e => i_clflushopt a);
   mkRipE "clwb/0" false (fun a r n e => i_clwb a);
   mkRipE "cmova_rro/2" true (fun a r n e => i_cmova_rro (r 0) (r 1) (OMem a));
   mkRipE "cmova_ro/1" false (fun a r n e => i_cmova_ro (r 0) (OMem a));
   mkRipE "cmovae_rro/2" true (fun a r n e => i_cmovae_rro (r 0) (r 1) (OMem a));
   mkRipE "cmovae_ro/1" false (fun a r n e => i_cmovae_ro (r 0) (OMem a));
   mkRipE "cmovb_rro/2" true (fun a r n e => i_cmovb_rro (r 0) (r 1) (OMem a));
   mkRipE "cmovb_ro/1" false (fun a r n e => i_cmovb_ro (r 0) (OMem a));
   mkRipE "cmovbe_rro/2" true (fun a r n e => i_cmovbe_rro (r 0) (r 1) (OMem a));
   mkRipE "cmovbe_ro/1" false (fun a r n e => i_cmovbe_ro (r 0) (OMem a));
   mkRipE "cmovc_rro/2" true (fun a r n e => i_cmovc_rro (r 0) (r 1) (OMem a));
   mkRipE "cmovc_ro/1" false (fun a r n e => i_cmovc_ro (r 0) (OMem a));
   mkRipE "cmove_rro/2" true (fun a r n e => i_cmove_rro (r 0) (r 1) (OMem a));
   mkRipE "cmove_ro/1" false (fun a r n e => i_cmove_ro (r 0) (OMem a));
   mkRipE "cmovg_rro/2" true (fun a r n e => i_cmovg_rro (r 0) (r 1) (OMem a));
   mkRipE "cmovg_ro/1" false (fun a r n e => i_cmovg_ro (r 0) (OMem a));
   mkRipE "cmovge_rro/2" true (fun a r n e => i_cmovge_rro (r 0) (r 1) (OMem a));
   mkRipE "cmovge_ro/1" false (fun a r n e => i_cmovge_ro (r 0) (OMem a));
   mkRipE "cmovl_rro/2" true (fun a r n e => i_cmovl_rro (r 0) (r 1) (OMem a));
   mkRipE "cmovl_ro/1" false (fun a r n e => i_cmovl_ro (r 0) (OMem a));
   mkRipE "cmovle_rro/2" true (fun a r n e => i_cmovle_rro (r 0) (r 1) (OMem a))].
Lemma rips8_ok : Forall entry_refers rips8.
Proof. unfold rips8. 
row. { unfold i_cfcmovz_oo. ref. }
row. { unfold i_cfcmovz_rro. ref. }
row. { unfold i_cldemote. ref. }
row. { unfold i_clflush. ref. }
row. { unfold i_clflushopt. ref. }
row. { unfold i_clwb. ref. }
row. { unfold i_cmova_rro. ref. }
row. { unfold i_cmova_ro. ref. }
row. { unfold i_cmovae_rro. ref. }
row. { unfold i_cmovae_ro. ref. }
row. { unfold i_cmovb_rro. ref. }
row. { unfold i_cmovb_ro. ref. }
row. { unfold i_cmovbe_rro. ref. }
row. { unfold i_cmovbe_ro. ref. }
row. { unfold i_cmovc_rro. ref. }
row. { unfold i_cmovc_ro. ref. }
row. { unfold i_cmove_rro. ref. }
row. { unfold i_cmove_ro. ref. }
row. { unfold i_cmovg_rro. ref. }
row. { unfold i_cmovg_ro. ref. }
row. { unfold i_cmovge_rro. ref. }
row. { unfold i_cmovge_ro. ref. }
row. { unfold i_cmovl_rro. ref. }
row. { unfold i_cmovl_ro. ref. }
row. { unfold i_cmovle_rro. ref. }
apply Forall_nil. Qed.
Definition rips9 : list rip_entry :=
  [mkRipE "cmovle_ro/1" false (fun a r n e => i_cmovle_ro (r 0) (OMem a));
   mkRipE "cmovna_rro/2" true (fun a r n e => i_cmovna_rro (r 0) (r 1) (OMem a));
   mkRipE "cmovna_ro/1" false (fun a r n e => i_cmovna_ro (r 0) (OMem a));
   mkRipE "cmovnae_rro/2" true (fun a r n e => i_cmovnae_rro (r 0) (r 1) (OMem a));
   mkRipE "cmovnae_ro/1" false (fun a r n e => i_cmovnae_ro (r 0) (OMem a));
   mkRipE "cmovnb_rro/2" true (fun a r n e => i_cmovnb_rro (r 0) (r 1) (OMem a));
   mkRipE "cmovnb_ro/1" false (fun a r n e => i_cmovnb_ro (r 0) (OMem a));
   mkRipE "cmovnbe_rro/2" true (fun a r n e => i_cmovnbe_rro (r 0) (r 1) (OMem a));
   mkRipE "cmovnbe_ro/1" false (fun a r n e => i_cmovnbe_ro (r 0) (OMem a));
   mkRipE "cmovnc_rro/2" true (fun a r n e => i_cmovnc_rro (r 0) (r 1) (OMem a));
   mkRipE "cmovnc_ro/1" false (fun a r n e => i_cmovnc_ro (r 0) (OMem a));
   mkRipE "cmovne_rro/2" true (fun a r n e => i_cmovne_rro (r 0) (r 1) (OMem a));
   mkRipE "cmovne_ro/1" false (fun a r n e => i_cmovne_ro (r 0) (OMem a));
   mkRipE "cmovng_rro/2" true (fun a r n e => i_cmovng_rro (r 0) (r 1) (OMem a));
   mkRipE "cmovng_ro/1" false (fun a r n e => i_cmovng_ro (r 0) (OMem a));
   mkRipE "cmovnge_rro/2" true (fun a r n e => i_cmovnge_rro (r 0) (r 1) (OMem a));
   mkRipE "cmovnge_ro/1" false (fun a r n e => i_cmovnge_ro (r 0) (OMem a));
   mkRipE "cmovnl_rro/2" true (fun a r n e => i_cmovnl_rro (r 0) (r 1) (OMem a));
   mkRipE "cmovnl_ro/1" false (fun a r n e => i_cmovnl_ro (r 0) (OMem a));
   mkRipE "cmovnle_rro/2" true (fun a r n e => i_cmovnle_rro (r 0) (r 1) (OMem a));
   mkRipE "cmovnle_ro/1" false (fun a r n e => i_cmovnle_ro (r 0) (OMem a));
   mkRipE "cmovno_rro/2" true (fun a r n e => i_cmovno_rro (r 0) (r 1) (OMem a));
   mkRipE "cmovno_ro/1" false (fun a r n e => i_cmovno_ro (r 0) (OMem a));
   mkRipE "cmovnp_rro/2" true (fun a r n e => i_cmovnp_rro (r 0) (r 1) (OMem a));
   mkRipE "cmovnp_ro/1" false (fun a r n e => i_cmovnp_ro (r 0) (OMem a))].
Lemma rips9_ok : Forall entry_refers rips9.
Proof. unfold rips9. 
row. { unfold i_cmovle_ro. ref. }
row. { unfold i_cmovna_rro. ref. }
row. { unfold i_cmovna_ro. ref. }
row. { unfold i_cmovnae_rro. ref. }
row. { unfold i_cmovnae_ro. ref. }
row. { unfold i_cmovnb_rro. ref. }
row. { unfold i_cmovnb_ro. ref. }
row. { unfold i_cmovnbe_rro. ref. }
row. { unfold i_cmovnbe_ro. ref. }
row. { unfold i_cmovnc_rro. ref. }
row. { unfold i_cmovnc_ro. ref. }
row. { unfold i_cmovne_rro. ref. }
row. { unfold i_cmovne_ro. ref. }
row. { unfold i_cmovng_rro. ref. }
row. { unfold i_cmovng_ro. ref. }
row. { unfold i_cmovnge_rro. ref. }
row. { unfold i_cmovnge_ro. ref. }
row. { unfold i_cmovnl_rro. ref. }
row. { unfold i_cmovnl_ro. ref. }
row. { unfold i_cmovnle_rro. ref. }
row. { unfold i_cmovnle_ro. ref. }
row. { unfold i_cmovno_rro. ref. }
row. { unfold i_cmovno_ro. ref. }
row. { unfold i_cmovnp_rro. ref. }
row. { unfold i_cmovnp_ro. ref. }
apply Forall_nil. Qed.
Definition rips10 : list rip_entry :=
  [mkRipE "cmovns_rro/2" true (fun a r n e => i_cmovns_rro (r 0) (r 1) (OMem a));
   mkRipE "cmovns_ro/1" false (fun a r n e => i_cmovns_ro (r 0) (OMem a));
   mkRipE "cmovnz_rro/2" true (fun a r n e => i_cmovnz_rro (r 0) (r 1) (OMem a));
   mkRipE "cmovnz_ro/1" false (fun a r n e => i_cmovnz_ro (r 0) (OMem a));
   mkRipE "cmovo_rro/2" true (fun a r n e => i_cmovo_rro (r 0) (r 1) (OMem a));
   mkRipE "cmovo_ro/1" false (fun a r n e => i_cmovo_ro (r 0) (OMem a));
   mkRipE "cmovp_rro/2" true (fun a r n e => i_cmovp_rro (r 0) (r 1) (OMem a));
   mkRipE "cmovp_ro/1" false (fun a r n e => i_cmovp_ro (r 0) (OMem a));
   mkRipE "cmovpe_rro/2" true (fun a r n e => i_cmovpe_rro (r 0) (r 1) (OMem a));
   mkRipE "cmovpe_ro/1" false (fun a r n e => i_cmovpe_ro (r 0) (OMem a));
   mkRipE "cmovpo_rro/2" true (fun a r n e => i_cmovpo_rro (r 0) (r 1) (OMem a));
   mkRipE "cmovpo_ro/1" false (fun a r n e => i_cmovpo_ro (r 0) (OMem a));
   mkRipE "cmovs_rro/2" true (fun a r n e => i_cmovs_rro (r 0) (r 1) (OMem a));
   mkRipE "cmovs_ro/1" false (fun a r n e => i_cmovs_ro (r 0) (OMem a));
   mkRipE "cmovz_rro/2" true (fun a r n e => i_cmovz_rro (r 0) (r 1) (OMem a));
   mkRipE "cmovz_ro/1" false (fun a r n e => i_cmovz_ro (r 0) (OMem a));
   mkRipE "cmp_oi/0" false (fun a r n e => i_cmp_oi (OMem a) (n 1));
   mkRipE "cmp_oo/0" false (fun a r n e => i_cmp_oo (OMem a) (OReg (r 1)));
   mkRipE "cmp_oo/1" false (fun a r n e => i_cmp_oo (OReg (r 0)) (OMem a));
   mkRipE "cmppd/1" false (fun a r n e => i_cmppd (r 0) (OMem a) (n 2));
   mkRipE "cmpeqpd/1" false (fun a r n e => i_cmpeqpd (r 0) (OMem a));
   mkRipE "cmpps/1" false (fun a r n e => i_cmpps (r 0) (OMem a) (n 2));
   mkRipE "cmpeqps/1" false (fun a r n e => i_cmpeqps (r 0) (OMem a));
   mkRipE "cmpsd_xoi/1" false (fun a r n e => i_cmpsd_xoi (r 0) (OMem a) (n 2));
   mkRipE "cmpeqsd/1" false (fun a r n e => i_cmpeqsd (r 0) (OMem a))].
Lemma rips10_ok : Forall entry_refers rips10.
Proof. unfold rips10. 
row. { unfold i_cmovns_rro. ref. }
row. { unfold i_cmovns_ro. ref. }
row. { unfold i_cmovnz_rro. ref. }
row. { unfold i_cmovnz_ro. ref. }
row. { unfold i_cmovo_rro. ref. }
row. { unfold i_cmovo_ro. ref. }
row. { unfold i_cmovp_rro. ref. }
row. { unfold i_cmovp_ro. ref. }
row. { unfold i_cmovpe_rro. ref. }
row. { unfold i_cmovpe_ro. ref. }
row. { unfold i_cmovpo_rro. ref. }
row. { unfold i_cmovpo_ro. ref. }
row. { unfold i_cmovs_rro. ref. }
row. { unfold i_cmovs_ro. ref. }
row. { unfold i_cmovz_rro. ref. }
row. { unfold i_cmovz_ro. ref. }
row. { unfold i_cmp_oi. ref. }
row. { unfold i_cmp_oo. ref. }
row. { unfold i_cmp_oo. ref. }
row. { unfold i_cmppd. ref. }
row. { unfold i_cmpeqpd, i_cmppd. ref. }
row. { unfold i_cmpps. ref. }
row. { unfold i_cmpeqps, i_cmpps. ref. }
row. { unfold i_cmpsd_xoi. ref. }
row. { unfold i_cmpeqsd, i_cmpsd_xoi. ref. }
apply Forall_nil. Qed.
Definition rips11 : list rip_entry :=
  [mkRipE "cmpss/1" false (fun a r n e => i_cmpss (r 0) (OMem a) (n 2));
   mkRipE "cmpeqss/1" false (fun a r n e => i_cmpeqss (r 0) (OMem a));
   mkRipE "cmplepd/1" false (fun a r n e => i_cmplepd (r 0) (OMem a));
   mkRipE "cmpleps/1" false (fun a r n e => i_cmpleps (r 0) (OMem a));
   mkRipE "cmplesd/1" false (fun a r n e => i_cmplesd (r 0) (OMem a));
   mkRipE "cmpless/1" false (fun a r n e => i_cmpless (r 0) (OMem a));
   mkRipE "cmpltpd/1" false (fun a r n e => i_cmpltpd (r 0) (OMem a));
   mkRipE "cmpltps/1" false (fun a r n e => i_cmpltps (r 0) (OMem a));
   mkRipE "cmpltsd/1" false (fun a r n e => i_cmpltsd (r 0) (OMem a));
   mkRipE "cmpltss/1" false (fun a r n e => i_cmpltss (r 0) (OMem a));
   mkRipE "cmpneqpd/1" false (fun a r n e => i_cmpneqpd (r 0) (OMem a));
   mkRipE "cmpneqps/1" false (fun a r n e => i_cmpneqps (r 0) (OMem a));
   mkRipE "cmpneqsd/1" false (fun a r n e => i_cmpneqsd (r 0) (OMem a));
   mkRipE "cmpneqss/1" false (fun a r n e => i_cmpneqss (r 0) (OMem a));
   mkRipE "cmpnlepd/1" false (fun a r n e => i_cmpnlepd (r 0) (OMem a));
   mkRipE "cmpnleps/1" false (fun a r n e => i_cmpnleps (r 0) (OMem a));
   mkRipE "cmpnlesd/1" false (fun a r n e => i_cmpnlesd (r 0) (OMem a));
   mkRipE "cmpnless/1" false (fun a r n e => i_cmpnless (r 0) (OMem a));
   mkRipE "cmpnltpd/1" false (fun a r n e => i_cmpnltpd (r 0) (OMem a));
   mkRipE "cmpnltps/1" false (fun a r n e => i_cmpnltps (r 0) (OMem a));
   mkRipE "cmpnltsd/1" false (fun a r n e => i_cmpnltsd (r 0) (OMem a));
   mkRipE "cmpnltss/1" false (fun a r n e => i_cmpnltss (r 0) (OMem a));
   mkRipE "cmpordpd/1" false (fun a r n e => i_cmpordpd (r 0) (OMem a));
   mkRipE "cmpordps/1" false (fun a r n e => i_cmpordps (r 0) (OMem a));
   mkRipE "cmpordsd/1" false (fun a r n e => i_cmpordsd (r 0) (OMem a))].
Lemma rips11_ok : Forall entry_refers rips11.
Proof. unfold rips11. 
row. { unfold i_cmpss. ref. }
row. { unfold i_cmpeqss, i_cmpss. ref. }
row. { unfold i_cmplepd, i_cmppd. ref. }
row. { unfold i_cmpleps, i_cmpps. ref. }
row. { unfold i_cmplesd, i_cmpsd_xoi. ref. }
row. { unfold i_cmpless, i_cmpss. ref. }
row. { unfold i_cmpltpd, i_cmppd. ref. }
row. { unfold i_cmpltps, i_cmpps. ref. }
row. { unfold i_cmpltsd, i_cmpsd_xoi. ref. }
row. { unfold i_cmpltss, i_cmpss. ref. }
row. { unfold i_cmpneqpd, i_cmppd. ref. }
row. { unfold i_cmpneqps, i_cmpps. ref. }
row. { unfold i_cmpneqsd, i_cmpsd_xoi. ref. }
row. { unfold i_cmpneqss, i_cmpss. ref. }
row. { unfold i_cmpnlepd, i_cmppd. ref. }
row. { unfold i_cmpnleps, i_cmpps. ref. }
row. { unfold i_cmpnlesd, i_cmpsd_xoi. ref. }
row. { unfold i_cmpnless, i_cmpss. ref. }
row. { unfold i_cmpnltpd, i_cmppd. ref. }
row. { unfold i_cmpnltps, i_cmpps. ref. }
row. { unfold i_cmpnltsd, i_cmpsd_xoi. ref. }
row. { unfold i_cmpnltss, i_cmpss. ref. }
row. { unfold i_cmpordpd, i_cmppd. ref. }
row. { unfold i_cmpordps, i_cmpps. ref. }
row. { unfold i_cmpordsd, i_cmpsd_xoi. ref. }
apply Forall_nil. Qed.
Definition rips12 : list rip_entry :=
  [mkRipE "cmpordss/1" false (fun a r n e => i_cmpordss (r 0) (OMem a));
   mkRipE "cmpunordpd/1" false (fun a r n e => i_cmpunordpd (r 0) (OMem a));
   mkRipE "cmpunordps/1" false (fun a r n e => i_cmpunordps (r 0) (OMem a));
   mkRipE "cmpunordsd/1" false (fun a r n e => i_cmpunordsd (r 0) (OMem a));
   mkRipE "cmpunordss/1" false (fun a r n e => i_cmpunordss (r 0) (OMem a));
   mkRipE "cmpxchg/0" false (fun a r n e => i_cmpxchg (OMem a) (r 1));
   mkRipE "cmpxchg8b/0" false (fun a r n e => i_cmpxchg8b a);
   mkRipE "comisd/1" false (fun a r n e => i_comisd (r 0) (OMem a));
   mkRipE "comiss/1" false (fun a r n e => i_comiss (r 0) (OMem a));
   mkRipE "crc32/1" false (fun a r n e => i_crc32 (r 0) (OMem a));
   mkRipE "ctesta_ori/0" false (fun a r n e => i_ctesta_ori (OMem a) (r 1) (n 2));
   mkRipE "ctesta_oii/0" false (fun a r n e => i_ctesta_oii (OMem a) (n 1) (n 2));
   mkRipE "ctestae_ori/0" false (fun a r n e => i_ctestae_ori (OMem a) (r 1) (n 2));
   mkRipE "ctestae_oii/0" false (fun a r n e => i_ctestae_oii (OMem a) (n 1) (n 2));
   mkRipE "ctestb_ori/0" false (fun a r n e => i_ctestb_ori (OMem a) (r 1) (n 2));
   mkRipE "ctestb_oii/0" false (fun a r n e => i_ctestb_oii (OMem a) (n 1) (n 2));
   mkRipE "ctestbe_ori/0" false (fun a r n e => i_ctestbe_ori (OMem a) (r 1) (n 2));
   mkRipE "ctestbe_oii/0" false (fun a r n e => i_ctestbe_oii (OMem a) (n 1) (n 2));
   mkRipE "ctestc_ori/0" false (fun a r n e => i_ctestc_ori (OMem a) (r 1) (n 2));
   mkRipE "ctestc_oii/0" false (fun a r n e => i_ctestc_oii (OMem a) (n 1) (n 2));
   mkRipE "cteste_ori/0" false (fun a r n e => i_cteste_ori (OMem a) (r 1) (n 2));
   mkRipE "cteste_oii/0" false (fun a r n e => i_cteste_oii (OMem a) (n 1) (n 2));
   mkRipE "ctestf_ori/0" false (fun a r n e => i_ctestf_ori (OMem a) (r 1) (n 2));
   mkRipE "ctestf_oii/0" false (fun a r n e => i_ctestf_oii (OMem a) (n 1) (n 2));
   mkRipE "ctestg_ori/0" false (fun a r n e => i_ctestg_ori (OMem a) (r 1) (n 2))].
Lemma rips12_ok : Forall entry_refers rips12.
Proof. unfold rips12. 
row. { unfold i_cmpordss, i_cmpss. ref. }
row. { unfold i_cmpunordpd, i_cmppd. ref. }
row. { unfold i_cmpunordps, i_cmpps. ref. }
row. { unfold i_cmpunordsd, i_cmpsd_xoi. ref. }
row. { unfold i_cmpunordss, i_cmpss. ref. }
row. { unfold i_cmpxchg. ref. }
row. { unfold i_cmpxchg8b. ref. }
row. { unfold i_comisd. ref. }
row. { unfold i_comiss. ref. }
row. { unfold i_crc32. ref. }
row. { unfold i_ctesta_ori. ref. }
row. { unfold i_ctesta_oii. ref. }
row. { unfold i_ctestae_ori. ref. }
row. { unfold i_ctestae_oii. ref. }
row. { unfold i_ctestb_ori. ref. }
row. { unfold i_ctestb_oii. ref. }
row. { unfold i_ctestbe_ori. ref. }
row. { unfold i_ctestbe_oii. ref. }
row. { unfold i_ctestc_ori. ref. }
row. { unfold i_ctestc_oii. ref. }
row. { unfold i_cteste_ori. ref. }
row. { unfold i_cteste_oii. ref. }
row. { unfold i_ctestf_ori. ref. }
row. { unfold i_ctestf_oii. ref. }
row. { unfold i_ctestg_ori. ref. }
apply Forall_nil. Qed.
Definition rips13 : list rip_entry :=
  [mkRipE "ctestg_oii/0" false (fun a r n e => i_ctestg_oii (OMem a) (n 1) (n 2));
   mkRipE "ctestge_ori/0" false (fun a r n e => i_ctestge_ori (OMem a) (r 1) (n 2));
   mkRipE "ctestge_oii/0" false (fun a r n e => i_ctestge_oii (OMem a) (n 1) (n 2));
   mkRipE "ctestl_ori/0" false (fun a r n e => i_ctestl_ori (OMem a) (r 1) (n 2));
   mkRipE "ctestl_oii/0" false (fun a r n e => i_ctestl_oii (OMem a) (n 1) (n 2));
   mkRipE "ctestle_ori/0" false (fun a r n e => i_ctestle_ori (OMem a) (r 1) (n 2));
   mkRipE "ctestle_oii/0" false (fun a r n e => i_ctestle_oii (OMem a) (n 1) (n 2));
   mkRipE "ctestna_ori/0" false (fun a r n e => i_ctestna_ori (OMem a) (r 1) (n 2));
   mkRipE "ctestna_oii/0" false (fun a r n e => i_ctestna_oii (OMem a) (n 1) (n 2));
   mkRipE "ctestnae_ori/0" false (fun a r n e => i_ctestnae_ori (OMem a) (r 1) (n 2));
   mkRipE "ctestnae_oii/0" false (fun a r n e => i_ctestnae_oii (OMem a) (n 1) (n 2));
   mkRipE "ctestnb_ori/0" false (fun a r n e => i_ctestnb_ori (OMem a) (r 1) (n 2));
   mkRipE "ctestnb_oii/0" false (fun a r n e => i_ctestnb_oii (OMem a) (n 1) (n 2));
   mkRipE "ctestnbe_ori/0" false (fun a r n e => i_ctestnbe_ori (OMem a) (r 1) (n 2));
   mkRipE "ctestnbe_oii/0" false (fun a r n e => i_ctestnbe_oii (OMem a) (n 1) (n 2));
   mkRipE "ctestnc_ori/0" false (fun a r n e => i_ctestnc_ori (OMem a) (r 1) (n 2));
   mkRipE "ctestnc_oii/0" false (fun a r n e => i_ctestnc_oii (OMem a) (n 1) (n 2));
   mkRipE "ctestne_ori/0" false (fun a r n e => i_ctestne_ori (OMem a) (r 1) (n 2));
   mkRipE "ctestne_oii/0" false (fun a r n e => i_ctestne_oii (OMem a) (n 1) (n 2));
   mkRipE "ctestng_ori/0" false (fun a r n e => i_ctestng_ori (OMem a) (r 1) (n 2));
   mkRipE "ctestng_oii/0" false (fun a r n e => i_ctestng_oii (OMem a) (n 1) (n 2));
   mkRipE "ctestnge_ori/0" false (fun a r n e => i_ctestnge_ori (OMem a) (r 1) (n 2));
   mkRipE "ctestnge_oii/0" false (fun a r n e => i_ctestnge_oii (OMem a) (n 1) (n 2));
   mkRipE "ctestnl_ori/0" false (fun a r n e => i_ctestnl_ori (OMem a) (r 1) (n 2));
   mkRipE "ctestnl_oii/0" false (fun a r n e => i_ctestnl_oii (OMem a) (n 1) (n 2))].
Lemma rips13_ok : Forall entry_refers rips13.
Proof. unfold rips13. 
row. { unfold i_ctestg_oii. ref. }
row. { unfold i_ctestge_ori. ref. }
row. { unfold i_ctestge_oii. ref. }
row. { unfold i_ctestl_ori. ref. }
row. { unfold i_ctestl_oii. ref. }
row. { unfold i_ctestle_ori. ref. }
row. { unfold i_ctestle_oii. ref. }
row. { unfold i_ctestna_ori. ref. }
row. { unfold i_ctestna_oii. ref. }
row. { unfold i_ctestnae_ori. ref. }
row. { unfold i_ctestnae_oii. ref. }
row. { unfold i_ctestnb_ori. ref. }
row. { unfold i_ctestnb_oii. ref. }
row. { unfold i_ctestnbe_ori. ref. }
row. { unfold i_ctestnbe_oii. ref. }
row. { unfold i_ctestnc_ori. ref. }
row. { unfold i_ctestnc_oii. ref. }
row. { unfold i_ctestne_ori. ref. }
row. { unfold i_ctestne_oii. ref. }
row. { unfold i_ctestng_ori. ref. }
row. { unfold i_ctestng_oii. ref. }
row. { unfold i_ctestnge_ori. ref. }
row. { unfold i_ctestnge_oii. ref. }
row. { unfold i_ctestnl_ori. ref. }
row. { unfold i_ctestnl_oii. ref. }
apply Forall_nil. Qed.
Definition rips14 : list rip_entry :=
  [mkRipE "ctestnle_ori/0" false (fun a r n e => i_ctestnle_ori (OMem a) (r 1) (n 2));
   mkRipE "ctestnle_oii/0" false (fun a r n e => i_ctestnle_oii (OMem a) (n 1) (n 2));
   mkRipE "ctestno_ori/0" false (fun a r n e => i_ctestno_ori (OMem a) (r 1) (n 2));
   mkRipE "ctestno_oii/0" false (fun a r n e => i_ctestno_oii (OMem a) (n 1) (n 2));
   mkRipE "ctestns_ori/0" false (fun a r n e => i_ctestns_ori (OMem a) (r 1) (n 2));
   mkRipE "ctestns_oii/0" false (fun a r n e => i_ctestns_oii (OMem a) (n 1) (n 2));
   mkRipE "ctestnz_ori/0" false (fun a r n e => i_ctestnz_ori (OMem a) (r 1) (n 2));
   mkRipE "ctestnz_oii/0" false (fun a r n e => i_ctestnz_oii (OMem a) (n 1) (n 2));
   mkRipE "ctesto_ori/0" false (fun a r n e => i_ctesto_ori (OMem a) (r 1) (n 2));
   mkRipE "ctesto_oii/0" false (fun a r n e => i_ctesto_oii (OMem a) (n 1) (n 2));
   mkRipE "ctests_ori/0" false (fun a r n e => i_ctests_ori (OMem a) (r 1) (n 2));
   mkRipE "ctests_oii/0" false (fun a r n e => i_ctests_oii (OMem a) (n 1) (n 2));
   mkRipE "ctestt_ori/0" false (fun a r n e => i_ctestt_ori (OMem a) (r 1) (n 2));
   mkRipE "ctestt_oii/0" false (fun a r n e => i_ctestt_oii (OMem a) (n 1) (n 2));
   mkRipE "ctestz_ori/0" false (fun a r n e => i_ctestz_ori (OMem a) (r 1) (n 2));
   mkRipE "ctestz_oii/0" false (fun a r n e => i_ctestz_oii (OMem a) (n 1) (n 2));
   mkRipE "cvtdq2pd/1" false (fun a r n e => i_cvtdq2pd (r 0) (OMem a));
   mkRipE "cvtdq2ps/1" false (fun a r n e => i_cvtdq2ps (r 0) (OMem a));
   mkRipE "cvtpd2dq/1" false (fun a r n e => i_cvtpd2dq (r 0) (OMem a));
   mkRipE "cvtpd2pi/1" false (fun a r n e => i_cvtpd2pi (r 0) (OMem a));
   mkRipE "cvtpd2ps/1" false (fun a r n e => i_cvtpd2ps (r 0) (OMem a));
   mkRipE "cvtpi2pd/1" false (fun a r n e => i_cvtpi2pd (r 0) (OMem a));
   mkRipE "cvtpi2ps/1" false (fun a r n e => i_cvtpi2ps (r 0) (OMem a));
   mkRipE "cvtps2dq/1" false (fun a r n e => i_cvtps2dq (r 0) (OMem a));
   mkRipE "cvtps2pd/1" false (fun a r n e => i_cvtps2pd (r 0) (OMem a))].
Lemma rips14_ok : Forall entry_refers rips14.
Proof. unfold rips14. 
row. { unfold i_ctestnle_ori. ref. }
row. { unfold i_ctestnle_oii. ref. }
row. { unfold i_ctestno_ori. ref. }
row. { unfold i_ctestno_oii. ref. }
row. { unfold i_ctestns_ori. ref. }
row. { unfold i_ctestns_oii. ref. }
row. { unfold i_ctestnz_ori. ref. }
row. { unfold i_ctestnz_oii. ref. }
row. { unfold i_ctesto_ori. ref. }
row. { unfold i_ctesto_oii. ref. }
row. { unfold i_ctests_ori. ref. }
row. { unfold i_ctests_oii. ref. }
row. { unfold i_ctestt_ori. ref. }
row. { unfold i_ctestt_oii. ref. }
row. { unfold i_ctestz_ori. ref. }
row. { unfold i_ctestz_oii. ref. }
row. { unfold i_cvtdq2pd. ref. }
row. { unfold i_cvtdq2ps. ref. }
row. { unfold i_cvtpd2dq. ref. }
row. { unfold i_cvtpd2pi. ref. }
row. { unfold i_cvtpd2ps. ref. }
row. { unfold i_cvtpi2pd. ref. }
row. { unfold i_cvtpi2ps. ref. }
row. { unfold i_cvtps2dq. ref. }
row. { unfold i_cvtps2pd. ref. }
apply Forall_nil. Qed.
Definition rips15 : list rip_entry :=
  [mkRipE "cvtps2pi/1" false (fun a r n e => i_cvtps2pi (r 0) (OMem a));
   mkRipE "cvtsd2si/1" false (fun a r n e => i_cvtsd2si (r 0) (OMem a));
   mkRipE "cvtsd2ss/1" false (fun a r n e => i_cvtsd2ss (r 0) (OMem a));
   mkRipE "cvtsi2sd/1" false (fun a r n e => i_cvtsi2sd (r 0) (OMem a));
   mkRipE "cvtsi2ss/1" false (fun a r n e => i_cvtsi2ss (r 0) (OMem a));
   mkRipE "cvtss2sd/1" false (fun a r n e => i_cvtss2sd (r 0) (OMem a));
   mkRipE "cvtss2si/1" false (fun a r n e => i_cvtss2si (r 0) (OMem a));
   mkRipE "cvttpd2dq/1" false (fun a r n e => i_cvttpd2dq (r 0) (OMem a));
   mkRipE "cvttpd2pi/1" false (fun a r n e => i_cvttpd2pi (r 0) (OMem a));
   mkRipE "cvttps2dq/1" false (fun a r n e => i_cvttps2dq (r 0) (OMem a));
   mkRipE "cvttps2pi/1" false (fun a r n e => i_cvttps2pi (r 0) (OMem a));
   mkRipE "cvttsd2si/1" false (fun a r n e => i_cvttsd2si (r 0) (OMem a));
   mkRipE "cvttss2si/1" false (fun a r n e => i_cvttss2si (r 0) (OMem a));
   mkRipE "dec_o/0" false (fun a r n e => i_dec_o (OMem a));
   mkRipE "dec_ro/1" false (fun a r n e => i_dec_ro (r 0) (OMem a));
   mkRipE "div/0" false (fun a r n e => i_div (OMem a));
   mkRipE "divpd/1" false (fun a r n e => i_divpd (r 0) (OMem a));
   mkRipE "divps/1" false (fun a r n e => i_divps (r 0) (OMem a));
   mkRipE "divsd/1" false (fun a r n e => i_divsd (r 0) (OMem a));
   mkRipE "divss/1" false (fun a r n e => i_divss (r 0) (OMem a));
   mkRipE "dppd/1" false (fun a r n e => i_dppd (r 0) (OMem a) (n 2));
   mkRipE "dpps/1" false (fun a r n e => i_dpps (r 0) (OMem a) (n 2));
   mkRipE "extractps/0" false (fun a r n e => i_extractps (OMem a) (r 1) (n 2));
   mkRipE "fadd_a/0" false (fun a r n e => i_fadd_a a);
   mkRipE "fbld/0" false (fun a r n e => i_fbld a)].
Lemma rips15_ok : Forall entry_refers rips15.
Proof. unfold rips15. 
row. { unfold i_cvtps2pi. ref. }
row. { unfold i_cvtsd2si. ref. }
row. { unfold i_cvtsd2ss. ref. }
row. { unfold i_cvtsi2sd. ref. }
row. { unfold i_cvtsi2ss. ref. }
row. { unfold i_cvtss2sd. ref. }
row. { unfold i_cvtss2si. ref. }
row. { unfold i_cvttpd2dq. ref. }
row. { unfold i_cvttpd2pi. ref. }
row. { unfold i_cvttps2dq. ref. }
row. { unfold i_cvttps2pi. ref. }
row. { unfold i_cvttsd2si. ref. }
row. { unfold i_cvttss2si. ref. }
row. { unfold i_dec_o. ref. }
row. { unfold i_dec_ro. ref. }
row. { unfold i_div. ref. }
row. { unfold i_divpd. ref. }
row. { unfold i_divps. ref. }
row. { unfold i_divsd. ref. }
row. { unfold i_divss. ref. }
row. { unfold i_dppd. ref. }
row. { unfold i_dpps. ref. }
row. { unfold i_extractps. ref. }
row. { unfold i_fadd_a. ref. }
row. { unfold i_fbld. ref. }
apply Forall_nil. Qed.
Definition rips16 : list rip_entry :=
  [mkRipE "fbstp/0" false (fun a r n e => i_fbstp a);
   mkRipE "fcom_a/0" false (fun a r n e => i_fcom_a a);
   mkRipE "fcomp_a/0" false (fun a r n e => i_fcomp_a a);
   mkRipE "fdiv_a/0" false (fun a r n e => i_fdiv_a a);
   mkRipE "fdivr_a/0" false (fun a r n e => i_fdivr_a a);
   mkRipE "fiadd/0" false (fun a r n e => i_fiadd a);
   mkRipE "ficom/0" false (fun a r n e => i_ficom a);
   mkRipE "ficomp/0" false (fun a r n e => i_ficomp a);
   mkRipE "fidiv/0" false (fun a r n e => i_fidiv a);
   mkRipE "fidivr/0" false (fun a r n e => i_fidivr a);
   mkRipE "fild/0" false (fun a r n e => i_fild a);
   mkRipE "fimul/0" false (fun a r n e => i_fimul a);
   mkRipE "fist/0" false (fun a r n e => i_fist a);
   mkRipE "fistp/0" false (fun a r n e => i_fistp a);
   mkRipE "fisttp/0" false (fun a r n e => i_fisttp a);
   mkRipE "fisub/0" false (fun a r n e => i_fisub a);
   mkRipE "fisubr/0" false (fun a r n e => i_fisubr a);
   mkRipE "fld_a/0" false (fun a r n e => i_fld_a a);
   mkRipE "fldcw/0" false (fun a r n e => i_fldcw a);
   mkRipE "fldenv/0" false (fun a r n e => i_fldenv a);
   mkRipE "fmul_a/0" false (fun a r n e => i_fmul_a a);
   mkRipE "fnsave/0" false (fun a r n e => i_fnsave a);
   mkRipE "fnstcw/0" false (fun a r n e => i_fnstcw a);
   mkRipE "fnstenv/0" false (fun a r n e => i_fnstenv a);
   mkRipE "fnstsw_a/0" false (fun a r n e => i_fnstsw_a a)].
Lemma rips16_ok : Forall entry_refers rips16.
Proof. unfold rips16. 
row. { unfold i_fbstp. ref. }
row. { unfold i_fcom_a. ref. }
row. { unfold i_fcomp_a. ref. }
row. { unfold i_fdiv_a. ref. }
row. { unfold i_fdivr_a. ref. }
row. { unfold i_fiadd. ref. }
row. { unfold i_ficom. ref. }
row. { unfold i_ficomp. ref. }
row. { unfold i_fidiv. ref. }
row. { unfold i_fidivr. ref. }
row. { unfold i_fild. ref. }
row. { unfold i_fimul. ref. }
row. { unfold i_fist. ref. }
row. { unfold i_fistp. ref. }
row. { unfold i_fisttp. ref. }
row. { unfold i_fisub. ref. }
row. { unfold i_fisubr. ref. }
row. { unfold i_fld_a. ref. }
row. { unfold i_fldcw. ref. }
row. { unfold i_fldenv. ref. }
row. { unfold i_fmul_a. ref. }
row. { unfold i_fnsave. ref. }
row. { unfold i_fnstcw. ref. }
row. { unfold i_fnstenv. ref. }
row. { unfold i_fnstsw_a. ref. }
apply Forall_nil. Qed.
Definition rips17 : list rip_entry :=
  [mkRipE "frstor/0" false (fun a r n e => i_frstor a);
   mkRipE "fsave/0" false (fun a r n e => i_fsave a);
   mkRipE "fst_a/0" false (fun a r n e => i_fst_a a);
   mkRipE "fstcw/0" false (fun a r n e => i_fstcw a);
   mkRipE "fstenv/0" false (fun a r n e => i_fstenv a);
   mkRipE "fstp_a/0" false (fun a r n e => i_fstp_a a);
   mkRipE "fstsw_a/0" false (fun a r n e => i_fstsw_a a);
   mkRipE "fsub_a/0" false (fun a r n e => i_fsub_a a);
   mkRipE "fsubr_a/0" false (fun a r n e => i_fsubr_a a);
   mkRipE "fxrstor/0" false (fun a r n e => i_fxrstor a);
   mkRipE "gf2p8affineinvqb/1" false (fun a r n e => i_gf2p8affineinvqb (r 0) (OMem a) (n 2));
   mkRipE "gf2p8affineqb/1" false (fun a r n e => i_gf2p8affineqb (r 0) (OMem a) (n 2));
   mkRipE "gf2p8mulb/1" false (fun a r n e => i_gf2p8mulb (r 0) (OMem a));
   mkRipE "haddpd/1" false (fun a r n e => i_haddpd (r 0) (OMem a));
   mkRipE "haddps/1" false (fun a r n e => i_haddps (r 0) (OMem a));
   mkRipE "hsubpd/1" false (fun a r n e => i_hsubpd (r 0) (OMem a));
   mkRipE "hsubps/1" false (fun a r n e => i_hsubps (r 0) (OMem a));
   mkRipE "idiv/0" false (fun a r n e => i_idiv (OMem a));
   mkRipE "imul_o/0" false (fun a r n e => i_imul_o (OMem a));
   mkRipE "imul_rro/2" true (fun a r n e => i_imul_rro (r 0) (r 1) (OMem a));
   mkRipE "imul_ro/1" false (fun a r n e => i_imul_ro (r 0) (OMem a));
   mkRipE "inc_o/0" false (fun a r n e => i_inc_o (OMem a));
   mkRipE "inc_ro/1" false (fun a r n e => i_inc_ro (r 0) (OMem a));
   mkRipE "insertps/1" false (fun a r n e => i_insertps (r 0) (OMem a) (n 2));
   mkRipE "lddqu/1" false (fun a r n e => i_lddqu (r 0) a)].
Lemma rips17_ok : Forall entry_refers rips17.
Proof. unfold rips17. 
row. { unfold i_frstor. ref. }
row. { unfold i_fsave. ref. }
row. { unfold i_fst_a. ref. }
row. { unfold i_fstcw. ref. }
row. { unfold i_fstenv. ref. }
row. { unfold i_fstp_a. ref. }
row. { unfold i_fstsw_a. ref. }
row. { unfold i_fsub_a. ref. }
row. { unfold i_fsubr_a. ref. }
row. { unfold i_fxrstor. ref. }
row. { unfold i_gf2p8affineinvqb. ref. }
row. { unfold i_gf2p8affineqb. ref. }
row. { unfold i_gf2p8mulb. ref. }
row. { unfold i_haddpd. ref. }
row. { unfold i_haddps. ref. }
row. { unfold i_hsubpd. ref. }
row. { unfold i_hsubps. ref. }
row. { unfold i_idiv. ref. }
row. { unfold i_imul_o. ref. }
row. { unfold i_imul_rro. ref. }
row. { unfold i_imul_ro. ref. }
row. { unfold i_inc_o. ref. }
row. { unfold i_inc_ro. ref. }
row. { unfold i_insertps. ref. }
row. { unfold i_lddqu. ref. }
apply Forall_nil. Qed.
Definition rips18 : list rip_entry :=
  [mkRipE "ldmxcsr/0" false (fun a r n e => i_ldmxcsr a);
   mkRipE "lea/1" false (fun a r n e => i_lea (r 0) a);
   mkRipE "lfs/1" false (fun a r n e => i_lfs (r 0) a);
   mkRipE "lgs/1" false (fun a r n e => i_lgs (r 0) a);
   mkRipE "lss/1" false (fun a r n e => i_lss (r 0) a);
   mkRipE "lzcnt/1" false (fun a r n e => i_lzcnt (r 0) (OMem a));
   mkRipE "maxpd/1" false (fun a r n e => i_maxpd (r 0) (OMem a));
   mkRipE "maxps/1" false (fun a r n e => i_maxps (r 0) (OMem a));
   mkRipE "maxsd/1" false (fun a r n e => i_maxsd (r 0) (OMem a));
   mkRipE "maxss/1" false (fun a r n e => i_maxss (r 0) (OMem a));
   mkRipE "minpd/1" false (fun a r n e => i_minpd (r 0) (OMem a));
   mkRipE "minps/1" false (fun a r n e => i_minps (r 0) (OMem a));
   mkRipE "minsd/1" false (fun a r n e => i_minsd (r 0) (OMem a));
   mkRipE "minss/1" false (fun a r n e => i_minss (r 0) (OMem a));
   mkRipE "movapd_ax/0" false (fun a r n e => i_movapd_ax a (r 1));
   mkRipE "movapd_xo/1" false (fun a r n e => i_movapd_xo (r 0) (OMem a));
   mkRipE "movaps_ax/0" false (fun a r n e => i_movaps_ax a (r 1));
   mkRipE "movaps_xo/1" false (fun a r n e => i_movaps_xo (r 0) (OMem a));
   mkRipE "movbe_ar/0" false (fun a r n e => i_movbe_ar a (r 1));
   mkRipE "movbe_ra/1" false (fun a r n e => i_movbe_ra (r 0) a);
   mkRipE "movd_mo/1" false (fun a r n e => i_movd_mo (r 0) (OMem a));
   mkRipE "movd_om/0" false (fun a r n e => i_movd_om (OMem a) (r 1));
   mkRipE "movddup/1" false (fun a r n e => i_movddup (r 0) (OMem a));
   mkRipE "movdir64b/1" false (fun a r n e => i_movdir64b (r 0) a);
   mkRipE "movdiri/0" false (fun a r n e => i_movdiri a (r 1))].
Lemma rips18_ok : Forall entry_refers rips18.
Proof. unfold rips18. 
row. { unfold i_ldmxcsr. ref. }
row. { unfold i_lea. ref. }
row. { unfold i_lfs. ref. }
row. { unfold i_lgs. ref. }
row. { unfold i_lss. ref. }
row. { unfold i_lzcnt. ref. }
row. { unfold i_maxpd. ref. }
row. { unfold i_maxps. ref. }
row. { unfold i_maxsd. ref. }
row. { unfold i_maxss. ref. }
row. { unfold i_minpd. ref. }
row. { unfold i_minps. ref. }
row. { unfold i_minsd. ref. }
row. { unfold i_minss. ref. }
row. { unfold i_movapd_ax. ref. }
row. { unfold i_movapd_xo. ref. }
row. { unfold i_movaps_ax. ref. }
row. { unfold i_movaps_xo. ref. }
row. { unfold i_movbe_ar. ref. }
row. { unfold i_movbe_ra. ref. }
row. { unfold i_movd_mo. ref. }
row. { unfold i_movd_om. ref. }
row. { unfold i_movddup. ref. }
row. { unfold i_movdir64b. ref. }
row. { unfold i_movdiri. ref. }
apply Forall_nil. Qed.
Definition rips19 : list rip_entry :=
  [mkRipE "movdqa_ax/0" false (fun a r n e => i_movdqa_ax a (r 1));
   mkRipE "movdqa_xo/1" false (fun a r n e => i_movdqa_xo (r 0) (OMem a));
   mkRipE "movdqu_ax/0" false (fun a r n e => i_movdqu_ax a (r 1));
   mkRipE "movdqu_xo/1" false (fun a r n e => i_movdqu_xo (r 0) (OMem a));
   mkRipE "movhpd/0" false (fun a r n e => i_movhpd (OMem a) (OReg (r 1)));
   mkRipE "movhpd/1" false (fun a r n e => i_movhpd (OReg (r 0)) (OMem a));
   mkRipE "movhps/0" false (fun a r n e => i_movhps (OMem a) (OReg (r 1)));
   mkRipE "movhps/1" false (fun a r n e => i_movhps (OReg (r 0)) (OMem a));
   mkRipE "movlpd/0" false (fun a r n e => i_movlpd (OMem a) (OReg (r 1)));
   mkRipE "movlpd/1" false (fun a r n e => i_movlpd (OReg (r 0)) (OMem a));
   mkRipE "movlps/0" false (fun a r n e => i_movlps (OMem a) (OReg (r 1)));
   mkRipE "movlps/1" false (fun a r n e => i_movlps (OReg (r 0)) (OMem a));
   mkRipE "movntdq/0" false (fun a r n e => i_movntdq a (r 1));
   mkRipE "movntdqa/1" false (fun a r n e => i_movntdqa (r 0) a);
   mkRipE "movnti/0" false (fun a r n e => i_movnti a (r 1));
   mkRipE "movntpd/0" false (fun a r n e => i_movntpd a (r 1));
   mkRipE "movntps/0" false (fun a r n e => i_movntps a (r 1));
   mkRipE "movntq/0" false (fun a r n e => i_movntq a (r 1));
   mkRipE "movq_am/0" false (fun a r n e => i_movq_am a (r 1));
   mkRipE "movq_mo/1" false (fun a r n e => i_movq_mo (r 0) (OMem a));
   mkRipE "movsd_ax/0" false (fun a r n e => i_movsd_ax a (r 1));
   mkRipE "movsd_xo/1" false (fun a r n e => i_movsd_xo (r 0) (OMem a));
   mkRipE "movshdup/1" false (fun a r n e => i_movshdup (r 0) (OMem a));
   mkRipE "movsldup/1" false (fun a r n e => i_movsldup (r 0) (OMem a));
   mkRipE "movss_ax/0" false (fun a r n e => i_movss_ax a (r 1))].
Lemma rips19_ok : Forall entry_refers rips19.
Proof. unfold rips19. 
row. { unfold i_movdqa_ax. ref. }
row. { unfold i_movdqa_xo. ref. }
row. { unfold i_movdqu_ax. ref. }
row. { unfold i_movdqu_xo. ref. }
row. { unfold i_movhpd. ref. }
row. { unfold i_movhpd. ref. }
row. { unfold i_movhps. ref. }
row. { unfold i_movhps. ref. }
row. { unfold i_movlpd. ref. }
row. { unfold i_movlpd. ref. }
row. { unfold i_movlps. ref. }
row. { unfold i_movlps. ref. }
row. { unfold i_movntdq. ref. }
row. { unfold i_movntdqa. ref. }
row. { unfold i_movnti. ref. }
row. { unfold i_movntpd. ref. }
row. { unfold i_movntps. ref. }
row. { unfold i_movntq. ref. }
row. { unfold i_movq_am. ref. }
row. { unfold i_movq_mo. ref. }
row. { unfold i_movsd_ax. ref. }
row. { unfold i_movsd_xo. ref. }
row. { unfold i_movshdup. ref. }
row. { unfold i_movsldup. ref. }
row. { unfold i_movss_ax. ref. }
apply Forall_nil. Qed.
Definition rips20 : list rip_entry :=
  [mkRipE "movss_xo/1" false (fun a r n e => i_movss_xo (r 0) (OMem a));
   mkRipE "movsx/1" false (fun a r n e => i_movsx (r 0) (OMem a));
   mkRipE "movupd_ax/0" false (fun a r n e => i_movupd_ax a (r 1));
   mkRipE "movupd_xo/1" false (fun a r n e => i_movupd_xo (r 0) (OMem a));
   mkRipE "movups_ax/0" false (fun a r n e => i_movups_ax a (r 1));
   mkRipE "movups_xo/1" false (fun a r n e => i_movups_xo (r 0) (OMem a));
   mkRipE "movzx/1" false (fun a r n e => i_movzx (r 0) (OMem a));
   mkRipE "mpsadbw/1" false (fun a r n e => i_mpsadbw (r 0) (OMem a) (n 2));
   mkRipE "mul/0" false (fun a r n e => i_mul (OMem a));
   mkRipE "mulpd/1" false (fun a r n e => i_mulpd (r 0) (OMem a));
   mkRipE "mulps/1" false (fun a r n e => i_mulps (r 0) (OMem a));
   mkRipE "mulsd/1" false (fun a r n e => i_mulsd (r 0) (OMem a));
   mkRipE "mulss/1" false (fun a r n e => i_mulss (r 0) (OMem a));
   mkRipE "mulx/2" false (fun a r n e => i_mulx (r 0) (r 1) (OMem a));
   mkRipE "neg_o/0" false (fun a r n e => i_neg_o (OMem a));
   mkRipE "neg_ro/1" true (fun a r n e => i_neg_ro (r 0) (OMem a));
   mkRipE "not__o/0" false (fun a r n e => i_not__o (OMem a));
   mkRipE "not__ro/1" true (fun a r n e => i_not__ro (r 0) (OMem a));
   mkRipE "or__oi/0" false (fun a r n e => i_or__oi (OMem a) (n 1));
   mkRipE "or__oo/0" false (fun a r n e => i_or__oo (OMem a) (OReg (r 1)));
   mkRipE "or__oo/1" false (fun a r n e => i_or__oo (OReg (r 0)) (OMem a));
   mkRipE "or__roi/1" true (fun a r n e => i_or__roi (r 0) (OMem a) (n 2));
   mkRipE "or__roo/1" true (fun a r n e => i_or__roo (r 0) (OMem a) (OReg (r 2)));
   mkRipE "or__roo/2" true (fun a r n e => i_or__roo (r 0) (OReg (r 1)) (OMem a));
   mkRipE "orpd/1" false (fun a r n e => i_orpd (r 0) (OMem a))].
Lemma rips20_ok : Forall entry_refers rips20.
Proof. unfold rips20. 
row. { unfold i_movss_xo. ref. }
row. { unfold i_movsx. ref. }
row. { unfold i_movupd_ax. ref. }
row. { unfold i_movupd_xo. ref. }
row. { unfold i_movups_ax. ref. }
row. { unfold i_movups_xo. ref. }
row. { unfold i_movzx. ref. }
row. { unfold i_mpsadbw. ref. }
row. { unfold i_mul. ref. }
row. { unfold i_mulpd. ref. }
row. { unfold i_mulps. ref. }
row. { unfold i_mulsd. ref. }
row. { unfold i_mulss. ref. }
row. { unfold i_mulx. ref. }
row. { unfold i_neg_o. ref. }
row. { unfold i_neg_ro. ref. }
row. { unfold i_not__o. ref. }
row. { unfold i_not__ro. ref. }
row. { unfold i_or__oi. ref. }
row. { unfold i_or__oo. ref. }
row. { unfold i_or__oo. ref. }
row. { unfold i_or__roi. ref. }
row. { unfold i_or__roo. ref. }
row. { unfold i_or__roo. ref. }
row. { unfold i_orpd. ref. }
apply Forall_nil. Qed.
Definition rips21 : list rip_entry :=
  [mkRipE "orps/1" false (fun a r n e => i_orps (r 0) (OMem a));
   mkRipE "pabsb/1" false (fun a r n e => i_pabsb (r 0) (OMem a));
   mkRipE "pabsd/1" false (fun a r n e => i_pabsd (r 0) (OMem a));
   mkRipE "pabsw/1" false (fun a r n e => i_pabsw (r 0) (OMem a));
   mkRipE "packssdw/1" false (fun a r n e => i_packssdw (r 0) (OMem a));
   mkRipE "packsswb/1" false (fun a r n e => i_packsswb (r 0) (OMem a));
   mkRipE "packusdw/1" false (fun a r n e => i_packusdw (r 0) (OMem a));
   mkRipE "packuswb/1" false (fun a r n e => i_packuswb (r 0) (OMem a));
   mkRipE "paddb/1" false (fun a r n e => i_paddb (r 0) (OMem a));
   mkRipE "paddd/1" false (fun a r n e => i_paddd (r 0) (OMem a));
   mkRipE "paddq/1" false (fun a r n e => i_paddq (r 0) (OMem a));
   mkRipE "paddsb/1" false (fun a r n e => i_paddsb (r 0) (OMem a));
   mkRipE "paddsw/1" false (fun a r n e => i_paddsw (r 0) (OMem a));
   mkRipE "paddusb/1" false (fun a r n e => i_paddusb (r 0) (OMem a));
   mkRipE "paddusw/1" false (fun a r n e => i_paddusw (r 0) (OMem a));
   mkRipE "paddw/1" false (fun a r n e => i_paddw (r 0) (OMem a));
   mkRipE "palignr/1" false (fun a r n e => i_palignr (r 0) (OMem a) (n 2));
   mkRipE "pand/1" false (fun a r n e => i_pand (r 0) (OMem a));
   mkRipE "pandn/1" false (fun a r n e => i_pandn (r 0) (OMem a));
   mkRipE "pavgb/1" false (fun a r n e => i_pavgb (r 0) (OMem a));
   mkRipE "pavgw/1" false (fun a r n e => i_pavgw (r 0) (OMem a));
   mkRipE "pblendvb/1" false (fun a r n e => i_pblendvb (r 0) (OMem a));
   mkRipE "pblendw/1" false (fun a r n e => i_pblendw (r 0) (OMem a) (n 2));
   mkRipE "pclmulqdq/1" false (fun a r n e => i_pclmulqdq (r 0) (OMem a) (n 2));
   mkRipE "pclmulhqhqdq/1" false (fun a r n e => i_pclmulhqhqdq (r 0) (OMem a))].
Lemma rips21_ok : Forall entry_refers rips21.
Proof. unfold rips21. 
row. { unfold i_orps. ref. }
row. { unfold i_pabsb. ref. }
row. { unfold i_pabsd. ref. }
row. { unfold i_pabsw. ref. }
row. { unfold i_packssdw. ref. }
row. { unfold i_packsswb. ref. }
row. { unfold i_packusdw. ref. }
row. { unfold i_packuswb. ref. }
row. { unfold i_paddb. ref. }
row. { unfold i_paddd. ref. }
row. { unfold i_paddq. ref. }
row. { unfold i_paddsb. ref. }
row. { unfold i_paddsw. ref. }
row. { unfold i_paddusb. ref. }
row. { unfold i_paddusw. ref. }
row. { unfold i_paddw. ref. }
row. { unfold i_palignr. ref. }
row. { unfold i_pand. ref. }
row. { unfold i_pandn. ref. }
row. { unfold i_pavgb. ref. }
row. { unfold i_pavgw. ref. }
row. { unfold i_pblendvb. ref. }
row. { unfold i_pblendw. ref. }
row. { unfold i_pclmulqdq. ref. }
row. { unfold i_pclmulhqhqdq, i_pclmulqdq. ref. }
apply Forall_nil. Qed.
Definition rips22 : list rip_entry :=
  [mkRipE "pclmulhqlqdq/1" false (fun a r n e => i_pclmulhqlqdq (r 0) (OMem a));
   mkRipE "pclmullqhqdq/1" false (fun a r n e => i_pclmullqhqdq (r 0) (OMem a));
   mkRipE "pclmullqlqdq/1" false (fun a r n e => i_pclmullqlqdq (r 0) (OMem a));
   mkRipE "pcmpeqb/1" false (fun a r n e => i_pcmpeqb (r 0) (OMem a));
   mkRipE "pcmpeqd/1" false (fun a r n e => i_pcmpeqd (r 0) (OMem a));
   mkRipE "pcmpeqq/1" false (fun a r n e => i_pcmpeqq (r 0) (OMem a));
   mkRipE "pcmpeqw/1" false (fun a r n e => i_pcmpeqw (r 0) (OMem a));
   mkRipE "pcmpestri/1" false (fun a r n e => i_pcmpestri (r 0) (OMem a) (n 2));
   mkRipE "pcmpestrm/1" false (fun a r n e => i_pcmpestrm (r 0) (OMem a) (n 2));
   mkRipE "pcmpgtb/1" false (fun a r n e => i_pcmpgtb (r 0) (OMem a));
   mkRipE "pcmpgtd/1" false (fun a r n e => i_pcmpgtd (r 0) (OMem a));
   mkRipE "pcmpgtq/1" false (fun a r n e => i_pcmpgtq (r 0) (OMem a));
   mkRipE "pcmpgtw/1" false (fun a r n e => i_pcmpgtw (r 0) (OMem a));
   mkRipE "pcmpistri/1" false (fun a r n e => i_pcmpistri (r 0) (OMem a) (n 2));
   mkRipE "pcmpistrm/1" false (fun a r n e => i_pcmpistrm (r 0) (OMem a) (n 2));
   mkRipE "pdep/2" false (fun a r n e => i_pdep (r 0) (r 1) (OMem a));
   mkRipE "pext/2" false (fun a r n e => i_pext (r 0) (r 1) (OMem a));
   mkRipE "pextrb/0" false (fun a r n e => i_pextrb (OMem a) (r 1) (n 2));
   mkRipE "pextrd/0" false (fun a r n e => i_pextrd (OMem a) (r 1) (n 2));
   mkRipE "pextrw/0" false (fun a r n e => i_pextrw (OMem a) (r 1) (n 2));
   mkRipE "phaddd/1" false (fun a r n e => i_phaddd (r 0) (OMem a));
   mkRipE "phaddsw/1" false (fun a r n e => i_phaddsw (r 0) (OMem a));
   mkRipE "phaddw/1" false (fun a r n e => i_phaddw (r 0) (OMem a));
   mkRipE "phminposuw/1" false (fun a r n e => i_phminposuw (r 0) (OMem a));
   mkRipE "phsubd/1" false (fun a r n e => i_phsubd (r 0) (OMem a))].
Lemma rips22_ok : Forall entry_refers rips22.
Proof. unfold rips22. 
row. { unfold i_pclmulhqlqdq, i_pclmulqdq. ref. }
row. { unfold i_pclmullqhqdq, i_pclmulqdq. ref. }
row. { unfold i_pclmullqlqdq, i_pclmulqdq. ref. }
row. { unfold i_pcmpeqb. ref. }
row. { unfold i_pcmpeqd. ref. }
row. { unfold i_pcmpeqq. ref. }
row. { unfold i_pcmpeqw. ref. }
row. { unfold i_pcmpestri. ref. }
row. { unfold i_pcmpestrm. ref. }
row. { unfold i_pcmpgtb. ref. }
row. { unfold i_pcmpgtd. ref. }
row. { unfold i_pcmpgtq. ref. }
row. { unfold i_pcmpgtw. ref. }
row. { unfold i_pcmpistri. ref. }
row. { unfold i_pcmpistrm. ref. }
row. { unfold i_pdep. ref. }
row. { unfold i_pext. ref. }
row. { unfold i_pextrb. ref. }
row. { unfold i_pextrd. ref. }
row. { unfold i_pextrw. ref. }
row. { unfold i_phaddd. ref. }
row. { unfold i_phaddsw. ref. }
row. { unfold i_phaddw. ref. }
row. { unfold i_phminposuw. ref. }
row. { unfold i_phsubd. ref. }
apply Forall_nil. Qed.
Definition rips23 : list rip_entry :=
  [mkRipE "phsubsw/1" false (fun a r n e => i_phsubsw (r 0) (OMem a));
   mkRipE "phsubw/1" false (fun a r n e => i_phsubw (r 0) (OMem a));
   mkRipE "pinsrb/1" false (fun a r n e => i_pinsrb (r 0) (OMem a) (n 2));
   mkRipE "pinsrd/1" false (fun a r n e => i_pinsrd (r 0) (OMem a) (n 2));
   mkRipE "pinsrw/1" false (fun a r n e => i_pinsrw (r 0) (OMem a) (n 2));
   mkRipE "pmaddubsw/1" false (fun a r n e => i_pmaddubsw (r 0) (OMem a));
   mkRipE "pmaddwd/1" false (fun a r n e => i_pmaddwd (r 0) (OMem a));
   mkRipE "pmaxsb/1" false (fun a r n e => i_pmaxsb (r 0) (OMem a));
   mkRipE "pmaxsd/1" false (fun a r n e => i_pmaxsd (r 0) (OMem a));
   mkRipE "pmaxsw/1" false (fun a r n e => i_pmaxsw (r 0) (OMem a));
   mkRipE "pmaxub/1" false (fun a r n e => i_pmaxub (r 0) (OMem a));
   mkRipE "pmaxud/1" false (fun a r n e => i_pmaxud (r 0) (OMem a));
   mkRipE "pmaxuw/1" false (fun a r n e => i_pmaxuw (r 0) (OMem a));
   mkRipE "pminsb/1" false (fun a r n e => i_pminsb (r 0) (OMem a));
   mkRipE "pminsd/1" false (fun a r n e => i_pminsd (r 0) (OMem a));
   mkRipE "pminsw/1" false (fun a r n e => i_pminsw (r 0) (OMem a));
   mkRipE "pminub/1" false (fun a r n e => i_pminub (r 0) (OMem a));
   mkRipE "pminud/1" false (fun a r n e => i_pminud (r 0) (OMem a));
   mkRipE "pminuw/1" false (fun a r n e => i_pminuw (r 0) (OMem a));
   mkRipE "pmovsxbd/1" false (fun a r n e => i_pmovsxbd (r 0) (OMem a));
   mkRipE "pmovsxbq/1" false (fun a r n e => i_pmovsxbq (r 0) (OMem a));
   mkRipE "pmovsxbw/1" false (fun a r n e => i_pmovsxbw (r 0) (OMem a));
   mkRipE "pmovsxdq/1" false (fun a r n e => i_pmovsxdq (r 0) (OMem a));
   mkRipE "pmovsxwd/1" false (fun a r n e => i_pmovsxwd (r 0) (OMem a));
   mkRipE "pmovsxwq/1" false (fun a r n e => i_pmovsxwq (r 0) (OMem a))].
Lemma rips23_ok : Forall entry_refers rips23.
Proof. unfold rips23. 
row. { unfold i_phsubsw. ref. }
row. { unfold i_phsubw. ref. }
row. { unfold i_pinsrb. ref. }
row. { unfold i_pinsrd. ref. }
row. { unfold i_pinsrw. ref. }
row. { unfold i_pmaddubsw. ref. }
row. { unfold i_pmaddwd. ref. }
row. { unfold i_pmaxsb. ref. }
row. { unfold i_pmaxsd. ref. }
row. { unfold i_pmaxsw. ref. }
row. { unfold i_pmaxub. ref. }
row. { unfold i_pmaxud. ref. }
row. { unfold i_pmaxuw. ref. }
row. { unfold i_pminsb. ref. }
row. { unfold i_pminsd. ref. }
row. { unfold i_pminsw. ref. }
row. { unfold i_pminub. ref. }
row. { unfold i_pminud. ref. }
row. { unfold i_pminuw. ref. }
row. { unfold i_pmovsxbd. ref. }
row. { unfold i_pmovsxbq. ref. }
row. { unfold i_pmovsxbw. ref. }
row. { unfold i_pmovsxdq. ref. }
row. { unfold i_pmovsxwd. ref. }
row. { unfold i_pmovsxwq. ref. }
apply Forall_nil. Qed.
Definition rips24 : list rip_entry :=
  [mkRipE "pmovzxbd/1" false (fun a r n e => i_pmovzxbd (r 0) (OMem a));
   mkRipE "pmovzxbq/1" false (fun a r n e => i_pmovzxbq (r 0) (OMem a));
   mkRipE "pmovzxbw/1" false (fun a r n e => i_pmovzxbw (r 0) (OMem a));
   mkRipE "pmovzxdq/1" false (fun a r n e => i_pmovzxdq (r 0) (OMem a));
   mkRipE "pmovzxwd/1" false (fun a r n e => i_pmovzxwd (r 0) (OMem a));
   mkRipE "pmovzxwq/1" false (fun a r n e => i_pmovzxwq (r 0) (OMem a));
   mkRipE "pmuldq/1" false (fun a r n e => i_pmuldq (r 0) (OMem a));
   mkRipE "pmulhrsw/1" false (fun a r n e => i_pmulhrsw (r 0) (OMem a));
   mkRipE "pmulhuw/1" false (fun a r n e => i_pmulhuw (r 0) (OMem a));
   mkRipE "pmulhw/1" false (fun a r n e => i_pmulhw (r 0) (OMem a));
   mkRipE "pmulld/1" false (fun a r n e => i_pmulld (r 0) (OMem a));
   mkRipE "pmullw/1" false (fun a r n e => i_pmullw (r 0) (OMem a));
   mkRipE "pmuludq/1" false (fun a r n e => i_pmuludq (r 0) (OMem a));
   mkRipE "popcnt/1" false (fun a r n e => i_popcnt (r 0) (OMem a));
   mkRipE "por/1" false (fun a r n e => i_por (r 0) (OMem a));
   mkRipE "prefetchit0/0" false (fun a r n e => i_prefetchit0 a);
   mkRipE "prefetchit1/0" false (fun a r n e => i_prefetchit1 a);
   mkRipE "prefetchnta/0" false (fun a r n e => i_prefetchnta a);
   mkRipE "prefetcht0/0" false (fun a r n e => i_prefetcht0 a);
   mkRipE "prefetcht1/0" false (fun a r n e => i_prefetcht1 a);
   mkRipE "prefetcht2/0" false (fun a r n e => i_prefetcht2 a);
   mkRipE "prefetchw/0" false (fun a r n e => i_prefetchw a);
   mkRipE "prefetchwt1/0" false (fun a r n e => i_prefetchwt1 a);
   mkRipE "psadbw/1" false (fun a r n e => i_psadbw (r 0) (OMem a));
   mkRipE "pshufb/1" false (fun a r n e => i_pshufb (r 0) (OMem a))].
Lemma rips24_ok : Forall entry_refers rips24.
Proof. unfold rips24. 
row. { unfold i_pmovzxbd. ref. }
row. { unfold i_pmovzxbq. ref. }
row. { unfold i_pmovzxbw. ref. }
row. { unfold i_pmovzxdq. ref. }
row. { unfold i_pmovzxwd. ref. }
row. { unfold i_pmovzxwq. ref. }
row. { unfold i_pmuldq. ref. }
row. { unfold i_pmulhrsw. ref. }
row. { unfold i_pmulhuw. ref. }
row. { unfold i_pmulhw. ref. }
row. { unfold i_pmulld. ref. }
row. { unfold i_pmullw. ref. }
row. { unfold i_pmuludq. ref. }
row. { unfold i_popcnt. ref. }
row. { unfold i_por. ref. }
row. { unfold i_prefetchit0. ref. }
row. { unfold i_prefetchit1. ref. }
row. { unfold i_prefetchnta. ref. }
row. { unfold i_prefetcht0. ref. }
row. { unfold i_prefetcht1. ref. }
row. { unfold i_prefetcht2. ref. }
row. { unfold i_prefetchw. ref. }
row. { unfold i_prefetchwt1. ref. }
row. { unfold i_psadbw. ref. }
row. { unfold i_pshufb. ref. }
apply Forall_nil. Qed.
Definition rips25 : list rip_entry :=
  [mkRipE "pshufd/1" false (fun a r n e => i_pshufd (r 0) (OMem a) (n 2));
   mkRipE "pshufhw/1" false (fun a r n e => i_pshufhw (r 0) (OMem a) (n 2));
   mkRipE "pshuflw/1" false (fun a r n e => i_pshuflw (r 0) (OMem a) (n 2));
   mkRipE "pshufw/1" false (fun a r n e => i_pshufw (r 0) (OMem a) (n 2));
   mkRipE "psignb/1" false (fun a r n e => i_psignb (r 0) (OMem a));
   mkRipE "psignd/1" false (fun a r n e => i_psignd (r 0) (OMem a));
   mkRipE "psignw/1" false (fun a r n e => i_psignw (r 0) (OMem a));
   mkRipE "pslld_mo/1" false (fun a r n e => i_pslld_mo (r 0) (OMem a));
   mkRipE "psllq_mo/1" false (fun a r n e => i_psllq_mo (r 0) (OMem a));
   mkRipE "psllw_mo/1" false (fun a r n e => i_psllw_mo (r 0) (OMem a));
   mkRipE "psrad_mo/1" false (fun a r n e => i_psrad_mo (r 0) (OMem a));
   mkRipE "psraw_mo/1" false (fun a r n e => i_psraw_mo (r 0) (OMem a));
   mkRipE "psrld_mo/1" false (fun a r n e => i_psrld_mo (r 0) (OMem a));
   mkRipE "psrlq_mo/1" false (fun a r n e => i_psrlq_mo (r 0) (OMem a));
   mkRipE "psrlw_mo/1" false (fun a r n e => i_psrlw_mo (r 0) (OMem a));
   mkRipE "psubb/1" false (fun a r n e => i_psubb (r 0) (OMem a));
   mkRipE "psubd/1" false (fun a r n e => i_psubd (r 0) (OMem a));
   mkRipE "psubq/1" false (fun a r n e => i_psubq (r 0) (OMem a));
   mkRipE "psubsb/1" false (fun a r n e => i_psubsb (r 0) (OMem a));
   mkRipE "psubsw/1" false (fun a r n e => i_psubsw (r 0) (OMem a));
   mkRipE "psubusb/1" false (fun a r n e => i_psubusb (r 0) (OMem a));
   mkRipE "psubusw/1" false (fun a r n e => i_psubusw (r 0) (OMem a));
   mkRipE "psubw/1" false (fun a r n e => i_psubw (r 0) (OMem a));
   mkRipE "ptest/1" false (fun a r n e => i_ptest (r 0) (OMem a));
   mkRipE "punpckhbw/1" false (fun a r n e => i_punpckhbw (r 0) (OMem a))].
Lemma rips25_ok : Forall entry_refers rips25.
Proof. unfold rips25. 
row. { unfold i_pshufd. ref. }
row. { unfold i_pshufhw. ref. }
row. { unfold i_pshuflw. ref. }
row. { unfold i_pshufw. ref. }
row. { unfold i_psignb. ref. }
row. { unfold i_psignd. ref. }
row. { unfold i_psignw. ref. }
row. { unfold i_pslld_mo. ref. }
row. { unfold i_psllq_mo. ref. }
row. { unfold i_psllw_mo. ref. }
row. { unfold i_psrad_mo. ref. }
row. { unfold i_psraw_mo. ref. }
row. { unfold i_psrld_mo. ref. }
row. { unfold i_psrlq_mo. ref. }
row. { unfold i_psrlw_mo. ref. }
row. { unfold i_psubb. ref. }
row. { unfold i_psubd. ref. }
row. { unfold i_psubq. ref. }
row. { unfold i_psubsb. ref. }
row. { unfold i_psubsw. ref. }
row. { unfold i_psubusb. ref. }
row. { unfold i_psubusw. ref. }
row. { unfold i_psubw. ref. }
row. { unfold i_ptest. ref. }
row. { unfold i_punpckhbw. ref. }
apply Forall_nil. Qed.
Definition rips26 : list rip_entry :=
  [mkRipE "punpckhdq/1" false (fun a r n e => i_punpckhdq (r 0) (OMem a));
   mkRipE "punpckhqdq/1" false (fun a r n e => i_punpckhqdq (r 0) (OMem a));
   mkRipE "punpckhwd/1" false (fun a r n e => i_punpckhwd (r 0) (OMem a));
   mkRipE "punpcklbw/1" false (fun a r n e => i_punpcklbw (r 0) (OMem a));
   mkRipE "punpckldq/1" false (fun a r n e => i_punpckldq (r 0) (OMem a));
   mkRipE "punpcklqdq/1" false (fun a r n e => i_punpcklqdq (r 0) (OMem a));
   mkRipE "punpcklwd/1" false (fun a r n e => i_punpcklwd (r 0) (OMem a));
   mkRipE "pxor/1" false (fun a r n e => i_pxor (r 0) (OMem a));
   mkRipE "rcl_ob/0" false (fun a r n e => i_rcl_ob (OMem a) (r 1));
   mkRipE "rcl_oi/0" false (fun a r n e => i_rcl_oi (OMem a) (n 1));
   mkRipE "rcl_rob/1" false (fun a r n e => i_rcl_rob (r 0) (OMem a) (r 2));
   mkRipE "rcpps/1" false (fun a r n e => i_rcpps (r 0) (OMem a));
   mkRipE "rcpss/1" false (fun a r n e => i_rcpss (r 0) (OMem a));
   mkRipE "rcr_ob/0" false (fun a r n e => i_rcr_ob (OMem a) (r 1));
   mkRipE "rcr_oi/0" false (fun a r n e => i_rcr_oi (OMem a) (n 1));
   mkRipE "rcr_rob/1" false (fun a r n e => i_rcr_rob (r 0) (OMem a) (r 2));
   mkRipE "rol_ob/0" false (fun a r n e => i_rol_ob (OMem a) (r 1));
   mkRipE "rol_oi/0" false (fun a r n e => i_rol_oi (OMem a) (n 1));
   mkRipE "rol_rob/1" false (fun a r n e => i_rol_rob (r 0) (OMem a) (r 2));
   mkRipE "ror_ob/0" false (fun a r n e => i_ror_ob (OMem a) (r 1));
   mkRipE "ror_oi/0" false (fun a r n e => i_ror_oi (OMem a) (n 1));
   mkRipE "ror_rob/1" false (fun a r n e => i_ror_rob (r 0) (OMem a) (r 2));
   mkRipE "roundpd/1" false (fun a r n e => i_roundpd (r 0) (OMem a) (n 2));
   mkRipE "roundps/1" false (fun a r n e => i_roundps (r 0) (OMem a) (n 2));
   mkRipE "roundsd/1" false (fun a r n e => i_roundsd (r 0) (OMem a) (n 2))].
Lemma rips26_ok : Forall entry_refers rips26.
Proof. unfold rips26. 
row. { unfold i_punpckhdq. ref. }
row. { unfold i_punpckhqdq. ref. }
row. { unfold i_punpckhwd. ref. }
row. { unfold i_punpcklbw. ref. }
row. { unfold i_punpckldq. ref. }
row. { unfold i_punpcklqdq. ref. }
row. { unfold i_punpcklwd. ref. }
row. { unfold i_pxor. ref. }
row. { unfold i_rcl_ob. ref. }
row. { unfold i_rcl_oi. ref. }
row. { unfold i_rcl_rob. ref. }
row. { unfold i_rcpps. ref. }
row. { unfold i_rcpss. ref. }
row. { unfold i_rcr_ob. ref. }
row. { unfold i_rcr_oi. ref. }
row. { unfold i_rcr_rob. ref. }
row. { unfold i_rol_ob. ref. }
row. { unfold i_rol_oi. ref. }
row. { unfold i_rol_rob. ref. }
row. { unfold i_ror_ob. ref. }
row. { unfold i_ror_oi. ref. }
row. { unfold i_ror_rob. ref. }
row. { unfold i_roundpd. ref. }
row. { unfold i_roundps. ref. }
row. { unfold i_roundsd. ref. }
apply Forall_nil. Qed.
Definition rips27 : list rip_entry :=
  [mkRipE "roundss/1" false (fun a r n e => i_roundss (r 0) (OMem a) (n 2));
   mkRipE "rsqrtps/1" false (fun a r n e => i_rsqrtps (r 0) (OMem a));
   mkRipE "rsqrtss/1" false (fun a r n e => i_rsqrtss (r 0) (OMem a));
   mkRipE "sal_ob/0" false (fun a r n e => i_sal_ob (OMem a) (r 1));
   mkRipE "sal_oi/0" false (fun a r n e => i_sal_oi (OMem a) (n 1));
   mkRipE "sal_rob/1" false (fun a r n e => i_sal_rob (r 0) (OMem a) (r 2));
   mkRipE "sar_ob/0" false (fun a r n e => i_sar_ob (OMem a) (r 1));
   mkRipE "sar_oi/0" false (fun a r n e => i_sar_oi (OMem a) (n 1));
   mkRipE "sar_rob/1" false (fun a r n e => i_sar_rob (r 0) (OMem a) (r 2));
   mkRipE "sarx/1" false (fun a r n e => i_sarx (r 0) (OMem a) (r 2));
   mkRipE "sbb_oi/0" false (fun a r n e => i_sbb_oi (OMem a) (n 1));
   mkRipE "sbb_oo/0" false (fun a r n e => i_sbb_oo (OMem a) (OReg (r 1)));
   mkRipE "sbb_oo/1" false (fun a r n e => i_sbb_oo (OReg (r 0)) (OMem a));
   mkRipE "sbb_roi/1" true (fun a r n e => i_sbb_roi (r 0) (OMem a) (n 2));
   mkRipE "sbb_roo/1" true (fun a r n e => i_sbb_roo (r 0) (OMem a) (OReg (r 2)));
   mkRipE "sbb_roo/2" true (fun a r n e => i_sbb_roo (r 0) (OReg (r 1)) (OMem a));
   mkRipE "seta/0" false (fun a r n e => i_seta (OMem a));
   mkRipE "setae/0" false (fun a r n e => i_setae (OMem a));
   mkRipE "setb/0" false (fun a r n e => i_setb (OMem a));
   mkRipE "setbe/0" false (fun a r n e => i_setbe (OMem a));
   mkRipE "setc/0" false (fun a r n e => i_setc (OMem a));
   mkRipE "sete/0" false (fun a r n e => i_sete (OMem a));
   mkRipE "setg/0" false (fun a r n e => i_setg (OMem a));
   mkRipE "setge/0" false (fun a r n e => i_setge (OMem a));
   mkRipE "setl/0" false (fun a r n e => i_setl (OMem a))].
Lemma rips27_ok : Forall entry_refers rips27.
Proof. unfold rips27. 
row. { unfold i_roundss. ref. }
row. { unfold i_rsqrtps. ref. }
row. { unfold i_rsqrtss. ref. }
row. { unfold i_sal_ob. ref. }
row. { unfold i_sal_oi. ref. }
row. { unfold i_sal_rob. ref. }
row. { unfold i_sar_ob. ref. }
row. { unfold i_sar_oi. ref. }
row. { unfold i_sar_rob. ref. }
row. { unfold i_sarx. ref. }
row. { unfold i_sbb_oi. ref. }
row. { unfold i_sbb_oo. ref. }
row. { unfold i_sbb_oo. ref. }
row. { unfold i_sbb_roi. ref. }
row. { unfold i_sbb_roo. ref. }
row. { unfold i_sbb_roo. ref. }
row. { unfold i_seta. ref. }
row. { unfold i_setae. ref. }
row. { unfold i_setb. ref. }
row. { unfold i_setbe. ref. }
row. { unfold i_setc. ref. }
row. { unfold i_sete. ref. }
row. { unfold i_setg. ref. }
row. { unfold i_setge. ref. }
row. { unfold i_setl. ref. }
apply Forall_nil. Qed.
Definition rips28 : list rip_entry :=
  [mkRipE "setle/0" false (fun a r n e => i_setle (OMem a));
   mkRipE "setna/0" false (fun a r n e => i_setna (OMem a));
   mkRipE "setnae/0" false (fun a r n e => i_setnae (OMem a));
   mkRipE "setnb/0" false (fun a r n e => i_setnb (OMem a));
   mkRipE "setnbe/0" false (fun a r n e => i_setnbe (OMem a));
   mkRipE "setnc/0" false (fun a r n e => i_setnc (OMem a));
   mkRipE "setne/0" false (fun a r n e => i_setne (OMem a));
   mkRipE "setng/0" false (fun a r n e => i_setng (OMem a));
   mkRipE "setnge/0" false (fun a r n e => i_setnge (OMem a));
   mkRipE "setnl/0" false (fun a r n e => i_setnl (OMem a));
   mkRipE "setnle/0" false (fun a r n e => i_setnle (OMem a));
   mkRipE "setno/0" false (fun a r n e => i_setno (OMem a));
   mkRipE "setnp/0" false (fun a r n e => i_setnp (OMem a));
   mkRipE "setns/0" false (fun a r n e => i_setns (OMem a));
   mkRipE "setnz/0" false (fun a r n e => i_setnz (OMem a));
   mkRipE "seto/0" false (fun a r n e => i_seto (OMem a));
   mkRipE "setp/0" false (fun a r n e => i_setp (OMem a));
   mkRipE "setpe/0" false (fun a r n e => i_setpe (OMem a));
   mkRipE "setpo/0" false (fun a r n e => i_setpo (OMem a));
   mkRipE "sets/0" false (fun a r n e => i_sets (OMem a));
   mkRipE "setz/0" false (fun a r n e => i_setz (OMem a));
   mkRipE "sha1msg1/1" false (fun a r n e => i_sha1msg1 (r 0) (OMem a));
   mkRipE "sha1msg2/1" false (fun a r n e => i_sha1msg2 (r 0) (OMem a));
   mkRipE "sha1nexte/1" false (fun a r n e => i_sha1nexte (r 0) (OMem a));
   mkRipE "sha1rnds4/1" false (fun a r n e => i_sha1rnds4 (r 0) (OMem a) (n 2))].
Lemma rips28_ok : Forall entry_refers rips28.
Proof. unfold rips28. 
row. { unfold i_setle. ref. }
row. { unfold i_setna. ref. }
row. { unfold i_setnae. ref. }
row. { unfold i_setnb. ref. }
row. { unfold i_setnbe. ref. }
row. { unfold i_setnc. ref. }
row. { unfold i_setne. ref. }
row. { unfold i_setng. ref. }
row. { unfold i_setnge. ref. }
row. { unfold i_setnl. ref. }
row. { unfold i_setnle. ref. }
row. { unfold i_setno. ref. }
row. { unfold i_setnp. ref. }
row. { unfold i_setns. ref. }
row. { unfold i_setnz. ref. }
row. { unfold i_seto. ref. }
row. { unfold i_setp. ref. }
row. { unfold i_setpe. ref. }
row. { unfold i_setpo. ref. }
row. { unfold i_sets. ref. }
row. { unfold i_setz. ref. }
row. { unfold i_sha1msg1. ref. }
row. { unfold i_sha1msg2. ref. }
row. { unfold i_sha1nexte. ref. }
row. { unfold i_sha1rnds4. ref. }
apply Forall_nil. Qed.
Definition rips29 : list rip_entry :=
  [mkRipE "sha256msg1/1" false (fun a r n e => i_sha256msg1 (r 0) (OMem a));
   mkRipE "sha256msg2/1" false (fun a r n e => i_sha256msg2 (r 0) (OMem a));
   mkRipE "sha256rnds2/1" false (fun a r n e => i_sha256rnds2 (r 0) (OMem a));
   mkRipE "shl_ob/0" false (fun a r n e => i_shl_ob (OMem a) (r 1));
   mkRipE "shl_oi/0" false (fun a r n e => i_shl_oi (OMem a) (n 1));
   mkRipE "shl_rob/1" false (fun a r n e => i_shl_rob (r 0) (OMem a) (r 2));
   mkRipE "shld_orb/0" false (fun a r n e => i_shld_orb (OMem a) (r 1) (r 2));
   mkRipE "shld_ori/0" false (fun a r n e => i_shld_ori (OMem a) (r 1) (n 2));
   mkRipE "shld_rorb/1" false (fun a r n e => i_shld_rorb (r 0) (OMem a) (r 2) (r 3));
   mkRipE "shld_rori/1" false (fun a r n e => i_shld_rori (r 0) (OMem a) (r 2) (n 3));
   mkRipE "shlx/1" false (fun a r n e => i_shlx (r 0) (OMem a) (r 2));
   mkRipE "shr_ob/0" false (fun a r n e => i_shr_ob (OMem a) (r 1));
   mkRipE "shr_oi/0" false (fun a r n e => i_shr_oi (OMem a) (n 1));
   mkRipE "shr_rob/1" false (fun a r n e => i_shr_rob (r 0) (OMem a) (r 2));
   mkRipE "shrd_orb/0" false (fun a r n e => i_shrd_orb (OMem a) (r 1) (r 2));
   mkRipE "shrd_ori/0" false (fun a r n e => i_shrd_ori (OMem a) (r 1) (n 2));
   mkRipE "shrd_rorb/1" false (fun a r n e => i_shrd_rorb (r 0) (OMem a) (r 2) (r 3));
   mkRipE "shrd_rori/1" false (fun a r n e => i_shrd_rori (r 0) (OMem a) (r 2) (n 3));
   mkRipE "shrx/1" false (fun a r n e => i_shrx (r 0) (OMem a) (r 2));
   mkRipE "shufpd/1" false (fun a r n e => i_shufpd (r 0) (OMem a) (n 2));
   mkRipE "shufps/1" false (fun a r n e => i_shufps (r 0) (OMem a) (n 2));
   mkRipE "sqrtpd/1" false (fun a r n e => i_sqrtpd (r 0) (OMem a));
   mkRipE "sqrtps/1" false (fun a r n e => i_sqrtps (r 0) (OMem a));
   mkRipE "sqrtsd/1" false (fun a r n e => i_sqrtsd (r 0) (OMem a));
   mkRipE "sqrtss/1" false (fun a r n e => i_sqrtss (r 0) (OMem a))].
Lemma rips29_ok : Forall entry_refers rips29.
Proof. unfold rips29. 
row. { unfold i_sha256msg1. ref. }
row. { unfold i_sha256msg2. ref. }
row. { unfold i_sha256rnds2. ref. }
row. { unfold i_shl_ob. ref. }
row. { unfold i_shl_oi. ref. }
row. { unfold i_shl_rob. ref. }
row. { unfold i_shld_orb. ref. }
row. { unfold i_shld_ori. ref. }
row. { unfold i_shld_rorb. ref. }
row. { unfold i_shld_rori. ref. }
row. { unfold i_shlx. ref. }
row. { unfold i_shr_ob. ref. }
row. { unfold i_shr_oi. ref. }
row. { unfold i_shr_rob. ref. }
row. { unfold i_shrd_orb. ref. }
row. { unfold i_shrd_ori. ref. }
row. { unfold i_shrd_rorb. ref. }
row. { unfold i_shrd_rori. ref. }
row. { unfold i_shrx. ref. }
row. { unfold i_shufpd. ref. }
row. { unfold i_shufps. ref. }
row. { unfold i_sqrtpd. ref. }
row. { unfold i_sqrtps. ref. }
row. { unfold i_sqrtsd. ref. }
row. { unfold i_sqrtss. ref. }
apply Forall_nil. Qed.
Definition rips30 : list rip_entry :=
  [mkRipE "stmxcsr/0" false (fun a r n e => i_stmxcsr a);
   mkRipE "sub_oi/0" false (fun a r n e => i_sub_oi (OMem a) (n 1));
   mkRipE "sub_oo/0" false (fun a r n e => i_sub_oo (OMem a) (OReg (r 1)));
   mkRipE "sub_oo/1" false (fun a r n e => i_sub_oo (OReg (r 0)) (OMem a));
   mkRipE "sub_roi/1" true (fun a r n e => i_sub_roi (r 0) (OMem a) (n 2));
   mkRipE "sub_roo/1" true (fun a r n e => i_sub_roo (r 0) (OMem a) (OReg (r 2)));
   mkRipE "sub_roo/2" true (fun a r n e => i_sub_roo (r 0) (OReg (r 1)) (OMem a));
   mkRipE "subpd/1" false (fun a r n e => i_subpd (r 0) (OMem a));
   mkRipE "subps/1" false (fun a r n e => i_subps (r 0) (OMem a));
   mkRipE "subsd/1" false (fun a r n e => i_subsd (r 0) (OMem a));
   mkRipE "subss/1" false (fun a r n e => i_subss (r 0) (OMem a));
   mkRipE "tzcnt/1" false (fun a r n e => i_tzcnt (r 0) (OMem a));
   mkRipE "ucomisd/1" false (fun a r n e => i_ucomisd (r 0) (OMem a));
   mkRipE "ucomiss/1" false (fun a r n e => i_ucomiss (r 0) (OMem a));
   mkRipE "unpckhpd/1" false (fun a r n e => i_unpckhpd (r 0) (OMem a));
   mkRipE "unpckhps/1" false (fun a r n e => i_unpckhps (r 0) (OMem a));
   mkRipE "unpcklpd/1" false (fun a r n e => i_unpcklpd (r 0) (OMem a));
   mkRipE "unpcklps/1" false (fun a r n e => i_unpcklps (r 0) (OMem a));
   mkRipE "vaddpd/1" false (fun a r n e => i_vaddpd (r 0) (OMem a) (OReg (r 2)));
   mkRipE "vaddpd/2" false (fun a r n e => i_vaddpd (r 0) (OReg (r 1)) (OMem a));
   mkRipE "vaddps/1" false (fun a r n e => i_vaddps (r 0) (OMem a) (OReg (r 2)));
   mkRipE "vaddps/2" false (fun a r n e => i_vaddps (r 0) (OReg (r 1)) (OMem a));
   mkRipE "vaddsd/1" false (fun a r n e => i_vaddsd (r 0) (OMem a) (OReg (r 2)));
   mkRipE "vaddsd/2" false (fun a r n e => i_vaddsd (r 0) (OReg (r 1)) (OMem a));
   mkRipE "vaddss/1" false (fun a r n e => i_vaddss (r 0) (OMem a) (OReg (r 2)))].
Lemma rips30_ok : Forall entry_refers rips30.
Proof. unfold rips30. 
row. { unfold i_stmxcsr. ref. }
row. { unfold i_sub_oi. ref. }
row. { unfold i_sub_oo. ref. }
row. { unfold i_sub_oo. ref. }
row. { unfold i_sub_roi. ref. }
row. { unfold i_sub_roo. ref. }
row. { unfold i_sub_roo. ref. }
row. { unfold i_subpd. ref. }
row. { unfold i_subps. ref. }
row. { unfold i_subsd. ref. }
row. { unfold i_subss. ref. }
row. { unfold i_tzcnt. ref. }
row. { unfold i_ucomisd. ref. }
row. { unfold i_ucomiss. ref. }
row. { unfold i_unpckhpd. ref. }
row. { unfold i_unpckhps. ref. }
row. { unfold i_unpcklpd. ref. }
row. { unfold i_unpcklps. ref. }
row. { unfold i_vaddpd. ref. }
row. { unfold i_vaddpd. ref. }
row. { unfold i_vaddps. ref. }
row. { unfold i_vaddps. ref. }
row. { unfold i_vaddsd. ref. }
row. { unfold i_vaddsd. ref. }
row. { unfold i_vaddss. ref. }
apply Forall_nil. Qed.
Definition rips31 : list rip_entry :=
  [mkRipE "vaddss/2" false (fun a r n e => i_vaddss (r 0) (OReg (r 1)) (OMem a));
   mkRipE "vaddsubpd/1" false (fun a r n e => i_vaddsubpd (r 0) (OMem a) (OReg (r 2)));
   mkRipE "vaddsubpd/2" false (fun a r n e => i_vaddsubpd (r 0) (OReg (r 1)) (OMem a));
   mkRipE "vaddsubps/1" false (fun a r n e => i_vaddsubps (r 0) (OMem a) (OReg (r 2)));
   mkRipE "vaddsubps/2" false (fun a r n e => i_vaddsubps (r 0) (OReg (r 1)) (OMem a));
   mkRipE "vaesdec/1" false (fun a r n e => i_vaesdec (r 0) (OMem a) (OReg (r 2)));
   mkRipE "vaesdec/2" false (fun a r n e => i_vaesdec (r 0) (OReg (r 1)) (OMem a));
   mkRipE "vaesdeclast/1" false (fun a r n e => i_vaesdeclast (r 0) (OMem a) (OReg (r 2)));
   mkRipE "vaesdeclast/2" false (fun a r n e => i_vaesdeclast (r 0) (OReg (r 1)) (OMem a));
   mkRipE "vaesenc/1" false (fun a r n e => i_vaesenc (r 0) (OMem a) (OReg (r 2)));
   mkRipE "vaesenc/2" false (fun a r n e => i_vaesenc (r 0) (OReg (r 1)) (OMem a));
   mkRipE "vaesenclast/1" false (fun a r n e => i_vaesenclast (r 0) (OMem a) (OReg (r 2)));
   mkRipE "vaesenclast/2" false (fun a r n e => i_vaesenclast (r 0) (OReg (r 1)) (OMem a));
   mkRipE "vaesimc/1" false (fun a r n e => i_vaesimc (r 0) (OMem a));
   mkRipE "vaeskeygenassist/1" false (fun a r n e => i_vaeskeygenassist (r 0) (OMem a) (n 2));
   mkRipE "vandnpd/1" false (fun a r n e => i_vandnpd (r 0) (OMem a) (OReg (r 2)));
   mkRipE "vandnpd/2" false (fun a r n e => i_vandnpd (r 0) (OReg (r 1)) (OMem a));
   mkRipE "vandnps/1" false (fun a r n e => i_vandnps (r 0) (OMem a) (OReg (r 2)));
   mkRipE "vandnps/2" false (fun a r n e => i_vandnps (r 0) (OReg (r 1)) (OMem a));
   mkRipE "vandpd/1" false (fun a r n e => i_vandpd (r 0) (OMem a) (OReg (r 2)));
   mkRipE "vandpd/2" false (fun a r n e => i_vandpd (r 0) (OReg (r 1)) (OMem a));
   mkRipE "vandps/1" false (fun a r n e => i_vandps (r 0) (OMem a) (OReg (r 2)));
   mkRipE "vandps/2" false (fun a r n e => i_vandps (r 0) (OReg (r 1)) (OMem a));
   mkRipE "vbcstnebf162ps/1" false (fun a r n e => i_vbcstnebf162ps (r 0) a);
   mkRipE "vbcstnesh2ps/1" false (fun a r n e => i_vbcstnesh2ps (r 0) a)].
Lemma rips31_ok : Forall entry_refers rips31.
Proof. unfold rips31. 
row. { unfold i_vaddss. ref. }
row. { unfold i_vaddsubpd. ref. }
row. { unfold i_vaddsubpd. ref. }
row. { unfold i_vaddsubps. ref. }
row. { unfold i_vaddsubps. ref. }
row. { unfold i_vaesdec. ref. }
row. { unfold i_vaesdec. ref. }
row. { unfold i_vaesdeclast. ref. }
row. { unfold i_vaesdeclast. ref. }
row. { unfold i_vaesenc. ref. }
row. { unfold i_vaesenc. ref. }
row. { unfold i_vaesenclast. ref. }
row. { unfold i_vaesenclast. ref. }
row. { unfold i_vaesimc. ref. }
row. { unfold i_vaeskeygenassist. ref. }
row. { unfold i_vandnpd. ref. }
row. { unfold i_vandnpd. ref. }
row. { unfold i_vandnps. ref. }
row. { unfold i_vandnps. ref. }
row. { unfold i_vandpd. ref. }
row. { unfold i_vandpd. ref. }
row. { unfold i_vandps. ref. }
row. { unfold i_vandps. ref. }
row. { unfold i_vbcstnebf162ps. ref. }
row. { unfold i_vbcstnesh2ps. ref. }
apply Forall_nil. Qed.
Definition rips32 : list rip_entry :=
  [mkRipE "vblendpd_xxoi/2" false (fun a r n e => i_vblendpd_xxoi (r 0) (r 1) (OMem a) (n 3));
   mkRipE "vblendps_xxoi/2" false (fun a r n e => i_vblendps_xxoi (r 0) (r 1) (OMem a) (n 3));
   mkRipE "vblendvpd_xxox/2" false (fun a r n e => i_vblendvpd_xxox (r 0) (r 1) (OMem a) (r 3));
   mkRipE "vblendvps_xxox/2" false (fun a r n e => i_vblendvps_xxox (r 0) (r 1) (OMem a) (r 3));
   mkRipE "vbroadcastf128/1" false (fun a r n e => i_vbroadcastf128 (r 0) a);
   mkRipE "vbroadcasti128/1" false (fun a r n e => i_vbroadcasti128 (r 0) a);
   mkRipE "vbroadcastsd/1" false (fun a r n e => i_vbroadcastsd (r 0) (OMem a));
   mkRipE "vbroadcastss/1" false (fun a r n e => i_vbroadcastss (r 0) (OMem a));
   mkRipE "vcmppd_xxoi/2" false (fun a r n e => i_vcmppd_xxoi (r 0) (r 1) (OMem a) (n 3));
   mkRipE "vcmpeq_ospd_xxo/2" false (fun a r n e => i_vcmpeq_ospd_xxo (r 0) (r 1) (OMem a));
   mkRipE "vcmpps_xxoi/2" false (fun a r n e => i_vcmpps_xxoi (r 0) (r 1) (OMem a) (n 3));
   mkRipE "vcmpeq_osps_xxo/2" false (fun a r n e => i_vcmpeq_osps_xxo (r 0) (r 1) (OMem a));
   mkRipE "vcmpsd_xxoi/2" false (fun a r n e => i_vcmpsd_xxoi (r 0) (r 1) (OMem a) (n 3));
   mkRipE "vcmpeq_ossd_xxo/2" false (fun a r n e => i_vcmpeq_ossd_xxo (r 0) (r 1) (OMem a));
   mkRipE "vcmpss_xxoi/2" false (fun a r n e => i_vcmpss_xxoi (r 0) (r 1) (OMem a) (n 3));
   mkRipE "vcmpeq_osss_xxo/2" false (fun a r n e => i_vcmpeq_osss_xxo (r 0) (r 1) (OMem a));
   mkRipE "vcmpeq_uqpd_xxo/2" false (fun a r n e => i_vcmpeq_uqpd_xxo (r 0) (r 1) (OMem a));
   mkRipE "vcmpeq_uqps_xxo/2" false (fun a r n e => i_vcmpeq_uqps_xxo (r 0) (r 1) (OMem a));
   mkRipE "vcmpeq_uqsd_xxo/2" false (fun a r n e => i_vcmpeq_uqsd_xxo (r 0) (r 1) (OMem a));
   mkRipE "vcmpeq_uqss_xxo/2" false (fun a r n e => i_vcmpeq_uqss_xxo (r 0) (r 1) (OMem a));
   mkRipE "vcmpeq_uspd_xxo/2" false (fun a r n e => i_vcmpeq_uspd_xxo (r 0) (r 1) (OMem a));
   mkRipE "vcmpeq_usps_xxo/2" false (fun a r n e => i_vcmpeq_usps_xxo (r 0) (r 1) (OMem a));
   mkRipE "vcmpeq_ussd_xxo/2" false (fun a r n e => i_vcmpeq_ussd_xxo (r 0) (r 1) (OMem a));
   mkRipE "vcmpeq_usss_xxo/2" false (fun a r n e => i_vcmpeq_usss_xxo (r 0) (r 1) (OMem a));
   mkRipE "vcmpeqpd_xxo/2" false (fun a r n e => i_vcmpeqpd_xxo (r 0) (r 1) (OMem a))].
Lemma rips32_ok : Forall entry_refers rips32.
Proof. unfold rips32. 
row. { unfold i_vblendpd_xxoi. ref. }
row. { unfold i_vblendps_xxoi. ref. }
row. { unfold i_vblendvpd_xxox. ref. }
row. { unfold i_vblendvps_xxox. ref. }
row. { unfold i_vbroadcastf128. ref. }
row. { unfold i_vbroadcasti128. ref. }
row. { unfold i_vbroadcastsd. ref. }
row. { unfold i_vbroadcastss. ref. }
row. { unfold i_vcmppd_xxoi. ref. }
row. { unfold i_vcmpeq_ospd_xxo, i_vcmppd_xxoi. ref. }
row. { unfold i_vcmpps_xxoi. ref. }
row. { unfold i_vcmpeq_osps_xxo, i_vcmpps_xxoi. ref. }
row. { unfold i_vcmpsd_xxoi. ref. }
row. { unfold i_vcmpeq_ossd_xxo, i_vcmpsd_xxoi. ref. }
row. { unfold i_vcmpss_xxoi. ref. }
row. { unfold i_vcmpeq_osss_xxo, i_vcmpss_xxoi. ref. }
row. { unfold i_vcmpeq_uqpd_xxo, i_vcmppd_xxoi. ref. }
row. { unfold i_vcmpeq_uqps_xxo, i_vcmpps_xxoi. ref. }
row. { unfold i_vcmpeq_uqsd_xxo, i_vcmpsd_xxoi. ref. }
row. { unfold i_vcmpeq_uqss_xxo, i_vcmpss_xxoi. ref. }
row. { unfold i_vcmpeq_uspd_xxo, i_vcmppd_xxoi. ref. }
row. { unfold i_vcmpeq_usps_xxo, i_vcmpps_xxoi. ref. }
row. { unfold i_vcmpeq_ussd_xxo, i_vcmpsd_xxoi. ref. }
row. { unfold i_vcmpeq_usss_xxo, i_vcmpss_xxoi. ref. }
row. { unfold i_vcmpeqpd_xxo, i_vcmppd_xxoi. ref. }
apply Forall_nil. Qed.
Definition rips33 : list rip_entry :=
  [mkRipE "vcmpeqps_xxo/2" false (fun a r n e => i_vcmpeqps_xxo (r 0) (r 1) (OMem a));
   mkRipE "vcmpeqsd_xxo/2" false (fun a r n e => i_vcmpeqsd_xxo (r 0) (r 1) (OMem a));
   mkRipE "vcmpeqss_xxo/2" false (fun a r n e => i_vcmpeqss_xxo (r 0) (r 1) (OMem a));
   mkRipE "vcmpfalse_ospd_xxo/2" false (fun a r n e => i_vcmpfalse_ospd_xxo (r 0) (r 1) (OMem a));
   mkRipE "vcmpfalse_osps_xxo/2" false (fun a r n e => i_vcmpfalse_osps_xxo (r 0) (r 1) (OMem a));
   mkRipE "vcmpfalse_ossd_xxo/2" false (fun a r n e => i_vcmpfalse_ossd_xxo (r 0) (r 1) (OMem a));
   mkRipE "vcmpfalse_osss_xxo/2" false (fun a r n e => i_vcmpfalse_osss_xxo (r 0) (r 1) (OMem a));
   mkRipE "vcmpfalsepd_xxo/2" false (fun a r n e => i_vcmpfalsepd_xxo (r 0) (r 1) (OMem a));
   mkRipE "vcmpfalseps_xxo/2" false (fun a r n e => i_vcmpfalseps_xxo (r 0) (r 1) (OMem a));
   mkRipE "vcmpfalsesd_xxo/2" false (fun a r n e => i_vcmpfalsesd_xxo (r 0) (r 1) (OMem a));
   mkRipE "vcmpfalsess_xxo/2" false (fun a r n e => i_vcmpfalsess_xxo (r 0) (r 1) (OMem a));
   mkRipE "vcmpge_oqpd_xxo/2" false (fun a r n e => i_vcmpge_oqpd_xxo (r 0) (r 1) (OMem a));
   mkRipE "vcmpge_oqps_xxo/2" false (fun a r n e => i_vcmpge_oqps_xxo (r 0) (r 1) (OMem a));
   mkRipE "vcmpge_oqsd_xxo/2" false (fun a r n e => i_vcmpge_oqsd_xxo (r 0) (r 1) (OMem a));
   mkRipE "vcmpge_oqss_xxo/2" false (fun a r n e => i_vcmpge_oqss_xxo (r 0) (r 1) (OMem a));
   mkRipE "vcmpgepd_xxo/2" false (fun a r n e => i_vcmpgepd_xxo (r 0) (r 1) (OMem a));
   mkRipE "vcmpgeps_xxo/2" false (fun a r n e => i_vcmpgeps_xxo (r 0) (r 1) (OMem a));
   mkRipE "vcmpgesd_xxo/2" false (fun a r n e => i_vcmpgesd_xxo (r 0) (r 1) (OMem a));
   mkRipE "vcmpgess_xxo/2" false (fun a r n e => i_vcmpgess_xxo (r 0) (r 1) (OMem a));
   mkRipE "vcmpgt_oqpd_xxo/2" false (fun a r n e => i_vcmpgt_oqpd_xxo (r 0) (r 1) (OMem a));
   mkRipE "vcmpgt_oqps_xxo/2" false (fun a r n e => i_vcmpgt_oqps_xxo (r 0) (r 1) (OMem a));
   mkRipE "vcmpgt_oqsd_xxo/2" false (fun a r n e => i_vcmpgt_oqsd_xxo (r 0) (r 1) (OMem a));
   mkRipE "vcmpgt_oqss_xxo/2" false (fun a r n e => i_vcmpgt_oqss_xxo (r 0) (r 1) (OMem a));
   mkRipE "vcmpgtpd_xxo/2" false (fun a r n e => i_vcmpgtpd_xxo (r 0) (r 1) (OMem a));
   mkRipE "vcmpgtps_xxo/2" false (fun a r n e => i_vcmpgtps_xxo (r 0) (r 1) (OMem a))].
Lemma rips33_ok : Forall entry_refers rips33.
Proof. unfold rips33. 
row. { unfold i_vcmpeqps_xxo, i_vcmpps_xxoi. ref. }
row. { unfold i_vcmpeqsd_xxo, i_vcmpsd_xxoi. ref. }
row. { unfold i_vcmpeqss_xxo, i_vcmpss_xxoi. ref. }
row. { unfold i_vcmpfalse_ospd_xxo, i_vcmppd_xxoi. ref. }
row. { unfold i_vcmpfalse_osps_xxo, i_vcmpps_xxoi. ref. }
row. { unfold i_vcmpfalse_ossd_xxo, i_vcmpsd_xxoi. ref. }
row. { unfold i_vcmpfalse_osss_xxo, i_vcmpss_xxoi. ref. }
row. { unfold i_vcmpfalsepd_xxo, i_vcmppd_xxoi. ref. }
row. { unfold i_vcmpfalseps_xxo, i_vcmpps_xxoi. ref. }
row. { unfold i_vcmpfalsesd_xxo, i_vcmpsd_xxoi. ref. }
row. { unfold i_vcmpfalsess_xxo, i_vcmpss_xxoi. ref. }
row. { unfold i_vcmpge_oqpd_xxo, i_vcmppd_xxoi. ref. }
row. { unfold i_vcmpge_oqps_xxo, i_vcmpps_xxoi. ref. }
row. { unfold i_vcmpge_oqsd_xxo, i_vcmpsd_xxoi. ref. }
row. { unfold i_vcmpge_oqss_xxo, i_vcmpss_xxoi. ref. }
row. { unfold i_vcmpgepd_xxo, i_vcmppd_xxoi. ref. }
row. { unfold i_vcmpgeps_xxo, i_vcmpps_xxoi. ref. }
row. { unfold i_vcmpgesd_xxo, i_vcmpsd_xxoi. ref. }
row. { unfold i_vcmpgess_xxo, i_vcmpss_xxoi. ref. }
row. { unfold i_vcmpgt_oqpd_xxo, i_vcmppd_xxoi. ref. }
row. { unfold i_vcmpgt_oqps_xxo, i_vcmpps_xxoi. ref. }
row. { unfold i_vcmpgt_oqsd_xxo, i_vcmpsd_xxoi. ref. }
row. { unfold i_vcmpgt_oqss_xxo, i_vcmpss_xxoi. ref. }
row. { unfold i_vcmpgtpd_xxo, i_vcmppd_xxoi. ref. }
row. { unfold i_vcmpgtps_xxo, i_vcmpps_xxoi. ref. }
apply Forall_nil. Qed.
Definition rips34 : list rip_entry :=
  [mkRipE "vcmpgtsd_xxo/2" false (fun a r n e => i_vcmpgtsd_xxo (r 0) (r 1) (OMem a));
   mkRipE "vcmpgtss_xxo/2" false (fun a r n e => i_vcmpgtss_xxo (r 0) (r 1) (OMem a));
   mkRipE "vcmple_oqpd_xxo/2" false (fun a r n e => i_vcmple_oqpd_xxo (r 0) (r 1) (OMem a));
   mkRipE "vcmple_oqps_xxo/2" false (fun a r n e => i_vcmple_oqps_xxo (r 0) (r 1) (OMem a));
   mkRipE "vcmple_oqsd_xxo/2" false (fun a r n e => i_vcmple_oqsd_xxo (r 0) (r 1) (OMem a));
   mkRipE "vcmple_oqss_xxo/2" false (fun a r n e => i_vcmple_oqss_xxo (r 0) (r 1) (OMem a));
   mkRipE "vcmplepd_xxo/2" false (fun a r n e => i_vcmplepd_xxo (r 0) (r 1) (OMem a));
   mkRipE "vcmpleps_xxo/2" false (fun a r n e => i_vcmpleps_xxo (r 0) (r 1) (OMem a));
   mkRipE "vcmplesd_xxo/2" false (fun a r n e => i_vcmplesd_xxo (r 0) (r 1) (OMem a));
   mkRipE "vcmpless_xxo/2" false (fun a r n e => i_vcmpless_xxo (r 0) (r 1) (OMem a));
   mkRipE "vcmplt_oqpd_xxo/2" false (fun a r n e => i_vcmplt_oqpd_xxo (r 0) (r 1) (OMem a));
   mkRipE "vcmplt_oqps_xxo/2" false (fun a r n e => i_vcmplt_oqps_xxo (r 0) (r 1) (OMem a));
   mkRipE "vcmplt_oqsd_xxo/2" false (fun a r n e => i_vcmplt_oqsd_xxo (r 0) (r 1) (OMem a));
   mkRipE "vcmplt_oqss_xxo/2" false (fun a r n e => i_vcmplt_oqss_xxo (r 0) (r 1) (OMem a));
   mkRipE "vcmpltpd_xxo/2" false (fun a r n e => i_vcmpltpd_xxo (r 0) (r 1) (OMem a));
   mkRipE "vcmpltps_xxo/2" false (fun a r n e => i_vcmpltps_xxo (r 0) (r 1) (OMem a));
   mkRipE "vcmpltsd_xxo/2" false (fun a r n e => i_vcmpltsd_xxo (r 0) (r 1) (OMem a));
   mkRipE "vcmpltss_xxo/2" false (fun a r n e => i_vcmpltss_xxo (r 0) (r 1) (OMem a));
   mkRipE "vcmpneq_oqpd_xxo/2" false (fun a r n e => i_vcmpneq_oqpd_xxo (r 0) (r 1) (OMem a));
   mkRipE "vcmpneq_oqps_xxo/2" false (fun a r n e => i_vcmpneq_oqps_xxo (r 0) (r 1) (OMem a));
   mkRipE "vcmpneq_oqsd_xxo/2" false (fun a r n e => i_vcmpneq_oqsd_xxo (r 0) (r 1) (OMem a));
   mkRipE "vcmpneq_oqss_xxo/2" false (fun a r n e => i_vcmpneq_oqss_xxo (r 0) (r 1) (OMem a));
   mkRipE "vcmpneq_ospd_xxo/2" false (fun a r n e => i_vcmpneq_ospd_xxo (r 0) (r 1) (OMem a));
   mkRipE "vcmpneq_osps_xxo/2" false (fun a r n e => i_vcmpneq_osps_xxo (r 0) (r 1) (OMem a));
   mkRipE "vcmpneq_ossd_xxo/2" false (fun a r n e => i_vcmpneq_ossd_xxo (r 0) (r 1) (OMem a))].
Lemma rips34_ok : Forall entry_refers rips34.
Proof. unfold rips34. 
row. { unfold i_vcmpgtsd_xxo, i_vcmpsd_xxoi. ref. }
row. { unfold i_vcmpgtss_xxo, i_vcmpss_xxoi. ref. }
row. { unfold i_vcmple_oqpd_xxo, i_vcmppd_xxoi. ref. }
row. { unfold i_vcmple_oqps_xxo, i_vcmpps_xxoi. ref. }
row. { unfold i_vcmple_oqsd_xxo, i_vcmpsd_xxoi. ref. }
row. { unfold i_vcmple_oqss_xxo, i_vcmpss_xxoi. ref. }
row. { unfold i_vcmplepd_xxo, i_vcmppd_xxoi. ref. }
row. { unfold i_vcmpleps_xxo, i_vcmpps_xxoi. ref. }
row. { unfold i_vcmplesd_xxo, i_vcmpsd_xxoi. ref. }
row. { unfold i_vcmpless_xxo, i_vcmpss_xxoi. ref. }
row. { unfold i_vcmplt_oqpd_xxo, i_vcmppd_xxoi. ref. }
row. { unfold i_vcmplt_oqps_xxo, i_vcmpps_xxoi. ref. }
row. { unfold i_vcmplt_oqsd_xxo, i_vcmpsd_xxoi. ref. }
row. { unfold i_vcmplt_oqss_xxo, i_vcmpss_xxoi. ref. }
row. { unfold i_vcmpltpd_xxo, i_vcmppd_xxoi. ref. }
row. { unfold i_vcmpltps_xxo, i_vcmpps_xxoi. ref. }
row. { unfold i_vcmpltsd_xxo, i_vcmpsd_xxoi. ref. }
row. { unfold i_vcmpltss_xxo, i_vcmpss_xxoi. ref. }
row. { unfold i_vcmpneq_oqpd_xxo, i_vcmppd_xxoi. ref. }
row. { unfold i_vcmpneq_oqps_xxo, i_vcmpps_xxoi. ref. }
row. { unfold i_vcmpneq_oqsd_xxo, i_vcmpsd_xxoi. ref. }
row. { unfold i_vcmpneq_oqss_xxo, i_vcmpss_xxoi. ref. }
row. { unfold i_vcmpneq_ospd_xxo, i_vcmppd_xxoi. ref. }
row. { unfold i_vcmpneq_osps_xxo, i_vcmpps_xxoi. ref. }
row. { unfold i_vcmpneq_ossd_xxo, i_vcmpsd_xxoi. ref. }
apply Forall_nil. Qed.
Definition rips35 : list rip_entry :=
  [mkRipE "vcmpneq_osss_xxo/2" false (fun a r n e => i_vcmpneq_osss_xxo (r 0) (r 1) (OMem a));
   mkRipE "vcmpneq_uspd_xxo/2" false (fun a r n e => i_vcmpneq_uspd_xxo (r 0) (r 1) (OMem a));
   mkRipE "vcmpneq_usps_xxo/2" false (fun a r n e => i_vcmpneq_usps_xxo (r 0) (r 1) (OMem a));
   mkRipE "vcmpneq_ussd_xxo/2" false (fun a r n e => i_vcmpneq_ussd_xxo (r 0) (r 1) (OMem a));
   mkRipE "vcmpneq_usss_xxo/2" false (fun a r n e => i_vcmpneq_usss_xxo (r 0) (r 1) (OMem a));
   mkRipE "vcmpneqpd_xxo/2" false (fun a r n e => i_vcmpneqpd_xxo (r 0) (r 1) (OMem a));
   mkRipE "vcmpneqps_xxo/2" false (fun a r n e => i_vcmpneqps_xxo (r 0) (r 1) (OMem a));
   mkRipE "vcmpneqsd_xxo/2" false (fun a r n e => i_vcmpneqsd_xxo (r 0) (r 1) (OMem a));
   mkRipE "vcmpneqss_xxo/2" false (fun a r n e => i_vcmpneqss_xxo (r 0) (r 1) (OMem a));
   mkRipE "vcmpnge_uqpd_xxo/2" false (fun a r n e => i_vcmpnge_uqpd_xxo (r 0) (r 1) (OMem a));
   mkRipE "vcmpnge_uqps_xxo/2" false (fun a r n e => i_vcmpnge_uqps_xxo (r 0) (r 1) (OMem a));
   mkRipE "vcmpnge_uqsd_xxo/2" false (fun a r n e => i_vcmpnge_uqsd_xxo (r 0) (r 1) (OMem a));
   mkRipE "vcmpnge_uqss_xxo/2" false (fun a r n e => i_vcmpnge_uqss_xxo (r 0) (r 1) (OMem a));
   mkRipE "vcmpngepd_xxo/2" false (fun a r n e => i_vcmpngepd_xxo (r 0) (r 1) (OMem a));
   mkRipE "vcmpngeps_xxo/2" false (fun a r n e => i_vcmpngeps_xxo (r 0) (r 1) (OMem a));
   mkRipE "vcmpngesd_xxo/2" false (fun a r n e => i_vcmpngesd_xxo (r 0) (r 1) (OMem a));
   mkRipE "vcmpngess_xxo/2" false (fun a r n e => i_vcmpngess_xxo (r 0) (r 1) (OMem a));
   mkRipE "vcmpngt_uqpd_xxo/2" false (fun a r n e => i_vcmpngt_uqpd_xxo (r 0) (r 1) (OMem a));
   mkRipE "vcmpngt_uqps_xxo/2" false (fun a r n e => i_vcmpngt_uqps_xxo (r 0) (r 1) (OMem a));
   mkRipE "vcmpngt_uqsd_xxo/2" false (fun a r n e => i_vcmpngt_uqsd_xxo (r 0) (r 1) (OMem a));
   mkRipE "vcmpngt_uqss_xxo/2" false (fun a r n e => i_vcmpngt_uqss_xxo (r 0) (r 1) (OMem a));
   mkRipE "vcmpngtpd_xxo/2" false (fun a r n e => i_vcmpngtpd_xxo (r 0) (r 1) (OMem a));
   mkRipE "vcmpngtps_xxo/2" false (fun a r n e => i_vcmpngtps_xxo (r 0) (r 1) (OMem a));
   mkRipE "vcmpngtsd_xxo/2" false (fun a r n e => i_vcmpngtsd_xxo (r 0) (r 1) (OMem a));
   mkRipE "vcmpngtss_xxo/2" false (fun a r n e => i_vcmpngtss_xxo (r 0) (r 1) (OMem a))].
Lemma rips35_ok : Forall entry_refers rips35.
Proof. unfold rips35. 
row. { unfold i_vcmpneq_osss_xxo, i_vcmpss_xxoi. ref. }
row. { unfold i_vcmpneq_uspd_xxo, i_vcmppd_xxoi. ref. }
row. { unfold i_vcmpneq_usps_xxo, i_vcmpps_xxoi. ref. }
row. { unfold i_vcmpneq_ussd_xxo, i_vcmpsd_xxoi. ref. }
row. { unfold i_vcmpneq_usss_xxo, i_vcmpss_xxoi. ref. }
row. { unfold i_vcmpneqpd_xxo, i_vcmppd_xxoi. ref. }
row. { unfold i_vcmpneqps_xxo, i_vcmpps_xxoi. ref. }
row. { unfold i_vcmpneqsd_xxo, i_vcmpsd_xxoi. ref. }
row. { unfold i_vcmpneqss_xxo, i_vcmpss_xxoi. ref. }
row. { unfold i_vcmpnge_uqpd_xxo, i_vcmppd_xxoi. ref. }
row. { unfold i_vcmpnge_uqps_xxo, i_vcmpps_xxoi. ref. }
row. { unfold i_vcmpnge_uqsd_xxo, i_vcmpsd_xxoi. ref. }
row. { unfold i_vcmpnge_uqss_xxo, i_vcmpss_xxoi. ref. }
row. { unfold i_vcmpngepd_xxo, i_vcmppd_xxoi. ref. }
row. { unfold i_vcmpngeps_xxo, i_vcmpps_xxoi. ref. }
row. { unfold i_vcmpngesd_xxo, i_vcmpsd_xxoi. ref. }
row. { unfold i_vcmpngess_xxo, i_vcmpss_xxoi. ref. }
row. { unfold i_vcmpngt_uqpd_xxo, i_vcmppd_xxoi. ref. }
row. { unfold i_vcmpngt_uqps_xxo, i_vcmpps_xxoi. ref. }
row. { unfold i_vcmpngt_uqsd_xxo, i_vcmpsd_xxoi. ref. }
row. { unfold i_vcmpngt_uqss_xxo, i_vcmpss_xxoi. ref. }
row. { unfold i_vcmpngtpd_xxo, i_vcmppd_xxoi. ref. }
row. { unfold i_vcmpngtps_xxo, i_vcmpps_xxoi. ref. }
row. { unfold i_vcmpngtsd_xxo, i_vcmpsd_xxoi. ref. }
row. { unfold i_vcmpngtss_xxo, i_vcmpss_xxoi. ref. }
apply Forall_nil. Qed.
Definition rips36 : list rip_entry :=
  [mkRipE "vcmpnle_uqpd_xxo/2" false (fun a r n e => i_vcmpnle_uqpd_xxo (r 0) (r 1) (OMem a));
   mkRipE "vcmpnle_uqps_xxo/2" false (fun a r n e => i_vcmpnle_uqps_xxo (r 0) (r 1) (OMem a));
   mkRipE "vcmpnle_uqsd_xxo/2" false (fun a r n e => i_vcmpnle_uqsd_xxo (r 0) (r 1) (OMem a));
   mkRipE "vcmpnle_uqss_xxo/2" false (fun a r n e => i_vcmpnle_uqss_xxo (r 0) (r 1) (OMem a));
   mkRipE "vcmpnlepd_xxo/2" false (fun a r n e => i_vcmpnlepd_xxo (r 0) (r 1) (OMem a));
   mkRipE "vcmpnleps_xxo/2" false (fun a r n e => i_vcmpnleps_xxo (r 0) (r 1) (OMem a));
   mkRipE "vcmpnlesd_xxo/2" false (fun a r n e => i_vcmpnlesd_xxo (r 0) (r 1) (OMem a));
   mkRipE "vcmpnless_xxo/2" false (fun a r n e => i_vcmpnless_xxo (r 0) (r 1) (OMem a));
   mkRipE "vcmpnlt_uqpd_xxo/2" false (fun a r n e => i_vcmpnlt_uqpd_xxo (r 0) (r 1) (OMem a));
   mkRipE "vcmpnlt_uqps_xxo/2" false (fun a r n e => i_vcmpnlt_uqps_xxo (r 0) (r 1) (OMem a));
   mkRipE "vcmpnlt_uqsd_xxo/2" false (fun a r n e => i_vcmpnlt_uqsd_xxo (r 0) (r 1) (OMem a));
   mkRipE "vcmpnlt_uqss_xxo/2" false (fun a r n e => i_vcmpnlt_uqss_xxo (r 0) (r 1) (OMem a));
   mkRipE "vcmpnltpd_xxo/2" false (fun a r n e => i_vcmpnltpd_xxo (r 0) (r 1) (OMem a));
   mkRipE "vcmpnltps_xxo/2" false (fun a r n e => i_vcmpnltps_xxo (r 0) (r 1) (OMem a));
   mkRipE "vcmpnltsd_xxo/2" false (fun a r n e => i_vcmpnltsd_xxo (r 0) (r 1) (OMem a));
   mkRipE "vcmpnltss_xxo/2" false (fun a r n e => i_vcmpnltss_xxo (r 0) (r 1) (OMem a));
   mkRipE "vcmpord_spd_xxo/2" false (fun a r n e => i_vcmpord_spd_xxo (r 0) (r 1) (OMem a));
   mkRipE "vcmpord_sps_xxo/2" false (fun a r n e => i_vcmpord_sps_xxo (r 0) (r 1) (OMem a));
   mkRipE "vcmpord_ssd_xxo/2" false (fun a r n e => i_vcmpord_ssd_xxo (r 0) (r 1) (OMem a));
   mkRipE "vcmpord_sss_xxo/2" false (fun a r n e => i_vcmpord_sss_xxo (r 0) (r 1) (OMem a));
   mkRipE "vcmpordpd_xxo/2" false (fun a r n e => i_vcmpordpd_xxo (r 0) (r 1) (OMem a));
   mkRipE "vcmpordps_xxo/2" false (fun a r n e => i_vcmpordps_xxo (r 0) (r 1) (OMem a));
   mkRipE "vcmpordsd_xxo/2" false (fun a r n e => i_vcmpordsd_xxo (r 0) (r 1) (OMem a));
   mkRipE "vcmpordss_xxo/2" false (fun a r n e => i_vcmpordss_xxo (r 0) (r 1) (OMem a));
   mkRipE "vcmptrue_uspd_xxo/2" false (fun a r n e => i_vcmptrue_uspd_xxo (r 0) (r 1) (OMem a))].
Lemma rips36_ok : Forall entry_refers rips36.
Proof. unfold rips36. 
row. { unfold i_vcmpnle_uqpd_xxo, i_vcmppd_xxoi. ref. }
row. { unfold i_vcmpnle_uqps_xxo, i_vcmpps_xxoi. ref. }
row. { unfold i_vcmpnle_uqsd_xxo, i_vcmpsd_xxoi. ref. }
row. { unfold i_vcmpnle_uqss_xxo, i_vcmpss_xxoi. ref. }
row. { unfold i_vcmpnlepd_xxo, i_vcmppd_xxoi. ref. }
row. { unfold i_vcmpnleps_xxo, i_vcmpps_xxoi. ref. }
row. { unfold i_vcmpnlesd_xxo, i_vcmpsd_xxoi. ref. }
row. { unfold i_vcmpnless_xxo, i_vcmpss_xxoi. ref. }
row. { unfold i_vcmpnlt_uqpd_xxo, i_vcmppd_xxoi. ref. }
row. { unfold i_vcmpnlt_uqps_xxo, i_vcmpps_xxoi. ref. }
row. { unfold i_vcmpnlt_uqsd_xxo, i_vcmpsd_xxoi. ref. }
row. { unfold i_vcmpnlt_uqss_xxo, i_vcmpss_xxoi. ref. }
row. { unfold i_vcmpnltpd_xxo, i_vcmppd_xxoi. ref. }
row. { unfold i_vcmpnltps_xxo, i_vcmpps_xxoi. ref. }
row. { unfold i_vcmpnltsd_xxo, i_vcmpsd_xxoi. ref. }
row. { unfold i_vcmpnltss_xxo, i_vcmpss_xxoi. ref. }
row. { unfold i_vcmpord_spd_xxo, i_vcmppd_xxoi. ref. }
row. { unfold i_vcmpord_sps_xxo, i_vcmpps_xxoi. ref. }
row. { unfold i_vcmpord_ssd_xxo, i_vcmpsd_xxoi. ref. }
row. { unfold i_vcmpord_sss_xxo, i_vcmpss_xxoi. ref. }
row. { unfold i_vcmpordpd_xxo, i_vcmppd_xxoi. ref. }
row. { unfold i_vcmpordps_xxo, i_vcmpps_xxoi. ref. }
row. { unfold i_vcmpordsd_xxo, i_vcmpsd_xxoi. ref. }
row. { unfold i_vcmpordss_xxo, i_vcmpss_xxoi. ref. }
row. { unfold i_vcmptrue_uspd_xxo, i_vcmppd_xxoi. ref. }
apply Forall_nil. Qed.
Definition rips37 : list rip_entry :=
  [mkRipE "vcmptrue_usps_xxo/2" false (fun a r n e => i_vcmptrue_usps_xxo (r 0) (r 1) (OMem a));
   mkRipE "vcmptrue_ussd_xxo/2" false (fun a r n e => i_vcmptrue_ussd_xxo (r 0) (r 1) (OMem a));
   mkRipE "vcmptrue_usss_xxo/2" false (fun a r n e => i_vcmptrue_usss_xxo (r 0) (r 1) (OMem a));
   mkRipE "vcmptruepd_xxo/2" false (fun a r n e => i_vcmptruepd_xxo (r 0) (r 1) (OMem a));
   mkRipE "vcmptrueps_xxo/2" false (fun a r n e => i_vcmptrueps_xxo (r 0) (r 1) (OMem a));
   mkRipE "vcmptruesd_xxo/2" false (fun a r n e => i_vcmptruesd_xxo (r 0) (r 1) (OMem a));
   mkRipE "vcmptruess_xxo/2" false (fun a r n e => i_vcmptruess_xxo (r 0) (r 1) (OMem a));
   mkRipE "vcmpunord_spd_xxo/2" false (fun a r n e => i_vcmpunord_spd_xxo (r 0) (r 1) (OMem a));
   mkRipE "vcmpunord_sps_xxo/2" false (fun a r n e => i_vcmpunord_sps_xxo (r 0) (r 1) (OMem a));
   mkRipE "vcmpunord_ssd_xxo/2" false (fun a r n e => i_vcmpunord_ssd_xxo (r 0) (r 1) (OMem a));
   mkRipE "vcmpunord_sss_xxo/2" false (fun a r n e => i_vcmpunord_sss_xxo (r 0) (r 1) (OMem a));
   mkRipE "vcmpunordpd_xxo/2" false (fun a r n e => i_vcmpunordpd_xxo (r 0) (r 1) (OMem a));
   mkRipE "vcmpunordps_xxo/2" false (fun a r n e => i_vcmpunordps_xxo (r 0) (r 1) (OMem a));
   mkRipE "vcmpunordsd_xxo/2" false (fun a r n e => i_vcmpunordsd_xxo (r 0) (r 1) (OMem a));
   mkRipE "vcmpunordss_xxo/2" false (fun a r n e => i_vcmpunordss_xxo (r 0) (r 1) (OMem a));
   mkRipE "vcomisd/1" false (fun a r n e => i_vcomisd (r 0) (OMem a));
   mkRipE "vcomiss/1" false (fun a r n e => i_vcomiss (r 0) (OMem a));
   mkRipE "vcvtdq2pd/1" false (fun a r n e => i_vcvtdq2pd (r 0) (OMem a));
   mkRipE "vcvtdq2ps/1" false (fun a r n e => i_vcvtdq2ps (r 0) (OMem a));
   mkRipE "vcvtneebf162ps/1" false (fun a r n e => i_vcvtneebf162ps (r 0) a);
   mkRipE "vcvtneeph2ps/1" false (fun a r n e => i_vcvtneeph2ps (r 0) a);
   mkRipE "vcvtneobf162ps/1" false (fun a r n e => i_vcvtneobf162ps (r 0) a);
   mkRipE "vcvtneoph2ps/1" false (fun a r n e => i_vcvtneoph2ps (r 0) a);
   mkRipE "vcvtneps2bf16/1" false (fun a r n e => i_vcvtneps2bf16 (r 0) (OMem a) e);
   mkRipE "vcvtpd2dq/1" false (fun a r n e => i_vcvtpd2dq (r 0) (OMem a))].
Lemma rips37_ok : Forall entry_refers rips37.
Proof. unfold rips37. 
row. { unfold i_vcmptrue_usps_xxo, i_vcmpps_xxoi. ref. }
row. { unfold i_vcmptrue_ussd_xxo, i_vcmpsd_xxoi. ref. }
row. { unfold i_vcmptrue_usss_xxo, i_vcmpss_xxoi. ref. }
row. { unfold i_vcmptruepd_xxo, i_vcmppd_xxoi. ref. }
row. { unfold i_vcmptrueps_xxo, i_vcmpps_xxoi. ref. }
row. { unfold i_vcmptruesd_xxo, i_vcmpsd_xxoi. ref. }
row. { unfold i_vcmptruess_xxo, i_vcmpss_xxoi. ref. }
row. { unfold i_vcmpunord_spd_xxo, i_vcmppd_xxoi. ref. }
row. { unfold i_vcmpunord_sps_xxo, i_vcmpps_xxoi. ref. }
row. { unfold i_vcmpunord_ssd_xxo, i_vcmpsd_xxoi. ref. }
row. { unfold i_vcmpunord_sss_xxo, i_vcmpss_xxoi. ref. }
row. { unfold i_vcmpunordpd_xxo, i_vcmppd_xxoi. ref. }
row. { unfold i_vcmpunordps_xxo, i_vcmpps_xxoi. ref. }
row. { unfold i_vcmpunordsd_xxo, i_vcmpsd_xxoi. ref. }
row. { unfold i_vcmpunordss_xxo, i_vcmpss_xxoi. ref. }
row. { unfold i_vcomisd. ref. }
row. { unfold i_vcomiss. ref. }
row. { unfold i_vcvtdq2pd. ref. }
row. { unfold i_vcvtdq2ps. ref. }
row. { unfold i_vcvtneebf162ps. ref. }
row. { unfold i_vcvtneeph2ps. ref. }
row. { unfold i_vcvtneobf162ps. ref. }
row. { unfold i_vcvtneoph2ps. ref. }
row. { unfold i_vcvtneps2bf16. ref. }
row. { unfold i_vcvtpd2dq. ref. }
apply Forall_nil. Qed.
Definition rips38 : list rip_entry :=
  [mkRipE "vcvtpd2ps/1" false (fun a r n e => i_vcvtpd2ps (r 0) (OMem a));
   mkRipE "vcvtph2ps/1" false (fun a r n e => i_vcvtph2ps (r 0) (OMem a));
   mkRipE "vcvtps2dq/1" false (fun a r n e => i_vcvtps2dq (r 0) (OMem a));
   mkRipE "vcvtps2pd/1" false (fun a r n e => i_vcvtps2pd (r 0) (OMem a));
   mkRipE "vcvtps2ph/0" false (fun a r n e => i_vcvtps2ph (OMem a) (r 1) (n 2));
   mkRipE "vcvtsd2si_do/1" false (fun a r n e => i_vcvtsd2si_do (r 0) (OMem a));
   mkRipE "vcvtsd2ss_xxo/2" false (fun a r n e => i_vcvtsd2ss_xxo (r 0) (r 1) (OMem a));
   mkRipE "vcvtsi2sd_xxo/2" false (fun a r n e => i_vcvtsi2sd_xxo (r 0) (r 1) (OMem a));
   mkRipE "vcvtsi2ss_xxo/2" false (fun a r n e => i_vcvtsi2ss_xxo (r 0) (r 1) (OMem a));
   mkRipE "vcvtss2sd_xxo/2" false (fun a r n e => i_vcvtss2sd_xxo (r 0) (r 1) (OMem a));
   mkRipE "vcvtss2si_do/1" false (fun a r n e => i_vcvtss2si_do (r 0) (OMem a));
   mkRipE "vcvttpd2dq/1" false (fun a r n e => i_vcvttpd2dq (r 0) (OMem a));
   mkRipE "vcvttps2dq/1" false (fun a r n e => i_vcvttps2dq (r 0) (OMem a));
   mkRipE "vcvttsd2si_do/1" false (fun a r n e => i_vcvttsd2si_do (r 0) (OMem a));
   mkRipE "vcvttss2si_do/1" false (fun a r n e => i_vcvttss2si_do (r 0) (OMem a));
   mkRipE "vdivpd/1" false (fun a r n e => i_vdivpd (r 0) (OMem a) (OReg (r 2)));
   mkRipE "vdivpd/2" false (fun a r n e => i_vdivpd (r 0) (OReg (r 1)) (OMem a));
   mkRipE "vdivps/1" false (fun a r n e => i_vdivps (r 0) (OMem a) (OReg (r 2)));
   mkRipE "vdivps/2" false (fun a r n e => i_vdivps (r 0) (OReg (r 1)) (OMem a));
   mkRipE "vdivsd/1" false (fun a r n e => i_vdivsd (r 0) (OMem a) (OReg (r 2)));
   mkRipE "vdivsd/2" false (fun a r n e => i_vdivsd (r 0) (OReg (r 1)) (OMem a));
   mkRipE "vdivss/1" false (fun a r n e => i_vdivss (r 0) (OMem a) (OReg (r 2)));
   mkRipE "vdivss/2" false (fun a r n e => i_vdivss (r 0) (OReg (r 1)) (OMem a));
   mkRipE "vdppd_xxoi/2" false (fun a r n e => i_vdppd_xxoi (r 0) (r 1) (OMem a) (n 3));
   mkRipE "vdpps_xxoi/2" false (fun a r n e => i_vdpps_xxoi (r 0) (r 1) (OMem a) (n 3))].
Lemma rips38_ok : Forall entry_refers rips38.
Proof. unfold rips38. 
row. { unfold i_vcvtpd2ps. ref. }
row. { unfold i_vcvtph2ps. ref. }
row. { unfold i_vcvtps2dq. ref. }
row. { unfold i_vcvtps2pd. ref. }
row. { unfold i_vcvtps2ph. ref. }
row. { unfold i_vcvtsd2si_do. ref. }
row. { unfold i_vcvtsd2ss_xxo. ref. }
row. { unfold i_vcvtsi2sd_xxo. ref. }
row. { unfold i_vcvtsi2ss_xxo. ref. }
row. { unfold i_vcvtss2sd_xxo. ref. }
row. { unfold i_vcvtss2si_do. ref. }
row. { unfold i_vcvttpd2dq. ref. }
row. { unfold i_vcvttps2dq. ref. }
row. { unfold i_vcvttsd2si_do. ref. }
row. { unfold i_vcvttss2si_do. ref. }
row. { unfold i_vdivpd. ref. }
row. { unfold i_vdivpd. ref. }
row. { unfold i_vdivps. ref. }
row. { unfold i_vdivps. ref. }
row. { unfold i_vdivsd. ref. }
row. { unfold i_vdivsd. ref. }
row. { unfold i_vdivss. ref. }
row. { unfold i_vdivss. ref. }
row. { unfold i_vdppd_xxoi. ref. }
row. { unfold i_vdpps_xxoi. ref. }
apply Forall_nil. Qed.
Definition rips39 : list rip_entry :=
  [mkRipE "vextractf128/0" false (fun a r n e => i_vextractf128 (OMem a) (r 1) (n 2));
   mkRipE "vextracti128/0" false (fun a r n e => i_vextracti128 (OMem a) (r 1) (n 2));
   mkRipE "vextractps/0" false (fun a r n e => i_vextractps (OMem a) (r 1) (n 2));
   mkRipE "vfmadd132pd/2" false (fun a r n e => i_vfmadd132pd (r 0) (r 1) (OMem a));
   mkRipE "vfmadd132ps/2" false (fun a r n e => i_vfmadd132ps (r 0) (r 1) (OMem a));
   mkRipE "vfmadd132sd/2" false (fun a r n e => i_vfmadd132sd (r 0) (r 1) (OMem a));
   mkRipE "vfmadd132ss/2" false (fun a r n e => i_vfmadd132ss (r 0) (r 1) (OMem a));
   mkRipE "vfmadd213pd/2" false (fun a r n e => i_vfmadd213pd (r 0) (r 1) (OMem a));
   mkRipE "vfmadd213ps/2" false (fun a r n e => i_vfmadd213ps (r 0) (r 1) (OMem a));
   mkRipE "vfmadd213sd/2" false (fun a r n e => i_vfmadd213sd (r 0) (r 1) (OMem a));
   mkRipE "vfmadd213ss/2" false (fun a r n e => i_vfmadd213ss (r 0) (r 1) (OMem a));
   mkRipE "vfmadd231pd/2" false (fun a r n e => i_vfmadd231pd (r 0) (r 1) (OMem a));
   mkRipE "vfmadd231ps/2" false (fun a r n e => i_vfmadd231ps (r 0) (r 1) (OMem a));
   mkRipE "vfmadd231sd/2" false (fun a r n e => i_vfmadd231sd (r 0) (r 1) (OMem a));
   mkRipE "vfmadd231ss/2" false (fun a r n e => i_vfmadd231ss (r 0) (r 1) (OMem a));
   mkRipE "vfmaddsub132pd/2" false (fun a r n e => i_vfmaddsub132pd (r 0) (r 1) (OMem a));
   mkRipE "vfmaddsub132ps/2" false (fun a r n e => i_vfmaddsub132ps (r 0) (r 1) (OMem a));
   mkRipE "vfmaddsub213pd/2" false (fun a r n e => i_vfmaddsub213pd (r 0) (r 1) (OMem a));
   mkRipE "vfmaddsub213ps/2" false (fun a r n e => i_vfmaddsub213ps (r 0) (r 1) (OMem a));
   mkRipE "vfmaddsub231pd/2" false (fun a r n e => i_vfmaddsub231pd (r 0) (r 1) (OMem a));
   mkRipE "vfmaddsub231ps/2" false (fun a r n e => i_vfmaddsub231ps (r 0) (r 1) (OMem a));
   mkRipE "vfmsub132pd/2" false (fun a r n e => i_vfmsub132pd (r 0) (r 1) (OMem a));
   mkRipE "vfmsub132ps/2" false (fun a r n e => i_vfmsub132ps (r 0) (r 1) (OMem a));
   mkRipE "vfmsub132sd/2" false (fun a r n e => i_vfmsub132sd (r 0) (r 1) (OMem a));
   mkRipE "vfmsub132ss/2" false (fun a r n e => i_vfmsub132ss (r 0) (r 1) (OMem a))].
Lemma rips39_ok : Forall entry_refers rips39.
Proof. unfold rips39. 
row. { unfold i_vextractf128. ref. }
row. { unfold i_vextracti128. ref. }
row. { unfold i_vextractps. ref. }
row. { unfold i_vfmadd132pd. ref. }
row. { unfold i_vfmadd132ps. ref. }
row. { unfold i_vfmadd132sd. ref. }
row. { unfold i_vfmadd132ss. ref. }
row. { unfold i_vfmadd213pd. ref. }
row. { unfold i_vfmadd213ps. ref. }
row. { unfold i_vfmadd213sd. ref. }
row. { unfold i_vfmadd213ss. ref. }
row. { unfold i_vfmadd231pd. ref. }
row. { unfold i_vfmadd231ps. ref. }
row. { unfold i_vfmadd231sd. ref. }
row. { unfold i_vfmadd231ss. ref. }
row. { unfold i_vfmaddsub132pd. ref. }
row. { unfold i_vfmaddsub132ps. ref. }
row. { unfold i_vfmaddsub213pd. ref. }
row. { unfold i_vfmaddsub213ps. ref. }
row. { unfold i_vfmaddsub231pd. ref. }
row. { unfold i_vfmaddsub231ps. ref. }
row. { unfold i_vfmsub132pd. ref. }
row. { unfold i_vfmsub132ps. ref. }
row. { unfold i_vfmsub132sd. ref. }
row. { unfold i_vfmsub132ss. ref. }
apply Forall_nil. Qed.
Definition rips40 : list rip_entry :=
  [mkRipE "vfmsub213pd/2" false (fun a r n e => i_vfmsub213pd (r 0) (r 1) (OMem a));
   mkRipE "vfmsub213ps/2" false (fun a r n e => i_vfmsub213ps (r 0) (r 1) (OMem a));
   mkRipE "vfmsub213sd/2" false (fun a r n e => i_vfmsub213sd (r 0) (r 1) (OMem a));
   mkRipE "vfmsub213ss/2" false (fun a r n e => i_vfmsub213ss (r 0) (r 1) (OMem a));
   mkRipE "vfmsub231pd/2" false (fun a r n e => i_vfmsub231pd (r 0) (r 1) (OMem a));
   mkRipE "vfmsub231ps/2" false (fun a r n e => i_vfmsub231ps (r 0) (r 1) (OMem a));
   mkRipE "vfmsub231sd/2" false (fun a r n e => i_vfmsub231sd (r 0) (r 1) (OMem a));
   mkRipE "vfmsub231ss/2" false (fun a r n e => i_vfmsub231ss (r 0) (r 1) (OMem a));
   mkRipE "vfmsubadd132pd/2" false (fun a r n e => i_vfmsubadd132pd (r 0) (r 1) (OMem a));
   mkRipE "vfmsubadd132ps/2" false (fun a r n e => i_vfmsubadd132ps (r 0) (r 1) (OMem a));
   mkRipE "vfmsubadd213pd/2" false (fun a r n e => i_vfmsubadd213pd (r 0) (r 1) (OMem a));
   mkRipE "vfmsubadd213ps/2" false (fun a r n e => i_vfmsubadd213ps (r 0) (r 1) (OMem a));
   mkRipE "vfmsubadd231pd/2" false (fun a r n e => i_vfmsubadd231pd (r 0) (r 1) (OMem a));
   mkRipE "vfmsubadd231ps/2" false (fun a r n e => i_vfmsubadd231ps (r 0) (r 1) (OMem a));
   mkRipE "vfnmadd132pd/2" false (fun a r n e => i_vfnmadd132pd (r 0) (r 1) (OMem a));
   mkRipE "vfnmadd132ps/2" false (fun a r n e => i_vfnmadd132ps (r 0) (r 1) (OMem a));
   mkRipE "vfnmadd132sd/2" false (fun a r n e => i_vfnmadd132sd (r 0) (r 1) (OMem a));
   mkRipE "vfnmadd132ss/2" false (fun a r n e => i_vfnmadd132ss (r 0) (r 1) (OMem a));
   mkRipE "vfnmadd213pd/2" false (fun a r n e => i_vfnmadd213pd (r 0) (r 1) (OMem a));
   mkRipE "vfnmadd213ps/2" false (fun a r n e => i_vfnmadd213ps (r 0) (r 1) (OMem a));
   mkRipE "vfnmadd213sd/2" false (fun a r n e => i_vfnmadd213sd (r 0) (r 1) (OMem a));
   mkRipE "vfnmadd213ss/2" false (fun a r n e => i_vfnmadd213ss (r 0) (r 1) (OMem a));
   mkRipE "vfnmadd231pd/2" false (fun a r n e => i_vfnmadd231pd (r 0) (r 1) (OMem a));
   mkRipE "vfnmadd231ps/2" false (fun a r n e => i_vfnmadd231ps (r 0) (r 1) (OMem a));
   mkRipE "vfnmadd231sd/2" false (fun a r n e => i_vfnmadd231sd (r 0) (r 1) (OMem a))].
Lemma rips40_ok : Forall entry_refers rips40.
Proof. unfold rips40. 
row. { unfold i_vfmsub213pd. ref. }
row. { unfold i_vfmsub213ps. ref. }
row. { unfold i_vfmsub213sd. ref. }
row. { unfold i_vfmsub213ss. ref. }
row. { unfold i_vfmsub231pd. ref. }
row. { unfold i_vfmsub231ps. ref. }
row. { unfold i_vfmsub231sd. ref. }
row. { unfold i_vfmsub231ss. ref. }
row. { unfold i_vfmsubadd132pd. ref. }
row. { unfold i_vfmsubadd132ps. ref. }
row. { unfold i_vfmsubadd213pd. ref. }
row. { unfold i_vfmsubadd213ps. ref. }
row. { unfold i_vfmsubadd231pd. ref. }
row. { unfold i_vfmsubadd231ps. ref. }
row. { unfold i_vfnmadd132pd. ref. }
row. { unfold i_vfnmadd132ps. ref. }
row. { unfold i_vfnmadd132sd. ref. }
row. { unfold i_vfnmadd132ss. ref. }
row. { unfold i_vfnmadd213pd. ref. }
row. { unfold i_vfnmadd213ps. ref. }
row. { unfold i_vfnmadd213sd. ref. }
row. { unfold i_vfnmadd213ss. ref. }
row. { unfold i_vfnmadd231pd. ref. }
row. { unfold i_vfnmadd231ps. ref. }
row. { unfold i_vfnmadd231sd. ref. }
apply Forall_nil. Qed.
Definition rips41 : list rip_entry :=
  [mkRipE "vfnmadd231ss/2" false (fun a r n e => i_vfnmadd231ss (r 0) (r 1) (OMem a));
   mkRipE "vfnmsub132pd/2" false (fun a r n e => i_vfnmsub132pd (r 0) (r 1) (OMem a));
   mkRipE "vfnmsub132ps/2" false (fun a r n e => i_vfnmsub132ps (r 0) (r 1) (OMem a));
   mkRipE "vfnmsub132sd/2" false (fun a r n e => i_vfnmsub132sd (r 0) (r 1) (OMem a));
   mkRipE "vfnmsub132ss/2" false (fun a r n e => i_vfnmsub132ss (r 0) (r 1) (OMem a));
   mkRipE "vfnmsub213pd/2" false (fun a r n e => i_vfnmsub213pd (r 0) (r 1) (OMem a));
   mkRipE "vfnmsub213ps/2" false (fun a r n e => i_vfnmsub213ps (r 0) (r 1) (OMem a));
   mkRipE "vfnmsub213sd/2" false (fun a r n e => i_vfnmsub213sd (r 0) (r 1) (OMem a));
   mkRipE "vfnmsub213ss/2" false (fun a r n e => i_vfnmsub213ss (r 0) (r 1) (OMem a));
   mkRipE "vfnmsub231pd/2" false (fun a r n e => i_vfnmsub231pd (r 0) (r 1) (OMem a));
   mkRipE "vfnmsub231ps/2" false (fun a r n e => i_vfnmsub231ps (r 0) (r 1) (OMem a));
   mkRipE "vfnmsub231sd/2" false (fun a r n e => i_vfnmsub231sd (r 0) (r 1) (OMem a));
   mkRipE "vfnmsub231ss/2" false (fun a r n e => i_vfnmsub231ss (r 0) (r 1) (OMem a));
   mkRipE "vgatherdpd_xax/1" false (fun a r n e => i_vgatherdpd_xax (r 0) a (r 2));
   mkRipE "vgatherdps_xax/1" false (fun a r n e => i_vgatherdps_xax (r 0) a (r 2));
   mkRipE "vgatherqpd_xax/1" false (fun a r n e => i_vgatherqpd_xax (r 0) a (r 2));
   mkRipE "vgatherqps_xax/1" false (fun a r n e => i_vgatherqps_xax (r 0) a (r 2));
   mkRipE "vgf2p8affineinvqb/2" false (fun a r n e => i_vgf2p8affineinvqb (r 0) (r 1) (OMem a) (n 3));
   mkRipE "vgf2p8affineqb/2" false (fun a r n e => i_vgf2p8affineqb (r 0) (r 1) (OMem a) (n 3));
   mkRipE "vgf2p8mulb/2" false (fun a r n e => i_vgf2p8mulb (r 0) (r 1) (OMem a));
   mkRipE "vhaddpd/1" false (fun a r n e => i_vhaddpd (r 0) (OMem a) (OReg (r 2)));
   mkRipE "vhaddpd/2" false (fun a r n e => i_vhaddpd (r 0) (OReg (r 1)) (OMem a));
   mkRipE "vhaddps/1" false (fun a r n e => i_vhaddps (r 0) (OMem a) (OReg (r 2)));
   mkRipE "vhaddps/2" false (fun a r n e => i_vhaddps (r 0) (OReg (r 1)) (OMem a));
   mkRipE "vhsubpd/1" false (fun a r n e => i_vhsubpd (r 0) (OMem a) (OReg (r 2)))].
Lemma rips41_ok : Forall entry_refers rips41.
Proof. unfold rips41. 
row. { unfold i_vfnmadd231ss. ref. }
row. { unfold i_vfnmsub132pd. ref. }
row. { unfold i_vfnmsub132ps. ref. }
row. { unfold i_vfnmsub132sd. ref. }
row. { unfold i_vfnmsub132ss. ref. }
row. { unfold i_vfnmsub213pd. ref. }
row. { unfold i_vfnmsub213ps. ref. }
row. { unfold i_vfnmsub213sd. ref. }
row. { unfold i_vfnmsub213ss. ref. }
row. { unfold i_vfnmsub231pd. ref. }
row. { unfold i_vfnmsub231ps. ref. }
row. { unfold i_vfnmsub231sd. ref. }
row. { unfold i_vfnmsub231ss. ref. }
row. { unfold i_vgatherdpd_xax. ref. }
row. { unfold i_vgatherdps_xax. ref. }
row. { unfold i_vgatherqpd_xax. ref. }
row. { unfold i_vgatherqps_xax. ref. }
row. { unfold i_vgf2p8affineinvqb. ref. }
row. { unfold i_vgf2p8affineqb. ref. }
row. { unfold i_vgf2p8mulb. ref. }
row. { unfold i_vhaddpd. ref. }
row. { unfold i_vhaddpd. ref. }
row. { unfold i_vhaddps. ref. }
row. { unfold i_vhaddps. ref. }
row. { unfold i_vhsubpd. ref. }
apply Forall_nil. Qed.
Definition rips42 : list rip_entry :=
  [mkRipE "vhsubpd/2" false (fun a r n e => i_vhsubpd (r 0) (OReg (r 1)) (OMem a));
   mkRipE "vhsubps/1" false (fun a r n e => i_vhsubps (r 0) (OMem a) (OReg (r 2)));
   mkRipE "vhsubps/2" false (fun a r n e => i_vhsubps (r 0) (OReg (r 1)) (OMem a));
   mkRipE "vinsertf128/2" false (fun a r n e => i_vinsertf128 (r 0) (r 1) (OMem a) (n 3));
   mkRipE "vinserti128/2" false (fun a r n e => i_vinserti128 (r 0) (r 1) (OMem a) (n 3));
   mkRipE "vinsertps_xxoi/2" false (fun a r n e => i_vinsertps_xxoi (r 0) (r 1) (OMem a) (n 3));
   mkRipE "vlddqu/1" false (fun a r n e => i_vlddqu (r 0) a);
   mkRipE "vldmxcsr/0" false (fun a r n e => i_vldmxcsr a);
   mkRipE "vmaskmovpd_axx/0" false (fun a r n e => i_vmaskmovpd_axx a (r 1) (r 2));
   mkRipE "vmaskmovpd_xxa/2" false (fun a r n e => i_vmaskmovpd_xxa (r 0) (r 1) a);
   mkRipE "vmaskmovps_axx/0" false (fun a r n e => i_vmaskmovps_axx a (r 1) (r 2));
   mkRipE "vmaskmovps_xxa/2" false (fun a r n e => i_vmaskmovps_xxa (r 0) (r 1) a);
   mkRipE "vmaxpd/1" false (fun a r n e => i_vmaxpd (r 0) (OMem a) (OReg (r 2)));
   mkRipE "vmaxpd/2" false (fun a r n e => i_vmaxpd (r 0) (OReg (r 1)) (OMem a));
   mkRipE "vmaxps/1" false (fun a r n e => i_vmaxps (r 0) (OMem a) (OReg (r 2)));
   mkRipE "vmaxps/2" false (fun a r n e => i_vmaxps (r 0) (OReg (r 1)) (OMem a));
   mkRipE "vmaxsd/1" false (fun a r n e => i_vmaxsd (r 0) (OMem a) (OReg (r 2)));
   mkRipE "vmaxsd/2" false (fun a r n e => i_vmaxsd (r 0) (OReg (r 1)) (OMem a));
   mkRipE "vmaxss/1" false (fun a r n e => i_vmaxss (r 0) (OMem a) (OReg (r 2)));
   mkRipE "vmaxss/2" false (fun a r n e => i_vmaxss (r 0) (OReg (r 1)) (OMem a));
   mkRipE "vminpd/1" false (fun a r n e => i_vminpd (r 0) (OMem a) (OReg (r 2)));
   mkRipE "vminpd/2" false (fun a r n e => i_vminpd (r 0) (OReg (r 1)) (OMem a));
   mkRipE "vminps/1" false (fun a r n e => i_vminps (r 0) (OMem a) (OReg (r 2)));
   mkRipE "vminps/2" false (fun a r n e => i_vminps (r 0) (OReg (r 1)) (OMem a));
   mkRipE "vminsd/1" false (fun a r n e => i_vminsd (r 0) (OMem a) (OReg (r 2)))].
Lemma rips42_ok : Forall entry_refers rips42.
Proof. unfold rips42. 
row. { unfold i_vhsubpd. ref. }
row. { unfold i_vhsubps. ref. }
row. { unfold i_vhsubps. ref. }
row. { unfold i_vinsertf128. ref. }
row. { unfold i_vinserti128. ref. }
row. { unfold i_vinsertps_xxoi. ref. }
row. { unfold i_vlddqu. ref. }
row. { unfold i_vldmxcsr. ref. }
row. { unfold i_vmaskmovpd_axx. ref. }
row. { unfold i_vmaskmovpd_xxa. ref. }
row. { unfold i_vmaskmovps_axx. ref. }
row. { unfold i_vmaskmovps_xxa. ref. }
row. { unfold i_vmaxpd. ref. }
row. { unfold i_vmaxpd. ref. }
row. { unfold i_vmaxps. ref. }
row. { unfold i_vmaxps. ref. }
row. { unfold i_vmaxsd. ref. }
row. { unfold i_vmaxsd. ref. }
row. { unfold i_vmaxss. ref. }
row. { unfold i_vmaxss. ref. }
row. { unfold i_vminpd. ref. }
row. { unfold i_vminpd. ref. }
row. { unfold i_vminps. ref. }
row. { unfold i_vminps. ref. }
row. { unfold i_vminsd. ref. }
apply Forall_nil. Qed.
Definition rips43 : list rip_entry :=
  [mkRipE "vminsd/2" false (fun a r n e => i_vminsd (r 0) (OReg (r 1)) (OMem a));
   mkRipE "vminss/1" false (fun a r n e => i_vminss (r 0) (OMem a) (OReg (r 2)));
   mkRipE "vminss/2" false (fun a r n e => i_vminss (r 0) (OReg (r 1)) (OMem a));
   mkRipE "vmovapd_ax/0" false (fun a r n e => i_vmovapd_ax a (r 1));
   mkRipE "vmovapd_xo/1" false (fun a r n e => i_vmovapd_xo (r 0) (OMem a));
   mkRipE "vmovaps_ax/0" false (fun a r n e => i_vmovaps_ax a (r 1));
   mkRipE "vmovaps_xo/1" false (fun a r n e => i_vmovaps_xo (r 0) (OMem a));
   mkRipE "vmovddup/1" false (fun a r n e => i_vmovddup (r 0) (OMem a));
   mkRipE "vmovdqa_ax/0" false (fun a r n e => i_vmovdqa_ax a (r 1));
   mkRipE "vmovdqa_xo/1" false (fun a r n e => i_vmovdqa_xo (r 0) (OMem a));
   mkRipE "vmovdqu_ax/0" false (fun a r n e => i_vmovdqu_ax a (r 1));
   mkRipE "vmovdqu_xo/1" false (fun a r n e => i_vmovdqu_xo (r 0) (OMem a));
   mkRipE "vmovhlps/2" false (fun a r n e => i_vmovhlps (r 0) (r 1) (OMem a));
   mkRipE "vmovhpd_ax/0" false (fun a r n e => i_vmovhpd_ax a (r 1));
   mkRipE "vmovhpd_xoo/1" false (fun a r n e => i_vmovhpd_xoo (r 0) (OMem a) (OReg (r 2)));
   mkRipE "vmovhpd_xoo/2" false (fun a r n e => i_vmovhpd_xoo (r 0) (OReg (r 1)) (OMem a));
   mkRipE "vmovhps_ax/0" false (fun a r n e => i_vmovhps_ax a (r 1));
   mkRipE "vmovhps_xoo/1" false (fun a r n e => i_vmovhps_xoo (r 0) (OMem a) (OReg (r 2)));
   mkRipE "vmovhps_xoo/2" false (fun a r n e => i_vmovhps_xoo (r 0) (OReg (r 1)) (OMem a));
   mkRipE "vmovlhps/2" false (fun a r n e => i_vmovlhps (r 0) (r 1) (OMem a));
   mkRipE "vmovlpd_ax/0" false (fun a r n e => i_vmovlpd_ax a (r 1));
   mkRipE "vmovlpd_xoo/1" false (fun a r n e => i_vmovlpd_xoo (r 0) (OMem a) (OReg (r 2)));
   mkRipE "vmovlpd_xoo/2" false (fun a r n e => i_vmovlpd_xoo (r 0) (OReg (r 1)) (OMem a));
   mkRipE "vmovlps_ax/0" false (fun a r n e => i_vmovlps_ax a (r 1));
   mkRipE "vmovlps_xoo/1" false (fun a r n e => i_vmovlps_xoo (r 0) (OMem a) (OReg (r 2)))].
Lemma rips43_ok : Forall entry_refers rips43.
Proof. unfold rips43. 
row. { unfold i_vminsd. ref. }
row. { unfold i_vminss. ref. }
row. { unfold i_vminss. ref. }
row. { unfold i_vmovapd_ax. ref. }
row. { unfold i_vmovapd_xo. ref. }
row. { unfold i_vmovaps_ax. ref. }
row. { unfold i_vmovaps_xo. ref. }
row. { unfold i_vmovddup. ref. }
row. { unfold i_vmovdqa_ax. ref. }
row. { unfold i_vmovdqa_xo. ref. }
row. { unfold i_vmovdqu_ax. ref. }
row. { unfold i_vmovdqu_xo. ref. }
row. { unfold i_vmovhlps. ref. }
row. { unfold i_vmovhpd_ax. ref. }
row. { unfold i_vmovhpd_xoo. ref. }
row. { unfold i_vmovhpd_xoo. ref. }
row. { unfold i_vmovhps_ax. ref. }
row. { unfold i_vmovhps_xoo. ref. }
row. { unfold i_vmovhps_xoo. ref. }
row. { unfold i_vmovlhps. ref. }
row. { unfold i_vmovlpd_ax. ref. }
row. { unfold i_vmovlpd_xoo. ref. }
row. { unfold i_vmovlpd_xoo. ref. }
row. { unfold i_vmovlps_ax. ref. }
row. { unfold i_vmovlps_xoo. ref. }
apply Forall_nil. Qed.
Definition rips44 : list rip_entry :=
  [mkRipE "vmovlps_xoo/2" false (fun a r n e => i_vmovlps_xoo (r 0) (OReg (r 1)) (OMem a));
   mkRipE "vmovntdq/0" false (fun a r n e => i_vmovntdq a (r 1));
   mkRipE "vmovntdqa/1" false (fun a r n e => i_vmovntdqa (r 0) a);
   mkRipE "vmovntpd/0" false (fun a r n e => i_vmovntpd a (r 1));
   mkRipE "vmovntps/0" false (fun a r n e => i_vmovntps a (r 1));
   mkRipE "vmovq_ax/0" false (fun a r n e => i_vmovq_ax a (r 1));
   mkRipE "vmovq_xa/1" false (fun a r n e => i_vmovq_xa (r 0) a);
   mkRipE "vmovsd_ax/0" false (fun a r n e => i_vmovsd_ax a (r 1));
   mkRipE "vmovsd_xa/1" false (fun a r n e => i_vmovsd_xa (r 0) a);
   mkRipE "vmovsd_xxo/2" false (fun a r n e => i_vmovsd_xxo (r 0) (r 1) (OMem a));
   mkRipE "vmovshdup/1" false (fun a r n e => i_vmovshdup (r 0) (OMem a));
   mkRipE "vmovsldup/1" false (fun a r n e => i_vmovsldup (r 0) (OMem a));
   mkRipE "vmovss_ax/0" false (fun a r n e => i_vmovss_ax a (r 1));
   mkRipE "vmovss_xa/1" false (fun a r n e => i_vmovss_xa (r 0) a);
   mkRipE "vmovss_xxo/2" false (fun a r n e => i_vmovss_xxo (r 0) (r 1) (OMem a));
   mkRipE "vmovupd_ax/0" false (fun a r n e => i_vmovupd_ax a (r 1));
   mkRipE "vmovupd_xo/1" false (fun a r n e => i_vmovupd_xo (r 0) (OMem a));
   mkRipE "vmovups_ax/0" false (fun a r n e => i_vmovups_ax a (r 1));
   mkRipE "vmovups_xo/1" false (fun a r n e => i_vmovups_xo (r 0) (OMem a));
   mkRipE "vmulpd/1" false (fun a r n e => i_vmulpd (r 0) (OMem a) (OReg (r 2)));
   mkRipE "vmulpd/2" false (fun a r n e => i_vmulpd (r 0) (OReg (r 1)) (OMem a));
   mkRipE "vmulps/1" false (fun a r n e => i_vmulps (r 0) (OMem a) (OReg (r 2)));
   mkRipE "vmulps/2" false (fun a r n e => i_vmulps (r 0) (OReg (r 1)) (OMem a));
   mkRipE "vmulsd/1" false (fun a r n e => i_vmulsd (r 0) (OMem a) (OReg (r 2)));
   mkRipE "vmulsd/2" false (fun a r n e => i_vmulsd (r 0) (OReg (r 1)) (OMem a))].
Lemma rips44_ok : Forall entry_refers rips44.
Proof. unfold rips44. 
row. { unfold i_vmovlps_xoo. ref. }
row. { unfold i_vmovntdq. ref. }
row. { unfold i_vmovntdqa. ref. }
row. { unfold i_vmovntpd. ref. }
row. { unfold i_vmovntps. ref. }
row. { unfold i_vmovq_ax. ref. }
row. { unfold i_vmovq_xa. ref. }
row. { unfold i_vmovsd_ax. ref. }
row. { unfold i_vmovsd_xa. ref. }
row. { unfold i_vmovsd_xxo. ref. }
row. { unfold i_vmovshdup. ref. }
row. { unfold i_vmovsldup. ref. }
row. { unfold i_vmovss_ax. ref. }
row. { unfold i_vmovss_xa. ref. }
row. { unfold i_vmovss_xxo. ref. }
row. { unfold i_vmovupd_ax. ref. }
row. { unfold i_vmovupd_xo. ref. }
row. { unfold i_vmovups_ax. ref. }
row. { unfold i_vmovups_xo. ref. }
row. { unfold i_vmulpd. ref. }
row. { unfold i_vmulpd. ref. }
row. { unfold i_vmulps. ref. }
row. { unfold i_vmulps. ref. }
row. { unfold i_vmulsd. ref. }
row. { unfold i_vmulsd. ref. }
apply Forall_nil. Qed.
Definition rips45 : list rip_entry :=
  [mkRipE "vmulss/1" false (fun a r n e => i_vmulss (r 0) (OMem a) (OReg (r 2)));
   mkRipE "vmulss/2" false (fun a r n e => i_vmulss (r 0) (OReg (r 1)) (OMem a));
   mkRipE "vorpd/1" false (fun a r n e => i_vorpd (r 0) (OMem a) (OReg (r 2)));
   mkRipE "vorpd/2" false (fun a r n e => i_vorpd (r 0) (OReg (r 1)) (OMem a));
   mkRipE "vorps/1" false (fun a r n e => i_vorps (r 0) (OMem a) (OReg (r 2)));
   mkRipE "vorps/2" false (fun a r n e => i_vorps (r 0) (OReg (r 1)) (OMem a));
   mkRipE "vpabsb/1" false (fun a r n e => i_vpabsb (r 0) (OMem a));
   mkRipE "vpabsd/1" false (fun a r n e => i_vpabsd (r 0) (OMem a));
   mkRipE "vpabsw/1" false (fun a r n e => i_vpabsw (r 0) (OMem a));
   mkRipE "vpackssdw_xxo/2" false (fun a r n e => i_vpackssdw_xxo (r 0) (r 1) (OMem a));
   mkRipE "vpacksswb_xxo/2" false (fun a r n e => i_vpacksswb_xxo (r 0) (r 1) (OMem a));
   mkRipE "vpackusdw_xxo/2" false (fun a r n e => i_vpackusdw_xxo (r 0) (r 1) (OMem a));
   mkRipE "vpackuswb_xxo/2" false (fun a r n e => i_vpackuswb_xxo (r 0) (r 1) (OMem a));
   mkRipE "vpaddb_xxo/2" false (fun a r n e => i_vpaddb_xxo (r 0) (r 1) (OMem a));
   mkRipE "vpaddd_xxo/2" false (fun a r n e => i_vpaddd_xxo (r 0) (r 1) (OMem a));
   mkRipE "vpaddq_xxo/2" false (fun a r n e => i_vpaddq_xxo (r 0) (r 1) (OMem a));
   mkRipE "vpaddsb_xxo/2" false (fun a r n e => i_vpaddsb_xxo (r 0) (r 1) (OMem a));
   mkRipE "vpaddsw_xxo/2" false (fun a r n e => i_vpaddsw_xxo (r 0) (r 1) (OMem a));
   mkRipE "vpaddusb_xxo/2" false (fun a r n e => i_vpaddusb_xxo (r 0) (r 1) (OMem a));
   mkRipE "vpaddusw_xxo/2" false (fun a r n e => i_vpaddusw_xxo (r 0) (r 1) (OMem a));
   mkRipE "vpaddw_xxo/2" false (fun a r n e => i_vpaddw_xxo (r 0) (r 1) (OMem a));
   mkRipE "vpalignr_xxoi/2" false (fun a r n e => i_vpalignr_xxoi (r 0) (r 1) (OMem a) (n 3));
   mkRipE "vpand_xxo/2" false (fun a r n e => i_vpand_xxo (r 0) (r 1) (OMem a));
   mkRipE "vpandn_xxo/2" false (fun a r n e => i_vpandn_xxo (r 0) (r 1) (OMem a));
   mkRipE "vpavgb_xxo/2" false (fun a r n e => i_vpavgb_xxo (r 0) (r 1) (OMem a))].
Lemma rips45_ok : Forall entry_refers rips45.
Proof. unfold rips45. 
row. { unfold i_vmulss. ref. }
row. { unfold i_vmulss. ref. }
row. { unfold i_vorpd. ref. }
row. { unfold i_vorpd. ref. }
row. { unfold i_vorps. ref. }
row. { unfold i_vorps. ref. }
row. { unfold i_vpabsb. ref. }
row. { unfold i_vpabsd. ref. }
row. { unfold i_vpabsw. ref. }
row. { unfold i_vpackssdw_xxo. ref. }
row. { unfold i_vpacksswb_xxo. ref. }
row. { unfold i_vpackusdw_xxo. ref. }
row. { unfold i_vpackuswb_xxo. ref. }
row. { unfold i_vpaddb_xxo. ref. }
row. { unfold i_vpaddd_xxo. ref. }
row. { unfold i_vpaddq_xxo. ref. }
row. { unfold i_vpaddsb_xxo. ref. }
row. { unfold i_vpaddsw_xxo. ref. }
row. { unfold i_vpaddusb_xxo. ref. }
row. { unfold i_vpaddusw_xxo. ref. }
row. { unfold i_vpaddw_xxo. ref. }
row. { unfold i_vpalignr_xxoi. ref. }
row. { unfold i_vpand_xxo. ref. }
row. { unfold i_vpandn_xxo. ref. }
row. { unfold i_vpavgb_xxo. ref. }
apply Forall_nil. Qed.
Definition rips46 : list rip_entry :=
  [mkRipE "vpavgw_xxo/2" false (fun a r n e => i_vpavgw_xxo (r 0) (r 1) (OMem a));
   mkRipE "vpblendd_xxoi/2" false (fun a r n e => i_vpblendd_xxoi (r 0) (r 1) (OMem a) (n 3));
   mkRipE "vpblendvb_xxox/2" false (fun a r n e => i_vpblendvb_xxox (r 0) (r 1) (OMem a) (r 3));
   mkRipE "vpblendw_xxoi/2" false (fun a r n e => i_vpblendw_xxoi (r 0) (r 1) (OMem a) (n 3));
   mkRipE "vpbroadcastb_xo/1" false (fun a r n e => i_vpbroadcastb_xo (r 0) (OMem a));
   mkRipE "vpbroadcastd_xo/1" false (fun a r n e => i_vpbroadcastd_xo (r 0) (OMem a));
   mkRipE "vpbroadcastq_xo/1" false (fun a r n e => i_vpbroadcastq_xo (r 0) (OMem a));
   mkRipE "vpbroadcastw_xo/1" false (fun a r n e => i_vpbroadcastw_xo (r 0) (OMem a));
   mkRipE "vpclmulqdq_xxoi/2" false (fun a r n e => i_vpclmulqdq_xxoi (r 0) (r 1) (OMem a) (n 3));
   mkRipE "vpclmulhqhqdq/2" false (fun a r n e => i_vpclmulhqhqdq (r 0) (r 1) (OMem a));
   mkRipE "vpclmulhqlqdq/2" false (fun a r n e => i_vpclmulhqlqdq (r 0) (r 1) (OMem a));
   mkRipE "vpclmullqhqdq/2" false (fun a r n e => i_vpclmullqhqdq (r 0) (r 1) (OMem a));
   mkRipE "vpclmullqlqdq/2" false (fun a r n e => i_vpclmullqlqdq (r 0) (r 1) (OMem a));
   mkRipE "vpcmpeqb_xxo/2" false (fun a r n e => i_vpcmpeqb_xxo (r 0) (r 1) (OMem a));
   mkRipE "vpcmpeqd_xxo/2" false (fun a r n e => i_vpcmpeqd_xxo (r 0) (r 1) (OMem a));
   mkRipE "vpcmpeqq_xxo/2" false (fun a r n e => i_vpcmpeqq_xxo (r 0) (r 1) (OMem a));
   mkRipE "vpcmpeqw_xxo/2" false (fun a r n e => i_vpcmpeqw_xxo (r 0) (r 1) (OMem a));
   mkRipE "vpcmpestri/1" false (fun a r n e => i_vpcmpestri (r 0) (OMem a) (n 2));
   mkRipE "vpcmpestrm/1" false (fun a r n e => i_vpcmpestrm (r 0) (OMem a) (n 2));
   mkRipE "vpcmpgtb_xxo/2" false (fun a r n e => i_vpcmpgtb_xxo (r 0) (r 1) (OMem a));
   mkRipE "vpcmpgtd_xxo/2" false (fun a r n e => i_vpcmpgtd_xxo (r 0) (r 1) (OMem a));
   mkRipE "vpcmpgtq_xxo/2" false (fun a r n e => i_vpcmpgtq_xxo (r 0) (r 1) (OMem a));
   mkRipE "vpcmpgtw_xxo/2" false (fun a r n e => i_vpcmpgtw_xxo (r 0) (r 1) (OMem a));
   mkRipE "vpcmpistri/1" false (fun a r n e => i_vpcmpistri (r 0) (OMem a) (n 2));
   mkRipE "vpcmpistrm/1" false (fun a r n e => i_vpcmpistrm (r 0) (OMem a) (n 2))].
Lemma rips46_ok : Forall entry_refers rips46.
Proof. unfold rips46. 
row. { unfold i_vpavgw_xxo. ref. }
row. { unfold i_vpblendd_xxoi. ref. }
row. { unfold i_vpblendvb_xxox. ref. }
row. { unfold i_vpblendw_xxoi. ref. }
row. { unfold i_vpbroadcastb_xo. ref. }
row. { unfold i_vpbroadcastd_xo. ref. }
row. { unfold i_vpbroadcastq_xo. ref. }
row. { unfold i_vpbroadcastw_xo. ref. }
row. { unfold i_vpclmulqdq_xxoi. ref. }
row. { unfold i_vpclmulhqhqdq, i_vpclmulqdq_xxoi. ref. }
row. { unfold i_vpclmulhqlqdq, i_vpclmulqdq_xxoi. ref. }
row. { unfold i_vpclmullqhqdq, i_vpclmulqdq_xxoi. ref. }
row. { unfold i_vpclmullqlqdq, i_vpclmulqdq_xxoi. ref. }
row. { unfold i_vpcmpeqb_xxo. ref. }
row. { unfold i_vpcmpeqd_xxo. ref. }
row. { unfold i_vpcmpeqq_xxo. ref. }
row. { unfold i_vpcmpeqw_xxo. ref. }
row. { unfold i_vpcmpestri. ref. }
row. { unfold i_vpcmpestrm. ref. }
row. { unfold i_vpcmpgtb_xxo. ref. }
row. { unfold i_vpcmpgtd_xxo. ref. }
row. { unfold i_vpcmpgtq_xxo. ref. }
row. { unfold i_vpcmpgtw_xxo. ref. }
row. { unfold i_vpcmpistri. ref. }
row. { unfold i_vpcmpistrm. ref. }
apply Forall_nil. Qed.
Definition rips47 : list rip_entry :=
  [mkRipE "vpdpbusd/2" false (fun a r n e => i_vpdpbusd (r 0) (r 1) (OMem a) e);
   mkRipE "vpdpbusds/2" false (fun a r n e => i_vpdpbusds (r 0) (r 1) (OMem a) e);
   mkRipE "vpdpwssd/2" false (fun a r n e => i_vpdpwssd (r 0) (r 1) (OMem a) e);
   mkRipE "vpdpwssds/2" false (fun a r n e => i_vpdpwssds (r 0) (r 1) (OMem a) e);
   mkRipE "vperm2f128/2" false (fun a r n e => i_vperm2f128 (r 0) (r 1) (OMem a) (n 3));
   mkRipE "vperm2i128/2" false (fun a r n e => i_vperm2i128 (r 0) (r 1) (OMem a) (n 3));
   mkRipE "vpermd/2" false (fun a r n e => i_vpermd (r 0) (r 1) (OMem a));
   mkRipE "vpermilpd_xxo/2" false (fun a r n e => i_vpermilpd_xxo (r 0) (r 1) (OMem a));
   mkRipE "vpermilpd_xoi/1" false (fun a r n e => i_vpermilpd_xoi (r 0) (OMem a) (n 2));
   mkRipE "vpermilps_xxo/2" false (fun a r n e => i_vpermilps_xxo (r 0) (r 1) (OMem a));
   mkRipE "vpermilps_xoi/1" false (fun a r n e => i_vpermilps_xoi (r 0) (OMem a) (n 2));
   mkRipE "vpermpd_yoi/1" false (fun a r n e => i_vpermpd_yoi (r 0) (OMem a) (n 2));
   mkRipE "vpermpd_yyo/2" false (fun a r n e => i_vpermpd_yyo (r 0) (r 1) (OMem a));
   mkRipE "vpermps/2" false (fun a r n e => i_vpermps (r 0) (r 1) (OMem a));
   mkRipE "vpermq_yoi/1" false (fun a r n e => i_vpermq_yoi (r 0) (OMem a) (n 2));
   mkRipE "vpermq_yyo/2" false (fun a r n e => i_vpermq_yyo (r 0) (r 1) (OMem a));
   mkRipE "vpextrb/0" false (fun a r n e => i_vpextrb (OMem a) (r 1) (n 2));
   mkRipE "vpextrd/0" false (fun a r n e => i_vpextrd (OMem a) (r 1) (n 2));
   mkRipE "vpextrq/0" false (fun a r n e => i_vpextrq (OMem a) (r 1) (n 2));
   mkRipE "vpextrw/0" false (fun a r n e => i_vpextrw (OMem a) (r 1) (n 2));
   mkRipE "vpgatherdd_xax/1" false (fun a r n e => i_vpgatherdd_xax (r 0) a (r 2));
   mkRipE "vpgatherdq_xax/1" false (fun a r n e => i_vpgatherdq_xax (r 0) a (r 2));
   mkRipE "vpgatherqd_xax/1" false (fun a r n e => i_vpgatherqd_xax (r 0) a (r 2));
   mkRipE "vpgatherqq_xax/1" false (fun a r n e => i_vpgatherqq_xax (r 0) a (r 2));
   mkRipE "vphaddd_xxo/2" false (fun a r n e => i_vphaddd_xxo (r 0) (r 1) (OMem a))].
Lemma rips47_ok : Forall entry_refers rips47.
Proof. unfold rips47. 
row. { unfold i_vpdpbusd. ref. }
row. { unfold i_vpdpbusds. ref. }
row. { unfold i_vpdpwssd. ref. }
row. { unfold i_vpdpwssds. ref. }
row. { unfold i_vperm2f128. ref. }
row. { unfold i_vperm2i128. ref. }
row. { unfold i_vpermd. ref. }
row. { unfold i_vpermilpd_xxo. ref. }
row. { unfold i_vpermilpd_xoi. ref. }
row. { unfold i_vpermilps_xxo. ref. }
row. { unfold i_vpermilps_xoi. ref. }
row. { unfold i_vpermpd_yoi. ref. }
row. { unfold i_vpermpd_yyo. ref. }
row. { unfold i_vpermps. ref. }
row. { unfold i_vpermq_yoi. ref. }
row. { unfold i_vpermq_yyo. ref. }
row. { unfold i_vpextrb. ref. }
row. { unfold i_vpextrd. ref. }
row. { unfold i_vpextrq. ref. }
row. { ref. }
row. { unfold i_vpgatherdd_xax. ref. }
row. { unfold i_vpgatherdq_xax. ref. }
row. { unfold i_vpgatherqd_xax. ref. }
row. { unfold i_vpgatherqq_xax. ref. }
row. { unfold i_vphaddd_xxo. ref. }
apply Forall_nil. Qed.
Definition rips48 : list rip_entry :=
  [mkRipE "vphaddsw_xxo/2" false (fun a r n e => i_vphaddsw_xxo (r 0) (r 1) (OMem a));
   mkRipE "vphaddw_xxo/2" false (fun a r n e => i_vphaddw_xxo (r 0) (r 1) (OMem a));
   mkRipE "vphminposuw/1" false (fun a r n e => i_vphminposuw (r 0) (OMem a));
   mkRipE "vphsubd_xxo/2" false (fun a r n e => i_vphsubd_xxo (r 0) (r 1) (OMem a));
   mkRipE "vphsubsw_xxo/2" false (fun a r n e => i_vphsubsw_xxo (r 0) (r 1) (OMem a));
   mkRipE "vphsubw_xxo/2" false (fun a r n e => i_vphsubw_xxo (r 0) (r 1) (OMem a));
   mkRipE "vpinsrb_xxoi/2" false (fun a r n e => i_vpinsrb_xxoi (r 0) (r 1) (OMem a) (n 3));
   mkRipE "vpinsrd_xxoi/2" false (fun a r n e => i_vpinsrd_xxoi (r 0) (r 1) (OMem a) (n 3));
   mkRipE "vpinsrq_xxoi/2" false (fun a r n e => i_vpinsrq_xxoi (r 0) (r 1) (OMem a) (n 3));
   mkRipE "vpinsrw_xxoi/2" false (fun a r n e => i_vpinsrw_xxoi (r 0) (r 1) (OMem a) (n 3));
   mkRipE "vpmaddubsw_xxo/2" false (fun a r n e => i_vpmaddubsw_xxo (r 0) (r 1) (OMem a));
   mkRipE "vpmaddwd_xxo/2" false (fun a r n e => i_vpmaddwd_xxo (r 0) (r 1) (OMem a));
   mkRipE "vpmaskmovd_axx/0" false (fun a r n e => i_vpmaskmovd_axx a (r 1) (r 2));
   mkRipE "vpmaskmovd_xxa/2" false (fun a r n e => i_vpmaskmovd_xxa (r 0) (r 1) a);
   mkRipE "vpmaskmovq_axx/0" false (fun a r n e => i_vpmaskmovq_axx a (r 1) (r 2));
   mkRipE "vpmaskmovq_xxa/2" false (fun a r n e => i_vpmaskmovq_xxa (r 0) (r 1) a);
   mkRipE "vpmaxsb_xxo/2" false (fun a r n e => i_vpmaxsb_xxo (r 0) (r 1) (OMem a));
   mkRipE "vpmaxsd_xxo/2" false (fun a r n e => i_vpmaxsd_xxo (r 0) (r 1) (OMem a));
   mkRipE "vpmaxsw_xxo/2" false (fun a r n e => i_vpmaxsw_xxo (r 0) (r 1) (OMem a));
   mkRipE "vpmaxub_xxo/2" false (fun a r n e => i_vpmaxub_xxo (r 0) (r 1) (OMem a));
   mkRipE "vpmaxud_xxo/2" false (fun a r n e => i_vpmaxud_xxo (r 0) (r 1) (OMem a));
   mkRipE "vpmaxuw_xxo/2" false (fun a r n e => i_vpmaxuw_xxo (r 0) (r 1) (OMem a));
   mkRipE "vpminsb_xxo/2" false (fun a r n e => i_vpminsb_xxo (r 0) (r 1) (OMem a));
   mkRipE "vpminsd_xxo/2" false (fun a r n e => i_vpminsd_xxo (r 0) (r 1) (OMem a));
   mkRipE "vpminsw_xxo/2" false (fun a r n e => i_vpminsw_xxo (r 0) (r 1) (OMem a))].
Lemma rips48_ok : Forall entry_refers rips48.
Proof. unfold rips48. 
row. { unfold i_vphaddsw_xxo. ref. }
row. { unfold i_vphaddw_xxo. ref. }
row. { unfold i_vphminposuw. ref. }
row. { unfold i_vphsubd_xxo. ref. }
row. { unfold i_vphsubsw_xxo. ref. }
row. { unfold i_vphsubw_xxo. ref. }
row. { unfold i_vpinsrb_xxoi. ref. }
row. { unfold i_vpinsrd_xxoi. ref. }
row. { unfold i_vpinsrq_xxoi. ref. }
row. { unfold i_vpinsrw_xxoi. ref. }
row. { unfold i_vpmaddubsw_xxo. ref. }
row. { unfold i_vpmaddwd_xxo. ref. }
row. { unfold i_vpmaskmovd_axx. ref. }
row. { unfold i_vpmaskmovd_xxa. ref. }
row. { unfold i_vpmaskmovq_axx. ref. }
row. { unfold i_vpmaskmovq_xxa. ref. }
row. { unfold i_vpmaxsb_xxo. ref. }
row. { unfold i_vpmaxsd_xxo. ref. }
row. { unfold i_vpmaxsw_xxo. ref. }
row. { unfold i_vpmaxub_xxo. ref. }
row. { unfold i_vpmaxud_xxo. ref. }
row. { unfold i_vpmaxuw_xxo. ref. }
row. { unfold i_vpminsb_xxo. ref. }
row. { unfold i_vpminsd_xxo. ref. }
row. { unfold i_vpminsw_xxo. ref. }
apply Forall_nil. Qed.
Definition rips49 : list rip_entry :=
  [mkRipE "vpminub_xxo/2" false (fun a r n e => i_vpminub_xxo (r 0) (r 1) (OMem a));
   mkRipE "vpminud_xxo/2" false (fun a r n e => i_vpminud_xxo (r 0) (r 1) (OMem a));
   mkRipE "vpminuw_xxo/2" false (fun a r n e => i_vpminuw_xxo (r 0) (r 1) (OMem a));
   mkRipE "vpmovsxbd/1" false (fun a r n e => i_vpmovsxbd (r 0) (OMem a));
   mkRipE "vpmovsxbq/1" false (fun a r n e => i_vpmovsxbq (r 0) (OMem a));
   mkRipE "vpmovsxbw/1" false (fun a r n e => i_vpmovsxbw (r 0) (OMem a));
   mkRipE "vpmovsxdq/1" false (fun a r n e => i_vpmovsxdq (r 0) (OMem a));
   mkRipE "vpmovsxwd/1" false (fun a r n e => i_vpmovsxwd (r 0) (OMem a));
   mkRipE "vpmovsxwq/1" false (fun a r n e => i_vpmovsxwq (r 0) (OMem a));
   mkRipE "vpmovzxbd/1" false (fun a r n e => i_vpmovzxbd (r 0) (OMem a));
   mkRipE "vpmovzxbq/1" false (fun a r n e => i_vpmovzxbq (r 0) (OMem a));
   mkRipE "vpmovzxbw/1" false (fun a r n e => i_vpmovzxbw (r 0) (OMem a));
   mkRipE "vpmovzxdq/1" false (fun a r n e => i_vpmovzxdq (r 0) (OMem a));
   mkRipE "vpmovzxwd/1" false (fun a r n e => i_vpmovzxwd (r 0) (OMem a));
   mkRipE "vpmovzxwq/1" false (fun a r n e => i_vpmovzxwq (r 0) (OMem a));
   mkRipE "vpmuldq_xxo/2" false (fun a r n e => i_vpmuldq_xxo (r 0) (r 1) (OMem a));
   mkRipE "vpmulhrsw_xxo/2" false (fun a r n e => i_vpmulhrsw_xxo (r 0) (r 1) (OMem a));
   mkRipE "vpmulhuw_xxo/2" false (fun a r n e => i_vpmulhuw_xxo (r 0) (r 1) (OMem a));
   mkRipE "vpmulhw_xxo/2" false (fun a r n e => i_vpmulhw_xxo (r 0) (r 1) (OMem a));
   mkRipE "vpmulld_xxo/2" false (fun a r n e => i_vpmulld_xxo (r 0) (r 1) (OMem a));
   mkRipE "vpmullw_xxo/2" false (fun a r n e => i_vpmullw_xxo (r 0) (r 1) (OMem a));
   mkRipE "vpmuludq_xxo/2" false (fun a r n e => i_vpmuludq_xxo (r 0) (r 1) (OMem a));
   mkRipE "vpor_xxo/2" false (fun a r n e => i_vpor_xxo (r 0) (r 1) (OMem a));
   mkRipE "vpsadbw_xxo/2" false (fun a r n e => i_vpsadbw_xxo (r 0) (r 1) (OMem a));
   mkRipE "vpshufb/2" false (fun a r n e => i_vpshufb (r 0) (r 1) (OMem a))].
Lemma rips49_ok : Forall entry_refers rips49.
Proof. unfold rips49. 
row. { unfold i_vpminub_xxo. ref. }
row. { unfold i_vpminud_xxo. ref. }
row. { unfold i_vpminuw_xxo. ref. }
row. { unfold i_vpmovsxbd. ref. }
row. { unfold i_vpmovsxbq. ref. }
row. { unfold i_vpmovsxbw. ref. }
row. { unfold i_vpmovsxdq. ref. }
row. { unfold i_vpmovsxwd. ref. }
row. { unfold i_vpmovsxwq. ref. }
row. { unfold i_vpmovzxbd. ref. }
row. { unfold i_vpmovzxbq. ref. }
row. { unfold i_vpmovzxbw. ref. }
row. { unfold i_vpmovzxdq. ref. }
row. { unfold i_vpmovzxwd. ref. }
row. { unfold i_vpmovzxwq. ref. }
row. { unfold i_vpmuldq_xxo. ref. }
row. { unfold i_vpmulhrsw_xxo. ref. }
row. { unfold i_vpmulhuw_xxo. ref. }
row. { unfold i_vpmulhw_xxo. ref. }
row. { unfold i_vpmulld_xxo. ref. }
row. { unfold i_vpmullw_xxo. ref. }
row. { unfold i_vpmuludq_xxo. ref. }
row. { unfold i_vpor_xxo. ref. }
row. { unfold i_vpsadbw_xxo. ref. }
row. { unfold i_vpshufb. ref. }
apply Forall_nil. Qed.
Definition rips50 : list rip_entry :=
  [mkRipE "vpshufd/1" false (fun a r n e => i_vpshufd (r 0) (OMem a) (n 2));
   mkRipE "vpshufhw/1" false (fun a r n e => i_vpshufhw (r 0) (OMem a) (n 2));
   mkRipE "vpshuflw/1" false (fun a r n e => i_vpshuflw (r 0) (OMem a) (n 2));
   mkRipE "vpsignb_xxo/2" false (fun a r n e => i_vpsignb_xxo (r 0) (r 1) (OMem a));
   mkRipE "vpsignd_xxo/2" false (fun a r n e => i_vpsignd_xxo (r 0) (r 1) (OMem a));
   mkRipE "vpsignw_xxo/2" false (fun a r n e => i_vpsignw_xxo (r 0) (r 1) (OMem a));
   mkRipE "vpslld_xoi/1" false (fun a r n e => i_vpslld_xoi (r 0) (OMem a) (n 2));
   mkRipE "vpslld_xxo/2" false (fun a r n e => i_vpslld_xxo (r 0) (r 1) (OMem a));
   mkRipE "vpslldq_xoi/1" false (fun a r n e => i_vpslldq_xoi (r 0) (OMem a) (n 2));
   mkRipE "vpsllq_xoi/1" false (fun a r n e => i_vpsllq_xoi (r 0) (OMem a) (n 2));
   mkRipE "vpsllq_xxo/2" false (fun a r n e => i_vpsllq_xxo (r 0) (r 1) (OMem a));
   mkRipE "vpsllvd/2" false (fun a r n e => i_vpsllvd (r 0) (r 1) (OMem a));
   mkRipE "vpsllvq/2" false (fun a r n e => i_vpsllvq (r 0) (r 1) (OMem a));
   mkRipE "vpsllw_xoi/1" false (fun a r n e => i_vpsllw_xoi (r 0) (OMem a) (n 2));
   mkRipE "vpsllw_xxo/2" false (fun a r n e => i_vpsllw_xxo (r 0) (r 1) (OMem a));
   mkRipE "vpsrad_xoi/1" false (fun a r n e => i_vpsrad_xoi (r 0) (OMem a) (n 2));
   mkRipE "vpsrad_xxo/2" false (fun a r n e => i_vpsrad_xxo (r 0) (r 1) (OMem a));
   mkRipE "vpsravd/2" false (fun a r n e => i_vpsravd (r 0) (r 1) (OMem a));
   mkRipE "vpsraw_xoi/1" false (fun a r n e => i_vpsraw_xoi (r 0) (OMem a) (n 2));
   mkRipE "vpsraw_xxo/2" false (fun a r n e => i_vpsraw_xxo (r 0) (r 1) (OMem a));
   mkRipE "vpsrld_xoi/1" false (fun a r n e => i_vpsrld_xoi (r 0) (OMem a) (n 2));
   mkRipE "vpsrld_xxo/2" false (fun a r n e => i_vpsrld_xxo (r 0) (r 1) (OMem a));
   mkRipE "vpsrldq_xoi/1" false (fun a r n e => i_vpsrldq_xoi (r 0) (OMem a) (n 2));
   mkRipE "vpsrlq_xoi/1" false (fun a r n e => i_vpsrlq_xoi (r 0) (OMem a) (n 2));
   mkRipE "vpsrlq_xxo/2" false (fun a r n e => i_vpsrlq_xxo (r 0) (r 1) (OMem a))].
Lemma rips50_ok : Forall entry_refers rips50.
Proof. unfold rips50. 
row. { unfold i_vpshufd. ref. }
row. { unfold i_vpshufhw. ref. }
row. { unfold i_vpshuflw. ref. }
row. { unfold i_vpsignb_xxo. ref. }
row. { unfold i_vpsignd_xxo. ref. }
row. { unfold i_vpsignw_xxo. ref. }
row. { unfold i_vpslld_xoi. ref. }
row. { unfold i_vpslld_xxo. ref. }
row. { unfold i_vpslldq_xoi. ref. }
row. { unfold i_vpsllq_xoi. ref. }
row. { unfold i_vpsllq_xxo. ref. }
row. { unfold i_vpsllvd. ref. }
row. { unfold i_vpsllvq. ref. }
row. { unfold i_vpsllw_xoi. ref. }
row. { unfold i_vpsllw_xxo. ref. }
row. { unfold i_vpsrad_xoi. ref. }
row. { unfold i_vpsrad_xxo. ref. }
row. { unfold i_vpsravd. ref. }
row. { unfold i_vpsraw_xoi. ref. }
row. { unfold i_vpsraw_xxo. ref. }
row. { unfold i_vpsrld_xoi. ref. }
row. { unfold i_vpsrld_xxo. ref. }
row. { unfold i_vpsrldq_xoi. ref. }
row. { unfold i_vpsrlq_xoi. ref. }
row. { unfold i_vpsrlq_xxo. ref. }
apply Forall_nil. Qed.
Definition rips51 : list rip_entry :=
  [mkRipE "vpsrlvd/2" false (fun a r n e => i_vpsrlvd (r 0) (r 1) (OMem a));
   mkRipE "vpsrlvq/2" false (fun a r n e => i_vpsrlvq (r 0) (r 1) (OMem a));
   mkRipE "vpsrlw_xoi/1" false (fun a r n e => i_vpsrlw_xoi (r 0) (OMem a) (n 2));
   mkRipE "vpsrlw_xxo/2" false (fun a r n e => i_vpsrlw_xxo (r 0) (r 1) (OMem a));
   mkRipE "vpsubb_xxo/2" false (fun a r n e => i_vpsubb_xxo (r 0) (r 1) (OMem a));
   mkRipE "vpsubd_xxo/2" false (fun a r n e => i_vpsubd_xxo (r 0) (r 1) (OMem a));
   mkRipE "vpsubq_xxo/2" false (fun a r n e => i_vpsubq_xxo (r 0) (r 1) (OMem a));
   mkRipE "vpsubsb_xxo/2" false (fun a r n e => i_vpsubsb_xxo (r 0) (r 1) (OMem a));
   mkRipE "vpsubsw_xxo/2" false (fun a r n e => i_vpsubsw_xxo (r 0) (r 1) (OMem a));
   mkRipE "vpsubusb_xxo/2" false (fun a r n e => i_vpsubusb_xxo (r 0) (r 1) (OMem a));
   mkRipE "vpsubusw_xxo/2" false (fun a r n e => i_vpsubusw_xxo (r 0) (r 1) (OMem a));
   mkRipE "vpsubw_xxo/2" false (fun a r n e => i_vpsubw_xxo (r 0) (r 1) (OMem a));
   mkRipE "vptest/1" false (fun a r n e => i_vptest (r 0) (OMem a));
   mkRipE "vpunpckhbw_xxo/2" false (fun a r n e => i_vpunpckhbw_xxo (r 0) (r 1) (OMem a));
   mkRipE "vpunpckhdq_xxo/2" false (fun a r n e => i_vpunpckhdq_xxo (r 0) (r 1) (OMem a));
   mkRipE "vpunpckhqdq_xxo/2" false (fun a r n e => i_vpunpckhqdq_xxo (r 0) (r 1) (OMem a));
   mkRipE "vpunpckhwd_xxo/2" false (fun a r n e => i_vpunpckhwd_xxo (r 0) (r 1) (OMem a));
   mkRipE "vpunpcklbw_xxo/2" false (fun a r n e => i_vpunpcklbw_xxo (r 0) (r 1) (OMem a));
   mkRipE "vpunpckldq_xxo/2" false (fun a r n e => i_vpunpckldq_xxo (r 0) (r 1) (OMem a));
   mkRipE "vpunpcklqdq_xxo/2" false (fun a r n e => i_vpunpcklqdq_xxo (r 0) (r 1) (OMem a));
   mkRipE "vpunpcklwd_xxo/2" false (fun a r n e => i_vpunpcklwd_xxo (r 0) (r 1) (OMem a));
   mkRipE "vpxor_xxo/2" false (fun a r n e => i_vpxor_xxo (r 0) (r 1) (OMem a));
   mkRipE "vrcpps/1" false (fun a r n e => i_vrcpps (r 0) (OMem a));
   mkRipE "vrcpss_xxo/2" false (fun a r n e => i_vrcpss_xxo (r 0) (r 1) (OMem a));
   mkRipE "vroundpd/1" false (fun a r n e => i_vroundpd (r 0) (OMem a) (n 2))].
Lemma rips51_ok : Forall entry_refers rips51.
Proof. unfold rips51. 
row. { unfold i_vpsrlvd. ref. }
row. { unfold i_vpsrlvq. ref. }
row. { unfold i_vpsrlw_xoi. ref. }
row. { unfold i_vpsrlw_xxo. ref. }
row. { unfold i_vpsubb_xxo. ref. }
row. { unfold i_vpsubd_xxo. ref. }
row. { unfold i_vpsubq_xxo. ref. }
row. { unfold i_vpsubsb_xxo. ref. }
row. { unfold i_vpsubsw_xxo. ref. }
row. { unfold i_vpsubusb_xxo. ref. }
row. { unfold i_vpsubusw_xxo. ref. }
row. { unfold i_vpsubw_xxo. ref. }
row. { unfold i_vptest. ref. }
row. { unfold i_vpunpckhbw_xxo. ref. }
row. { unfold i_vpunpckhdq_xxo. ref. }
row. { unfold i_vpunpckhqdq_xxo. ref. }
row. { unfold i_vpunpckhwd_xxo. ref. }
row. { unfold i_vpunpcklbw_xxo. ref. }
row. { unfold i_vpunpckldq_xxo. ref. }
row. { unfold i_vpunpcklqdq_xxo. ref. }
row. { unfold i_vpunpcklwd_xxo. ref. }
row. { unfold i_vpxor_xxo. ref. }
row. { unfold i_vrcpps. ref. }
row. { unfold i_vrcpss_xxo. ref. }
row. { unfold i_vroundpd. ref. }
apply Forall_nil. Qed.
Definition rips52 : list rip_entry :=
  [mkRipE "vroundps/1" false (fun a r n e => i_vroundps (r 0) (OMem a) (n 2));
   mkRipE "vroundsd_xxoi/2" false (fun a r n e => i_vroundsd_xxoi (r 0) (r 1) (OMem a) (n 3));
   mkRipE "vroundss_xxoi/2" false (fun a r n e => i_vroundss_xxoi (r 0) (r 1) (OMem a) (n 3));
   mkRipE "vrsqrtps/1" false (fun a r n e => i_vrsqrtps (r 0) (OMem a));
   mkRipE "vrsqrtss_xxo/2" false (fun a r n e => i_vrsqrtss_xxo (r 0) (r 1) (OMem a));
   mkRipE "vshufpd_xxoi/2" false (fun a r n e => i_vshufpd_xxoi (r 0) (r 1) (OMem a) (n 3));
   mkRipE "vshufps_xxoi/2" false (fun a r n e => i_vshufps_xxoi (r 0) (r 1) (OMem a) (n 3));
   mkRipE "vsm3msg1/2" false (fun a r n e => i_vsm3msg1 (r 0) (r 1) (OMem a));
   mkRipE "vsm3msg2/2" false (fun a r n e => i_vsm3msg2 (r 0) (r 1) (OMem a));
   mkRipE "vsm3rnds2/2" false (fun a r n e => i_vsm3rnds2 (r 0) (r 1) (OMem a) (n 3));
   mkRipE "vsm4key4/2" false (fun a r n e => i_vsm4key4 (r 0) (r 1) (OMem a));
   mkRipE "vsm4rnds4/2" false (fun a r n e => i_vsm4rnds4 (r 0) (r 1) (OMem a));
   mkRipE "vsqrtpd/1" false (fun a r n e => i_vsqrtpd (r 0) (OMem a));
   mkRipE "vsqrtps/1" false (fun a r n e => i_vsqrtps (r 0) (OMem a));
   mkRipE "vsqrtsd_xxo/2" false (fun a r n e => i_vsqrtsd_xxo (r 0) (r 1) (OMem a));
   mkRipE "vsqrtss_xxo/2" false (fun a r n e => i_vsqrtss_xxo (r 0) (r 1) (OMem a));
   mkRipE "vstmxcsr/0" false (fun a r n e => i_vstmxcsr a);
   mkRipE "vsubpd/1" false (fun a r n e => i_vsubpd (r 0) (OMem a) (OReg (r 2)));
   mkRipE "vsubpd/2" false (fun a r n e => i_vsubpd (r 0) (OReg (r 1)) (OMem a));
   mkRipE "vsubps/1" false (fun a r n e => i_vsubps (r 0) (OMem a) (OReg (r 2)));
   mkRipE "vsubps/2" false (fun a r n e => i_vsubps (r 0) (OReg (r 1)) (OMem a));
   mkRipE "vsubsd/1" false (fun a r n e => i_vsubsd (r 0) (OMem a) (OReg (r 2)));
   mkRipE "vsubsd/2" false (fun a r n e => i_vsubsd (r 0) (OReg (r 1)) (OMem a));
   mkRipE "vsubss/1" false (fun a r n e => i_vsubss (r 0) (OMem a) (OReg (r 2)));
   mkRipE "vsubss/2" false (fun a r n e => i_vsubss (r 0) (OReg (r 1)) (OMem a))].
Lemma rips52_ok : Forall entry_refers rips52.
Proof. unfold rips52. 
row. { unfold i_vroundps. ref. }
row. { unfold i_vroundsd_xxoi. ref. }
row. { unfold i_vroundss_xxoi. ref. }
row. { unfold i_vrsqrtps. ref. }
row. { unfold i_vrsqrtss_xxo. ref. }
row. { unfold i_vshufpd_xxoi. ref. }
row. { unfold i_vshufps_xxoi. ref. }
row. { unfold i_vsm3msg1. ref. }
row. { unfold i_vsm3msg2. ref. }
row. { unfold i_vsm3rnds2. ref. }
row. { unfold i_vsm4key4. ref. }
row. { unfold i_vsm4rnds4. ref. }
row. { unfold i_vsqrtpd. ref. }
row. { unfold i_vsqrtps. ref. }
row. { unfold i_vsqrtsd_xxo. ref. }
row. { unfold i_vsqrtss_xxo. ref. }
row. { unfold i_vstmxcsr. ref. }
row. { unfold i_vsubpd. ref. }
row. { unfold i_vsubpd. ref. }
row. { unfold i_vsubps. ref. }
row. { unfold i_vsubps. ref. }
row. { unfold i_vsubsd. ref. }
row. { unfold i_vsubsd. ref. }
row. { unfold i_vsubss. ref. }
row. { unfold i_vsubss. ref. }
apply Forall_nil. Qed.
Definition rips53 : list rip_entry :=
  [mkRipE "vtestpd/1" false (fun a r n e => i_vtestpd (r 0) (OMem a));
   mkRipE "vtestps/1" false (fun a r n e => i_vtestps (r 0) (OMem a));
   mkRipE "vucomisd/1" false (fun a r n e => i_vucomisd (r 0) (OMem a));
   mkRipE "vucomiss/1" false (fun a r n e => i_vucomiss (r 0) (OMem a));
   mkRipE "vunpckhpd_xxo/2" false (fun a r n e => i_vunpckhpd_xxo (r 0) (r 1) (OMem a));
   mkRipE "vunpckhps_xxo/2" false (fun a r n e => i_vunpckhps_xxo (r 0) (r 1) (OMem a));
   mkRipE "vunpcklpd_xxo/2" false (fun a r n e => i_vunpcklpd_xxo (r 0) (r 1) (OMem a));
   mkRipE "vunpcklps_xxo/2" false (fun a r n e => i_vunpcklps_xxo (r 0) (r 1) (OMem a));
   mkRipE "vxorpd/1" false (fun a r n e => i_vxorpd (r 0) (OMem a) (OReg (r 2)));
   mkRipE "vxorpd/2" false (fun a r n e => i_vxorpd (r 0) (OReg (r 1)) (OMem a));
   mkRipE "vxorps/1" false (fun a r n e => i_vxorps (r 0) (OMem a) (OReg (r 2)));
   mkRipE "vxorps/2" false (fun a r n e => i_vxorps (r 0) (OReg (r 1)) (OMem a));
   mkRipE "xadd/0" false (fun a r n e => i_xadd (OMem a) (r 1));
   mkRipE "xor__oi/0" false (fun a r n e => i_xor__oi (OMem a) (n 1));
   mkRipE "xor__oo/0" false (fun a r n e => i_xor__oo (OMem a) (OReg (r 1)));
   mkRipE "xor__oo/1" false (fun a r n e => i_xor__oo (OReg (r 0)) (OMem a));
   mkRipE "xor__roi/1" true (fun a r n e => i_xor__roi (r 0) (OMem a) (n 2));
   mkRipE "xor__roo/1" true (fun a r n e => i_xor__roo (r 0) (OMem a) (OReg (r 2)));
   mkRipE "xor__roo/2" true (fun a r n e => i_xor__roo (r 0) (OReg (r 1)) (OMem a));
   mkRipE "xorpd/1" false (fun a r n e => i_xorpd (r 0) (OMem a));
   mkRipE "xorps/1" false (fun a r n e => i_xorps (r 0) (OMem a));
   mkRipE "cmpxchg16b/0" false (fun a r n e => i_cmpxchg16b a);
   mkRipE "fxrstor64/0" false (fun a r n e => i_fxrstor64 a);
   mkRipE "movsxd/1" false (fun a r n e => i_movsxd (r 0) (OMem a));
   mkRipE "pextrq/0" false (fun a r n e => i_pextrq (OMem a) (r 1) (n 2))].
Lemma rips53_ok : Forall entry_refers rips53.
Proof. unfold rips53. 
row. { unfold i_vtestpd. ref. }
row. { unfold i_vtestps. ref. }
row. { unfold i_vucomisd. ref. }
row. { unfold i_vucomiss. ref. }
row. { unfold i_vunpckhpd_xxo. ref. }
row. { unfold i_vunpckhps_xxo. ref. }
row. { unfold i_vunpcklpd_xxo. ref. }
row. { unfold i_vunpcklps_xxo. ref. }
row. { unfold i_vxorpd. ref. }
row. { unfold i_vxorpd. ref. }
row. { unfold i_vxorps. ref. }
row. { unfold i_vxorps. ref. }
row. { unfold i_xadd. ref. }
row. { unfold i_xor__oi. ref. }
row. { unfold i_xor__oo. ref. }
row. { unfold i_xor__oo. ref. }
row. { unfold i_xor__roi. ref. }
row. { unfold i_xor__roo. ref. }
row. { unfold i_xor__roo. ref. }
row. { unfold i_xorpd. ref. }
row. { unfold i_xorps. ref. }
row. { unfold i_cmpxchg16b. ref. }
row. { unfold i_fxrstor64. ref. }
row. { unfold i_movsxd. ref. }
row. { unfold i_pextrq. ref. }
apply Forall_nil. Qed.
Definition rips54 : list rip_entry :=
  [mkRipE "pinsrq/1" false (fun a r n e => i_pinsrq (r 0) (OMem a) (n 2));
   mkRipE "vcvtss2si_qo/1" false (fun a r n e => i_vcvtss2si_qo (r 0) (OMem a));
   mkRipE "vcvttss2si_qo/1" false (fun a r n e => i_vcvttss2si_qo (r 0) (OMem a));
   mkRipE "vcvtsd2si_qo/1" false (fun a r n e => i_vcvtsd2si_qo (r 0) (OMem a));
   mkRipE "vcvttsd2si_qo/1" false (fun a r n e => i_vcvttsd2si_qo (r 0) (OMem a));
   mkRipE "cmpbexadd/0" false (fun a r n e => i_cmpbexadd a (r 1) (r 2));
   mkRipE "cmpbxadd/0" false (fun a r n e => i_cmpbxadd a (r 1) (r 2));
   mkRipE "cmplexadd/0" false (fun a r n e => i_cmplexadd a (r 1) (r 2));
   mkRipE "cmplxadd/0" false (fun a r n e => i_cmplxadd a (r 1) (r 2));
   mkRipE "cmpnbexadd/0" false (fun a r n e => i_cmpnbexadd a (r 1) (r 2));
   mkRipE "cmpnbxadd/0" false (fun a r n e => i_cmpnbxadd a (r 1) (r 2));
   mkRipE "cmpnlexadd/0" false (fun a r n e => i_cmpnlexadd a (r 1) (r 2));
   mkRipE "cmpnlxadd/0" false (fun a r n e => i_cmpnlxadd a (r 1) (r 2));
   mkRipE "cmpnoxadd/0" false (fun a r n e => i_cmpnoxadd a (r 1) (r 2));
   mkRipE "cmpnpxadd/0" false (fun a r n e => i_cmpnpxadd a (r 1) (r 2));
   mkRipE "cmpnsxadd/0" false (fun a r n e => i_cmpnsxadd a (r 1) (r 2));
   mkRipE "cmpnzxadd/0" false (fun a r n e => i_cmpnzxadd a (r 1) (r 2));
   mkRipE "cmpoxadd/0" false (fun a r n e => i_cmpoxadd a (r 1) (r 2));
   mkRipE "cmppxadd/0" false (fun a r n e => i_cmppxadd a (r 1) (r 2));
   mkRipE "cmpsxadd/0" false (fun a r n e => i_cmpsxadd a (r 1) (r 2));
   mkRipE "cmpzxadd/0" false (fun a r n e => i_cmpzxadd a (r 1) (r 2));
   mkRipE "aesdec128kl/1" false (fun a r n e => i_aesdec128kl (r 0) a);
   mkRipE "aesdec256kl/1" false (fun a r n e => i_aesdec256kl (r 0) a);
   mkRipE "aesdecwide128kl/0" false (fun a r n e => i_aesdecwide128kl a);
   mkRipE "aesdecwide256kl/0" false (fun a r n e => i_aesdecwide256kl a)].
Lemma rips54_ok : Forall entry_refers rips54.
Proof. unfold rips54. 
row. { unfold i_pinsrq. ref. }
row. { unfold i_vcvtss2si_qo. ref. }
row. { unfold i_vcvttss2si_qo. ref. }
row. { unfold i_vcvtsd2si_qo. ref. }
row. { unfold i_vcvttsd2si_qo. ref. }
row. { unfold i_cmpbexadd. ref. }
row. { unfold i_cmpbxadd. ref. }
row. { unfold i_cmplexadd. ref. }
row. { unfold i_cmplxadd. ref. }
row. { unfold i_cmpnbexadd. ref. }
row. { unfold i_cmpnbxadd. ref. }
row. { unfold i_cmpnlexadd. ref. }
row. { unfold i_cmpnlxadd. ref. }
row. { unfold i_cmpnoxadd. ref. }
row. { unfold i_cmpnpxadd. ref. }
row. { unfold i_cmpnsxadd. ref. }
row. { unfold i_cmpnzxadd. ref. }
row. { unfold i_cmpoxadd. ref. }
row. { unfold i_cmppxadd. ref. }
row. { unfold i_cmpsxadd. ref. }
row. { unfold i_cmpzxadd. ref. }
row. { unfold i_aesdec128kl. ref. }
row. { unfold i_aesdec256kl. ref. }
row. { unfold i_aesdecwide128kl. ref. }
row. { unfold i_aesdecwide256kl. ref. }
apply Forall_nil. Qed.
Definition rips55 : list rip_entry :=
  [mkRipE "aesenc128kl/1" false (fun a r n e => i_aesenc128kl (r 0) a);
   mkRipE "aesenc256kl/1" false (fun a r n e => i_aesenc256kl (r 0) a);
   mkRipE "aesencwide128kl/0" false (fun a r n e => i_aesencwide128kl a);
   mkRipE "aesencwide256kl/0" false (fun a r n e => i_aesencwide256kl a);
   mkRipE "ldtilecfg/0" false (fun a r n e => i_ldtilecfg a);
   mkRipE "sttilecfg/0" false (fun a r n e => i_sttilecfg a);
   mkRipE "tileloadd/1" false (fun a r n e => i_tileloadd (r 0) a);
   mkRipE "tileloaddt1/1" false (fun a r n e => i_tileloaddt1 (r 0) a);
   mkRipE "tilestored/0" false (fun a r n e => i_tilestored a (r 1));
   mkRipE "and_oo/0" false (fun a r n e => i_and_oo (OMem a) (OReg (r 1)));
   mkRipE "and_oo/1" false (fun a r n e => i_and_oo (OReg (r 0)) (OMem a));
   mkRipE "and_oi/0" false (fun a r n e => i_and_oi (OMem a) (n 1));
   mkRipE "or_oo/0" false (fun a r n e => i_or_oo (OMem a) (OReg (r 1)));
   mkRipE "or_oo/1" false (fun a r n e => i_or_oo (OReg (r 0)) (OMem a));
   mkRipE "or_oi/0" false (fun a r n e => i_or_oi (OMem a) (n 1));
   mkRipE "xor_oo/0" false (fun a r n e => i_xor_oo (OMem a) (OReg (r 1)));
   mkRipE "xor_oo/1" false (fun a r n e => i_xor_oo (OReg (r 0)) (OMem a));
   mkRipE "xor_oi/0" false (fun a r n e => i_xor_oi (OMem a) (n 1));
   mkRipE "not/0" false (fun a r n e => i_not (OMem a));
   mkRipE "vmpsadbw_xxoip/2" false (fun a r n e => i_vmpsadbw_xxoip (r 0) (r 1) (OMem a) (n 3) e);
   mkRipE "kmovb_ak/0" false (fun a r n e => i_kmovb_ak a (r 1));
   mkRipE "kmovb_ko/1" false (fun a r n e => i_kmovb_ko (r 0) (OMem a));
   mkRipE "kmovd_ak/0" false (fun a r n e => i_kmovd_ak a (r 1));
   mkRipE "kmovd_ko/1" false (fun a r n e => i_kmovd_ko (r 0) (OMem a));
   mkRipE "kmovq_ak/0" false (fun a r n e => i_kmovq_ak a (r 1))].
Lemma rips55_ok : Forall entry_refers rips55.
Proof. unfold rips55. 
row. { unfold i_aesenc128kl. ref. }
row. { unfold i_aesenc256kl. ref. }
row. { unfold i_aesencwide128kl. ref. }
row. { unfold i_aesencwide256kl. ref. }
row. { unfold i_ldtilecfg. ref. }
row. { unfold i_sttilecfg. ref. }
row. { unfold i_tileloadd. ref. }
row. { unfold i_tileloaddt1. ref. }
row. { unfold i_tilestored. ref. }
row. { unfold i_and_oo, i_and__oo. ref. }
row. { unfold i_and_oo, i_and__oo. ref. }
row. { unfold i_and_oi, i_and__oi. ref. }
row. { unfold i_or_oo, i_or__oo. ref. }
row. { unfold i_or_oo, i_or__oo. ref. }
row. { unfold i_or_oi, i_or__oi. ref. }
row. { unfold i_xor_oo, i_xor__oo. ref. }
row. { unfold i_xor_oo, i_xor__oo. ref. }
row. { unfold i_xor_oi, i_xor__oi. ref. }
row. { unfold i_not, i_not__o. ref. }
row. { unfold i_vmpsadbw_xxoip. ref. }
row. { unfold i_kmovb_ak. ref. }
row. { unfold i_kmovb_ko. ref. }
row. { unfold i_kmovd_ak. ref. }
row. { unfold i_kmovd_ko. ref. }
row. { unfold i_kmovq_ak. ref. }
apply Forall_nil. Qed.
Definition rips56 : list rip_entry :=
  [mkRipE "kmovq_ko/1" false (fun a r n e => i_kmovq_ko (r 0) (OMem a));
   mkRipE "kmovw_ak/0" false (fun a r n e => i_kmovw_ak a (r 1));
   mkRipE "kmovw_ko/1" false (fun a r n e => i_kmovw_ko (r 0) (OMem a));
   mkRipE "v4fmaddps/2" false (fun a r n e => i_v4fmaddps (r 0) (r 1) a);
   mkRipE "v4fmaddss/2" false (fun a r n e => i_v4fmaddss (r 0) (r 1) a);
   mkRipE "v4fnmaddps/2" false (fun a r n e => i_v4fnmaddps (r 0) (r 1) a);
   mkRipE "v4fnmaddss/2" false (fun a r n e => i_v4fnmaddss (r 0) (r 1) a);
   mkRipE "vaddnepbf16/2" false (fun a r n e => i_vaddnepbf16 (r 0) (r 1) (OMem a));
   mkRipE "vaddph/1" false (fun a r n e => i_vaddph (r 0) (OMem a) (OReg (r 2)));
   mkRipE "vaddph/2" false (fun a r n e => i_vaddph (r 0) (OReg (r 1)) (OMem a));
   mkRipE "vaddsh/1" false (fun a r n e => i_vaddsh (r 0) (OMem a) (OReg (r 2)));
   mkRipE "vaddsh/2" false (fun a r n e => i_vaddsh (r 0) (OReg (r 1)) (OMem a));
   mkRipE "valignd/2" false (fun a r n e => i_valignd (r 0) (r 1) (OMem a) (n 3));
   mkRipE "valignq/2" false (fun a r n e => i_valignq (r 0) (r 1) (OMem a) (n 3));
   mkRipE "vblendmpd/2" false (fun a r n e => i_vblendmpd (r 0) (r 1) (OMem a));
   mkRipE "vblendmps/2" false (fun a r n e => i_vblendmps (r 0) (r 1) (OMem a));
   mkRipE "vbroadcastf32x2/1" false (fun a r n e => i_vbroadcastf32x2 (r 0) (OMem a));
   mkRipE "vbroadcastf32x4/1" false (fun a r n e => i_vbroadcastf32x4 (r 0) a);
   mkRipE "vbroadcastf32x8/1" false (fun a r n e => i_vbroadcastf32x8 (r 0) a);
   mkRipE "vbroadcastf64x2/1" false (fun a r n e => i_vbroadcastf64x2 (r 0) a);
   mkRipE "vbroadcastf64x4/1" false (fun a r n e => i_vbroadcastf64x4 (r 0) a);
   mkRipE "vbroadcasti32x2/1" false (fun a r n e => i_vbroadcasti32x2 (r 0) (OMem a));
   mkRipE "vbroadcasti32x4/1" false (fun a r n e => i_vbroadcasti32x4 (r 0) (OMem a));
   mkRipE "vbroadcasti32x8/1" false (fun a r n e => i_vbroadcasti32x8 (r 0) (OMem a));
   mkRipE "vbroadcasti64x2/1" false (fun a r n e => i_vbroadcasti64x2 (r 0) (OMem a))].
Lemma rips56_ok : Forall entry_refers rips56.
Proof. unfold rips56. 
row. { unfold i_kmovq_ko. ref. }
row. { unfold i_kmovw_ak. ref. }
row. { unfold i_kmovw_ko. ref. }
row. { unfold i_v4fmaddps. ref. }
row. { unfold i_v4fmaddss. ref. }
row. { unfold i_v4fnmaddps. ref. }
row. { unfold i_v4fnmaddss. ref. }
row. { unfold i_vaddnepbf16. ref. }
row. { unfold i_vaddph. ref. }
row. { unfold i_vaddph. ref. }
row. { unfold i_vaddsh. ref. }
row. { unfold i_vaddsh. ref. }
row. { unfold i_valignd. ref. }
row. { unfold i_valignq. ref. }
row. { unfold i_vblendmpd. ref. }
row. { unfold i_vblendmps. ref. }
row. { unfold i_vbroadcastf32x2. ref. }
row. { unfold i_vbroadcastf32x4. ref. }
row. { unfold i_vbroadcastf32x8. ref. }
row. { unfold i_vbroadcastf64x2. ref. }
row. { unfold i_vbroadcastf64x4. ref. }
row. { unfold i_vbroadcasti32x2. ref. }
row. { unfold i_vbroadcasti32x4. ref. }
row. { unfold i_vbroadcasti32x8. ref. }
row. { unfold i_vbroadcasti64x2. ref. }
apply Forall_nil. Qed.
Definition rips57 : list rip_entry :=
  [mkRipE "vbroadcasti64x4/1" false (fun a r n e => i_vbroadcasti64x4 (r 0) (OMem a));
   mkRipE "vcmppd_kxoi/2" false (fun a r n e => i_vcmppd_kxoi (r 0) (r 1) (OMem a) (n 3));
   mkRipE "vcmpeq_ospd_kxo/2" false (fun a r n e => i_vcmpeq_ospd_kxo (r 0) (r 1) (OMem a));
   mkRipE "vcmpps_kxoi/2" false (fun a r n e => i_vcmpps_kxoi (r 0) (r 1) (OMem a) (n 3));
   mkRipE "vcmpeq_osps_kxo/2" false (fun a r n e => i_vcmpeq_osps_kxo (r 0) (r 1) (OMem a));
   mkRipE "vcmpsd_kxoi/2" false (fun a r n e => i_vcmpsd_kxoi (r 0) (r 1) (OMem a) (n 3));
   mkRipE "vcmpeq_ossd_kxo/2" false (fun a r n e => i_vcmpeq_ossd_kxo (r 0) (r 1) (OMem a));
   mkRipE "vcmpss_kxoi/2" false (fun a r n e => i_vcmpss_kxoi (r 0) (r 1) (OMem a) (n 3));
   mkRipE "vcmpeq_osss_kxo/2" false (fun a r n e => i_vcmpeq_osss_kxo (r 0) (r 1) (OMem a));
   mkRipE "vcmpeq_uqpd_kxo/2" false (fun a r n e => i_vcmpeq_uqpd_kxo (r 0) (r 1) (OMem a));
   mkRipE "vcmpeq_uqps_kxo/2" false (fun a r n e => i_vcmpeq_uqps_kxo (r 0) (r 1) (OMem a));
   mkRipE "vcmpeq_uqsd_kxo/2" false (fun a r n e => i_vcmpeq_uqsd_kxo (r 0) (r 1) (OMem a));
   mkRipE "vcmpeq_uqss_kxo/2" false (fun a r n e => i_vcmpeq_uqss_kxo (r 0) (r 1) (OMem a));
   mkRipE "vcmpeq_uspd_kxo/2" false (fun a r n e => i_vcmpeq_uspd_kxo (r 0) (r 1) (OMem a));
   mkRipE "vcmpeq_usps_kxo/2" false (fun a r n e => i_vcmpeq_usps_kxo (r 0) (r 1) (OMem a));
   mkRipE "vcmpeq_ussd_kxo/2" false (fun a r n e => i_vcmpeq_ussd_kxo (r 0) (r 1) (OMem a));
   mkRipE "vcmpeq_usss_kxo/2" false (fun a r n e => i_vcmpeq_usss_kxo (r 0) (r 1) (OMem a));
   mkRipE "vcmpeqpd_kxo/2" false (fun a r n e => i_vcmpeqpd_kxo (r 0) (r 1) (OMem a));
   mkRipE "vcmpeqps_kxo/2" false (fun a r n e => i_vcmpeqps_kxo (r 0) (r 1) (OMem a));
   mkRipE "vcmpeqsd_kxo/2" false (fun a r n e => i_vcmpeqsd_kxo (r 0) (r 1) (OMem a));
   mkRipE "vcmpeqss_kxo/2" false (fun a r n e => i_vcmpeqss_kxo (r 0) (r 1) (OMem a));
   mkRipE "vcmpfalse_ospd_kxo/2" false (fun a r n e => i_vcmpfalse_ospd_kxo (r 0) (r 1) (OMem a));
   mkRipE "vcmpfalse_osps_kxo/2" false (fun a r n e => i_vcmpfalse_osps_kxo (r 0) (r 1) (OMem a));
   mkRipE "vcmpfalse_ossd_kxo/2" false (fun a r n e => i_vcmpfalse_ossd_kxo (r 0) (r 1) (OMem a));
   mkRipE "vcmpfalse_osss_kxo/2" false (fun a r n e => i_vcmpfalse_osss_kxo (r 0) (r 1) (OMem a))].
Lemma rips57_ok : Forall entry_refers rips57.
Proof. unfold rips57. 
row. { unfold i_vbroadcasti64x4. ref. }
row. { unfold i_vcmppd_kxoi. ref. }
row. { unfold i_vcmpeq_ospd_kxo, i_vcmppd_kxoi. ref. }
row. { unfold i_vcmpps_kxoi. ref. }
row. { unfold i_vcmpeq_osps_kxo, i_vcmpps_kxoi. ref. }
row. { unfold i_vcmpsd_kxoi. ref. }
row. { unfold i_vcmpeq_ossd_kxo, i_vcmpsd_kxoi. ref. }
row. { unfold i_vcmpss_kxoi. ref. }
row. { unfold i_vcmpeq_osss_kxo, i_vcmpss_kxoi. ref. }
row. { unfold i_vcmpeq_uqpd_kxo, i_vcmppd_kxoi. ref. }
row. { unfold i_vcmpeq_uqps_kxo, i_vcmpps_kxoi. ref. }
row. { unfold i_vcmpeq_uqsd_kxo, i_vcmpsd_kxoi. ref. }
row. { unfold i_vcmpeq_uqss_kxo, i_vcmpss_kxoi. ref. }
row. { unfold i_vcmpeq_uspd_kxo, i_vcmppd_kxoi. ref. }
row. { unfold i_vcmpeq_usps_kxo, i_vcmpps_kxoi. ref. }
row. { unfold i_vcmpeq_ussd_kxo, i_vcmpsd_kxoi. ref. }
row. { unfold i_vcmpeq_usss_kxo, i_vcmpss_kxoi. ref. }
row. { unfold i_vcmpeqpd_kxo, i_vcmppd_kxoi. ref. }
row. { unfold i_vcmpeqps_kxo, i_vcmpps_kxoi. ref. }
row. { unfold i_vcmpeqsd_kxo, i_vcmpsd_kxoi. ref. }
row. { unfold i_vcmpeqss_kxo, i_vcmpss_kxoi. ref. }
row. { unfold i_vcmpfalse_ospd_kxo, i_vcmppd_kxoi. ref. }
row. { unfold i_vcmpfalse_osps_kxo, i_vcmpps_kxoi. ref. }
row. { unfold i_vcmpfalse_ossd_kxo, i_vcmpsd_kxoi. ref. }
row. { unfold i_vcmpfalse_osss_kxo, i_vcmpss_kxoi. ref. }
apply Forall_nil. Qed.
Definition rips58 : list rip_entry :=
  [mkRipE "vcmpfalsepd_kxo/2" false (fun a r n e => i_vcmpfalsepd_kxo (r 0) (r 1) (OMem a));
   mkRipE "vcmpfalseps_kxo/2" false (fun a r n e => i_vcmpfalseps_kxo (r 0) (r 1) (OMem a));
   mkRipE "vcmpfalsesd_kxo/2" false (fun a r n e => i_vcmpfalsesd_kxo (r 0) (r 1) (OMem a));
   mkRipE "vcmpfalsess_kxo/2" false (fun a r n e => i_vcmpfalsess_kxo (r 0) (r 1) (OMem a));
   mkRipE "vcmpge_oqpd_kxo/2" false (fun a r n e => i_vcmpge_oqpd_kxo (r 0) (r 1) (OMem a));
   mkRipE "vcmpge_oqps_kxo/2" false (fun a r n e => i_vcmpge_oqps_kxo (r 0) (r 1) (OMem a));
   mkRipE "vcmpge_oqsd_kxo/2" false (fun a r n e => i_vcmpge_oqsd_kxo (r 0) (r 1) (OMem a));
   mkRipE "vcmpge_oqss_kxo/2" false (fun a r n e => i_vcmpge_oqss_kxo (r 0) (r 1) (OMem a));
   mkRipE "vcmpgepd_kxo/2" false (fun a r n e => i_vcmpgepd_kxo (r 0) (r 1) (OMem a));
   mkRipE "vcmpgeps_kxo/2" false (fun a r n e => i_vcmpgeps_kxo (r 0) (r 1) (OMem a));
   mkRipE "vcmpgesd_kxo/2" false (fun a r n e => i_vcmpgesd_kxo (r 0) (r 1) (OMem a));
   mkRipE "vcmpgess_kxo/2" false (fun a r n e => i_vcmpgess_kxo (r 0) (r 1) (OMem a));
   mkRipE "vcmpgt_oqpd_kxo/2" false (fun a r n e => i_vcmpgt_oqpd_kxo (r 0) (r 1) (OMem a));
   mkRipE "vcmpgt_oqps_kxo/2" false (fun a r n e => i_vcmpgt_oqps_kxo (r 0) (r 1) (OMem a));
   mkRipE "vcmpgt_oqsd_kxo/2" false (fun a r n e => i_vcmpgt_oqsd_kxo (r 0) (r 1) (OMem a));
   mkRipE "vcmpgt_oqss_kxo/2" false (fun a r n e => i_vcmpgt_oqss_kxo (r 0) (r 1) (OMem a));
   mkRipE "vcmpgtpd_kxo/2" false (fun a r n e => i_vcmpgtpd_kxo (r 0) (r 1) (OMem a));
   mkRipE "vcmpgtps_kxo/2" false (fun a r n e => i_vcmpgtps_kxo (r 0) (r 1) (OMem a));
   mkRipE "vcmpgtsd_kxo/2" false (fun a r n e => i_vcmpgtsd_kxo (r 0) (r 1) (OMem a));
   mkRipE "vcmpgtss_kxo/2" false (fun a r n e => i_vcmpgtss_kxo (r 0) (r 1) (OMem a));
   mkRipE "vcmple_oqpd_kxo/2" false (fun a r n e => i_vcmple_oqpd_kxo (r 0) (r 1) (OMem a));
   mkRipE "vcmple_oqps_kxo/2" false (fun a r n e => i_vcmple_oqps_kxo (r 0) (r 1) (OMem a));
   mkRipE "vcmple_oqsd_kxo/2" false (fun a r n e => i_vcmple_oqsd_kxo (r 0) (r 1) (OMem a));
   mkRipE "vcmple_oqss_kxo/2" false (fun a r n e => i_vcmple_oqss_kxo (r 0) (r 1) (OMem a));
   mkRipE "vcmplepd_kxo/2" false (fun a r n e => i_vcmplepd_kxo (r 0) (r 1) (OMem a))].
Lemma rips58_ok : Forall entry_refers rips58.
Proof. unfold rips58. 
row. { unfold i_vcmpfalsepd_kxo, i_vcmppd_kxoi. ref. }
row. { unfold i_vcmpfalseps_kxo, i_vcmpps_kxoi. ref. }
row. { unfold i_vcmpfalsesd_kxo, i_vcmpsd_kxoi. ref. }
row. { unfold i_vcmpfalsess_kxo, i_vcmpss_kxoi. ref. }
row. { unfold i_vcmpge_oqpd_kxo, i_vcmppd_kxoi. ref. }
row. { unfold i_vcmpge_oqps_kxo, i_vcmpps_kxoi. ref. }
row. { unfold i_vcmpge_oqsd_kxo, i_vcmpsd_kxoi. ref. }
row. { unfold i_vcmpge_oqss_kxo, i_vcmpss_kxoi. ref. }
row. { unfold i_vcmpgepd_kxo, i_vcmppd_kxoi. ref. }
row. { unfold i_vcmpgeps_kxo, i_vcmpps_kxoi. ref. }
row. { unfold i_vcmpgesd_kxo, i_vcmpsd_kxoi. ref. }
row. { unfold i_vcmpgess_kxo, i_vcmpss_kxoi. ref. }
row. { unfold i_vcmpgt_oqpd_kxo, i_vcmppd_kxoi. ref. }
row. { unfold i_vcmpgt_oqps_kxo, i_vcmpps_kxoi. ref. }
row. { unfold i_vcmpgt_oqsd_kxo, i_vcmpsd_kxoi. ref. }
row. { unfold i_vcmpgt_oqss_kxo, i_vcmpss_kxoi. ref. }
row. { unfold i_vcmpgtpd_kxo, i_vcmppd_kxoi. ref. }
row. { unfold i_vcmpgtps_kxo, i_vcmpps_kxoi. ref. }
row. { unfold i_vcmpgtsd_kxo, i_vcmpsd_kxoi. ref. }
row. { unfold i_vcmpgtss_kxo, i_vcmpss_kxoi. ref. }
row. { unfold i_vcmple_oqpd_kxo, i_vcmppd_kxoi. ref. }
row. { unfold i_vcmple_oqps_kxo, i_vcmpps_kxoi. ref. }
row. { unfold i_vcmple_oqsd_kxo, i_vcmpsd_kxoi. ref. }
row. { unfold i_vcmple_oqss_kxo, i_vcmpss_kxoi. ref. }
row. { unfold i_vcmplepd_kxo, i_vcmppd_kxoi. ref. }
apply Forall_nil. Qed.
Definition rips59 : list rip_entry :=
  [mkRipE "vcmpleps_kxo/2" false (fun a r n e => i_vcmpleps_kxo (r 0) (r 1) (OMem a));
   mkRipE "vcmplesd_kxo/2" false (fun a r n e => i_vcmplesd_kxo (r 0) (r 1) (OMem a));
   mkRipE "vcmpless_kxo/2" false (fun a r n e => i_vcmpless_kxo (r 0) (r 1) (OMem a));
   mkRipE "vcmplt_oqpd_kxo/2" false (fun a r n e => i_vcmplt_oqpd_kxo (r 0) (r 1) (OMem a));
   mkRipE "vcmplt_oqps_kxo/2" false (fun a r n e => i_vcmplt_oqps_kxo (r 0) (r 1) (OMem a));
   mkRipE "vcmplt_oqsd_kxo/2" false (fun a r n e => i_vcmplt_oqsd_kxo (r 0) (r 1) (OMem a));
   mkRipE "vcmplt_oqss_kxo/2" false (fun a r n e => i_vcmplt_oqss_kxo (r 0) (r 1) (OMem a));
   mkRipE "vcmpltpd_kxo/2" false (fun a r n e => i_vcmpltpd_kxo (r 0) (r 1) (OMem a));
   mkRipE "vcmpltps_kxo/2" false (fun a r n e => i_vcmpltps_kxo (r 0) (r 1) (OMem a));
   mkRipE "vcmpltsd_kxo/2" false (fun a r n e => i_vcmpltsd_kxo (r 0) (r 1) (OMem a));
   mkRipE "vcmpltss_kxo/2" false (fun a r n e => i_vcmpltss_kxo (r 0) (r 1) (OMem a));
   mkRipE "vcmpneq_oqpd_kxo/2" false (fun a r n e => i_vcmpneq_oqpd_kxo (r 0) (r 1) (OMem a));
   mkRipE "vcmpneq_oqps_kxo/2" false (fun a r n e => i_vcmpneq_oqps_kxo (r 0) (r 1) (OMem a));
   mkRipE "vcmpneq_oqsd_kxo/2" false (fun a r n e => i_vcmpneq_oqsd_kxo (r 0) (r 1) (OMem a));
   mkRipE "vcmpneq_oqss_kxo/2" false (fun a r n e => i_vcmpneq_oqss_kxo (r 0) (r 1) (OMem a));
   mkRipE "vcmpneq_ospd_kxo/2" false (fun a r n e => i_vcmpneq_ospd_kxo (r 0) (r 1) (OMem a));
   mkRipE "vcmpneq_osps_kxo/2" false (fun a r n e => i_vcmpneq_osps_kxo (r 0) (r 1) (OMem a));
   mkRipE "vcmpneq_ossd_kxo/2" false (fun a r n e => i_vcmpneq_ossd_kxo (r 0) (r 1) (OMem a));
   mkRipE "vcmpneq_osss_kxo/2" false (fun a r n e => i_vcmpneq_osss_kxo (r 0) (r 1) (OMem a));
   mkRipE "vcmpneq_uspd_kxo/2" false (fun a r n e => i_vcmpneq_uspd_kxo (r 0) (r 1) (OMem a));
   mkRipE "vcmpneq_usps_kxo/2" false (fun a r n e => i_vcmpneq_usps_kxo (r 0) (r 1) (OMem a));
   mkRipE "vcmpneq_ussd_kxo/2" false (fun a r n e => i_vcmpneq_ussd_kxo (r 0) (r 1) (OMem a));
   mkRipE "vcmpneq_usss_kxo/2" false (fun a r n e => i_vcmpneq_usss_kxo (r 0) (r 1) (OMem a));
   mkRipE "vcmpneqpd_kxo/2" false (fun a r n e => i_vcmpneqpd_kxo (r 0) (r 1) (OMem a));
   mkRipE "vcmpneqps_kxo/2" false (fun a r n e => i_vcmpneqps_kxo (r 0) (r 1) (OMem a))].
Lemma rips59_ok : Forall entry_refers rips59.
Proof. unfold rips59. 
row. { unfold i_vcmpleps_kxo, i_vcmpps_kxoi. ref. }
row. { unfold i_vcmplesd_kxo, i_vcmpsd_kxoi. ref. }
row. { unfold i_vcmpless_kxo, i_vcmpss_kxoi. ref. }
row. { unfold i_vcmplt_oqpd_kxo, i_vcmppd_kxoi. ref. }
row. { unfold i_vcmplt_oqps_kxo, i_vcmpps_kxoi. ref. }
row. { unfold i_vcmplt_oqsd_kxo, i_vcmpsd_kxoi. ref. }
row. { unfold i_vcmplt_oqss_kxo, i_vcmpss_kxoi. ref. }
row. { unfold i_vcmpltpd_kxo, i_vcmppd_kxoi. ref. }
row. { unfold i_vcmpltps_kxo, i_vcmpps_kxoi. ref. }
row. { unfold i_vcmpltsd_kxo, i_vcmpsd_kxoi. ref. }
row. { unfold i_vcmpltss_kxo, i_vcmpss_kxoi. ref. }
row. { unfold i_vcmpneq_oqpd_kxo, i_vcmppd_kxoi. ref. }
row. { unfold i_vcmpneq_oqps_kxo, i_vcmpps_kxoi. ref. }
row. { unfold i_vcmpneq_oqsd_kxo, i_vcmpsd_kxoi. ref. }
row. { unfold i_vcmpneq_oqss_kxo, i_vcmpss_kxoi. ref. }
row. { unfold i_vcmpneq_ospd_kxo, i_vcmppd_kxoi. ref. }
row. { unfold i_vcmpneq_osps_kxo, i_vcmpps_kxoi. ref. }
row. { unfold i_vcmpneq_ossd_kxo, i_vcmpsd_kxoi. ref. }
row. { unfold i_vcmpneq_osss_kxo, i_vcmpss_kxoi. ref. }
row. { unfold i_vcmpneq_uspd_kxo, i_vcmppd_kxoi. ref. }
row. { unfold i_vcmpneq_usps_kxo, i_vcmpps_kxoi. ref. }
row. { unfold i_vcmpneq_ussd_kxo, i_vcmpsd_kxoi. ref. }
row. { unfold i_vcmpneq_usss_kxo, i_vcmpss_kxoi. ref. }
row. { unfold i_vcmpneqpd_kxo, i_vcmppd_kxoi. ref. }
row. { unfold i_vcmpneqps_kxo, i_vcmpps_kxoi. ref. }
apply Forall_nil. Qed.
Definition rips60 : list rip_entry :=
  [mkRipE "vcmpneqsd_kxo/2" false (fun a r n e => i_vcmpneqsd_kxo (r 0) (r 1) (OMem a));
   mkRipE "vcmpneqss_kxo/2" false (fun a r n e => i_vcmpneqss_kxo (r 0) (r 1) (OMem a));
   mkRipE "vcmpnge_uqpd_kxo/2" false (fun a r n e => i_vcmpnge_uqpd_kxo (r 0) (r 1) (OMem a));
   mkRipE "vcmpnge_uqps_kxo/2" false (fun a r n e => i_vcmpnge_uqps_kxo (r 0) (r 1) (OMem a));
   mkRipE "vcmpnge_uqsd_kxo/2" false (fun a r n e => i_vcmpnge_uqsd_kxo (r 0) (r 1) (OMem a));
   mkRipE "vcmpnge_uqss_kxo/2" false (fun a r n e => i_vcmpnge_uqss_kxo (r 0) (r 1) (OMem a));
   mkRipE "vcmpngepd_kxo/2" false (fun a r n e => i_vcmpngepd_kxo (r 0) (r 1) (OMem a));
   mkRipE "vcmpngeps_kxo/2" false (fun a r n e => i_vcmpngeps_kxo (r 0) (r 1) (OMem a));
   mkRipE "vcmpngesd_kxo/2" false (fun a r n e => i_vcmpngesd_kxo (r 0) (r 1) (OMem a));
   mkRipE "vcmpngess_kxo/2" false (fun a r n e => i_vcmpngess_kxo (r 0) (r 1) (OMem a));
   mkRipE "vcmpngt_uqpd_kxo/2" false (fun a r n e => i_vcmpngt_uqpd_kxo (r 0) (r 1) (OMem a));
   mkRipE "vcmpngt_uqps_kxo/2" false (fun a r n e => i_vcmpngt_uqps_kxo (r 0) (r 1) (OMem a));
   mkRipE "vcmpngt_uqsd_kxo/2" false (fun a r n e => i_vcmpngt_uqsd_kxo (r 0) (r 1) (OMem a));
   mkRipE "vcmpngt_uqss_kxo/2" false (fun a r n e => i_vcmpngt_uqss_kxo (r 0) (r 1) (OMem a));
   mkRipE "vcmpngtpd_kxo/2" false (fun a r n e => i_vcmpngtpd_kxo (r 0) (r 1) (OMem a));
   mkRipE "vcmpngtps_kxo/2" false (fun a r n e => i_vcmpngtps_kxo (r 0) (r 1) (OMem a));
   mkRipE "vcmpngtsd_kxo/2" false (fun a r n e => i_vcmpngtsd_kxo (r 0) (r 1) (OMem a));
   mkRipE "vcmpngtss_kxo/2" false (fun a r n e => i_vcmpngtss_kxo (r 0) (r 1) (OMem a));
   mkRipE "vcmpnle_uqpd_kxo/2" false (fun a r n e => i_vcmpnle_uqpd_kxo (r 0) (r 1) (OMem a));
   mkRipE "vcmpnle_uqps_kxo/2" false (fun a r n e => i_vcmpnle_uqps_kxo (r 0) (r 1) (OMem a));
   mkRipE "vcmpnle_uqsd_kxo/2" false (fun a r n e => i_vcmpnle_uqsd_kxo (r 0) (r 1) (OMem a));
   mkRipE "vcmpnle_uqss_kxo/2" false (fun a r n e => i_vcmpnle_uqss_kxo (r 0) (r 1) (OMem a));
   mkRipE "vcmpnlepd_kxo/2" false (fun a r n e => i_vcmpnlepd_kxo (r 0) (r 1) (OMem a));
   mkRipE "vcmpnleps_kxo/2" false (fun a r n e => i_vcmpnleps_kxo (r 0) (r 1) (OMem a));
   mkRipE "vcmpnlesd_kxo/2" false (fun a r n e => i_vcmpnlesd_kxo (r 0) (r 1) (OMem a))].
Lemma rips60_ok : Forall entry_refers rips60.
Proof. unfold rips60. 
row. { unfold i_vcmpneqsd_kxo, i_vcmpsd_kxoi. ref. }
row. { unfold i_vcmpneqss_kxo, i_vcmpss_kxoi. ref. }
row. { unfold i_vcmpnge_uqpd_kxo, i_vcmppd_kxoi. ref. }
row. { unfold i_vcmpnge_uqps_kxo, i_vcmpps_kxoi. ref. }
row. { unfold i_vcmpnge_uqsd_kxo, i_vcmpsd_kxoi. ref. }
row. { unfold i_vcmpnge_uqss_kxo, i_vcmpss_kxoi. ref. }
row. { unfold i_vcmpngepd_kxo, i_vcmppd_kxoi. ref. }
row. { unfold i_vcmpngeps_kxo, i_vcmpps_kxoi. ref. }
row. { unfold i_vcmpngesd_kxo, i_vcmpsd_kxoi. ref. }
row. { unfold i_vcmpngess_kxo, i_vcmpss_kxoi. ref. }
row. { unfold i_vcmpngt_uqpd_kxo, i_vcmppd_kxoi. ref. }
row. { unfold i_vcmpngt_uqps_kxo, i_vcmpps_kxoi. ref. }
row. { unfold i_vcmpngt_uqsd_kxo, i_vcmpsd_kxoi. ref. }
row. { unfold i_vcmpngt_uqss_kxo, i_vcmpss_kxoi. ref. }
row. { unfold i_vcmpngtpd_kxo, i_vcmppd_kxoi. ref. }
row. { unfold i_vcmpngtps_kxo, i_vcmpps_kxoi. ref. }
row. { unfold i_vcmpngtsd_kxo, i_vcmpsd_kxoi. ref. }
row. { unfold i_vcmpngtss_kxo, i_vcmpss_kxoi. ref. }
row. { unfold i_vcmpnle_uqpd_kxo, i_vcmppd_kxoi. ref. }
row. { unfold i_vcmpnle_uqps_kxo, i_vcmpps_kxoi. ref. }
row. { unfold i_vcmpnle_uqsd_kxo, i_vcmpsd_kxoi. ref. }
row. { unfold i_vcmpnle_uqss_kxo, i_vcmpss_kxoi. ref. }
row. { unfold i_vcmpnlepd_kxo, i_vcmppd_kxoi. ref. }
row. { unfold i_vcmpnleps_kxo, i_vcmpps_kxoi. ref. }
row. { unfold i_vcmpnlesd_kxo, i_vcmpsd_kxoi. ref. }
apply Forall_nil. Qed.
Definition rips61 : list rip_entry :=
  [mkRipE "vcmpnless_kxo/2" false (fun a r n e => i_vcmpnless_kxo (r 0) (r 1) (OMem a));
   mkRipE "vcmpnlt_uqpd_kxo/2" false (fun a r n e => i_vcmpnlt_uqpd_kxo (r 0) (r 1) (OMem a));
   mkRipE "vcmpnlt_uqps_kxo/2" false (fun a r n e => i_vcmpnlt_uqps_kxo (r 0) (r 1) (OMem a));
   mkRipE "vcmpnlt_uqsd_kxo/2" false (fun a r n e => i_vcmpnlt_uqsd_kxo (r 0) (r 1) (OMem a));
   mkRipE "vcmpnlt_uqss_kxo/2" false (fun a r n e => i_vcmpnlt_uqss_kxo (r 0) (r 1) (OMem a));
   mkRipE "vcmpnltpd_kxo/2" false (fun a r n e => i_vcmpnltpd_kxo (r 0) (r 1) (OMem a));
   mkRipE "vcmpnltps_kxo/2" false (fun a r n e => i_vcmpnltps_kxo (r 0) (r 1) (OMem a));
   mkRipE "vcmpnltsd_kxo/2" false (fun a r n e => i_vcmpnltsd_kxo (r 0) (r 1) (OMem a));
   mkRipE "vcmpnltss_kxo/2" false (fun a r n e => i_vcmpnltss_kxo (r 0) (r 1) (OMem a));
   mkRipE "vcmpord_spd_kxo/2" false (fun a r n e => i_vcmpord_spd_kxo (r 0) (r 1) (OMem a));
   mkRipE "vcmpord_sps_kxo/2" false (fun a r n e => i_vcmpord_sps_kxo (r 0) (r 1) (OMem a));
   mkRipE "vcmpord_ssd_kxo/2" false (fun a r n e => i_vcmpord_ssd_kxo (r 0) (r 1) (OMem a));
   mkRipE "vcmpord_sss_kxo/2" false (fun a r n e => i_vcmpord_sss_kxo (r 0) (r 1) (OMem a));
   mkRipE "vcmpordpd_kxo/2" false (fun a r n e => i_vcmpordpd_kxo (r 0) (r 1) (OMem a));
   mkRipE "vcmpordps_kxo/2" false (fun a r n e => i_vcmpordps_kxo (r 0) (r 1) (OMem a));
   mkRipE "vcmpordsd_kxo/2" false (fun a r n e => i_vcmpordsd_kxo (r 0) (r 1) (OMem a));
   mkRipE "vcmpordss_kxo/2" false (fun a r n e => i_vcmpordss_kxo (r 0) (r 1) (OMem a));
   mkRipE "vcmppbf16/2" false (fun a r n e => i_vcmppbf16 (r 0) (r 1) (OMem a) (n 3));
   mkRipE "vcmpph/2" false (fun a r n e => i_vcmpph (r 0) (r 1) (OMem a) (n 3));
   mkRipE "vcmpsh/2" false (fun a r n e => i_vcmpsh (r 0) (r 1) (OMem a) (n 3));
   mkRipE "vcmptrue_uspd_kxo/2" false (fun a r n e => i_vcmptrue_uspd_kxo (r 0) (r 1) (OMem a));
   mkRipE "vcmptrue_usps_kxo/2" false (fun a r n e => i_vcmptrue_usps_kxo (r 0) (r 1) (OMem a));
   mkRipE "vcmptrue_ussd_kxo/2" false (fun a r n e => i_vcmptrue_ussd_kxo (r 0) (r 1) (OMem a));
   mkRipE "vcmptrue_usss_kxo/2" false (fun a r n e => i_vcmptrue_usss_kxo (r 0) (r 1) (OMem a));
   mkRipE "vcmptruepd_kxo/2" false (fun a r n e => i_vcmptruepd_kxo (r 0) (r 1) (OMem a))].
Lemma rips61_ok : Forall entry_refers rips61.
Proof. unfold rips61. 
row. { unfold i_vcmpnless_kxo, i_vcmpss_kxoi. ref. }
row. { unfold i_vcmpnlt_uqpd_kxo, i_vcmppd_kxoi. ref. }
row. { unfold i_vcmpnlt_uqps_kxo, i_vcmpps_kxoi. ref. }
row. { unfold i_vcmpnlt_uqsd_kxo, i_vcmpsd_kxoi. ref. }
row. { unfold i_vcmpnlt_uqss_kxo, i_vcmpss_kxoi. ref. }
row. { unfold i_vcmpnltpd_kxo, i_vcmppd_kxoi. ref. }
row. { unfold i_vcmpnltps_kxo, i_vcmpps_kxoi. ref. }
row. { unfold i_vcmpnltsd_kxo, i_vcmpsd_kxoi. ref. }
row. { unfold i_vcmpnltss_kxo, i_vcmpss_kxoi. ref. }
row. { unfold i_vcmpord_spd_kxo, i_vcmppd_kxoi. ref. }
row. { unfold i_vcmpord_sps_kxo, i_vcmpps_kxoi. ref. }
row. { unfold i_vcmpord_ssd_kxo, i_vcmpsd_kxoi. ref. }
row. { unfold i_vcmpord_sss_kxo, i_vcmpss_kxoi. ref. }
row. { unfold i_vcmpordpd_kxo, i_vcmppd_kxoi. ref. }
row. { unfold i_vcmpordps_kxo, i_vcmpps_kxoi. ref. }
row. { unfold i_vcmpordsd_kxo, i_vcmpsd_kxoi. ref. }
row. { unfold i_vcmpordss_kxo, i_vcmpss_kxoi. ref. }
row. { unfold i_vcmppbf16. ref. }
row. { unfold i_vcmpph. ref. }
row. { unfold i_vcmpsh. ref. }
row. { unfold i_vcmptrue_uspd_kxo, i_vcmppd_kxoi. ref. }
row. { unfold i_vcmptrue_usps_kxo, i_vcmpps_kxoi. ref. }
row. { unfold i_vcmptrue_ussd_kxo, i_vcmpsd_kxoi. ref. }
row. { unfold i_vcmptrue_usss_kxo, i_vcmpss_kxoi. ref. }
row. { unfold i_vcmptruepd_kxo, i_vcmppd_kxoi. ref. }
apply Forall_nil. Qed.
Definition rips62 : list rip_entry :=
  [mkRipE "vcmptrueps_kxo/2" false (fun a r n e => i_vcmptrueps_kxo (r 0) (r 1) (OMem a));
   mkRipE "vcmptruesd_kxo/2" false (fun a r n e => i_vcmptruesd_kxo (r 0) (r 1) (OMem a));
   mkRipE "vcmptruess_kxo/2" false (fun a r n e => i_vcmptruess_kxo (r 0) (r 1) (OMem a));
   mkRipE "vcmpunord_spd_kxo/2" false (fun a r n e => i_vcmpunord_spd_kxo (r 0) (r 1) (OMem a));
   mkRipE "vcmpunord_sps_kxo/2" false (fun a r n e => i_vcmpunord_sps_kxo (r 0) (r 1) (OMem a));
   mkRipE "vcmpunord_ssd_kxo/2" false (fun a r n e => i_vcmpunord_ssd_kxo (r 0) (r 1) (OMem a));
   mkRipE "vcmpunord_sss_kxo/2" false (fun a r n e => i_vcmpunord_sss_kxo (r 0) (r 1) (OMem a));
   mkRipE "vcmpunordpd_kxo/2" false (fun a r n e => i_vcmpunordpd_kxo (r 0) (r 1) (OMem a));
   mkRipE "vcmpunordps_kxo/2" false (fun a r n e => i_vcmpunordps_kxo (r 0) (r 1) (OMem a));
   mkRipE "vcmpunordsd_kxo/2" false (fun a r n e => i_vcmpunordsd_kxo (r 0) (r 1) (OMem a));
   mkRipE "vcmpunordss_kxo/2" false (fun a r n e => i_vcmpunordss_kxo (r 0) (r 1) (OMem a));
   mkRipE "vcomish/1" false (fun a r n e => i_vcomish (r 0) (OMem a));
   mkRipE "vcompresspd/0" false (fun a r n e => i_vcompresspd (OMem a) (r 1));
   mkRipE "vcompressps/0" false (fun a r n e => i_vcompressps (OMem a) (r 1));
   mkRipE "vcomsbf16/1" false (fun a r n e => i_vcomsbf16 (r 0) (OMem a));
   mkRipE "vcomxsd/1" false (fun a r n e => i_vcomxsd (r 0) (OMem a));
   mkRipE "vcomxsh/1" false (fun a r n e => i_vcomxsh (r 0) (OMem a));
   mkRipE "vcomxss/1" false (fun a r n e => i_vcomxss (r 0) (OMem a));
   mkRipE "vcvt2ps2phx/2" false (fun a r n e => i_vcvt2ps2phx (r 0) (r 1) (OMem a));
   mkRipE "vcvtbiasph2bf8/2" false (fun a r n e => i_vcvtbiasph2bf8 (r 0) (r 1) (OMem a));
   mkRipE "vcvtbiasph2bf8s/2" false (fun a r n e => i_vcvtbiasph2bf8s (r 0) (r 1) (OMem a));
   mkRipE "vcvtbiasph2hf8/2" false (fun a r n e => i_vcvtbiasph2hf8 (r 0) (r 1) (OMem a));
   mkRipE "vcvtbiasph2hf8s/2" false (fun a r n e => i_vcvtbiasph2hf8s (r 0) (r 1) (OMem a));
   mkRipE "vcvtdq2ph/1" false (fun a r n e => i_vcvtdq2ph (r 0) (OMem a));
   mkRipE "vcvthf82ph/1" false (fun a r n e => i_vcvthf82ph (r 0) (OMem a))].
Lemma rips62_ok : Forall entry_refers rips62.
Proof. unfold rips62. 
row. { unfold i_vcmptrueps_kxo, i_vcmpps_kxoi. ref. }
row. { unfold i_vcmptruesd_kxo, i_vcmpsd_kxoi. ref. }
row. { unfold i_vcmptruess_kxo, i_vcmpss_kxoi. ref. }
row. { unfold i_vcmpunord_spd_kxo, i_vcmppd_kxoi. ref. }
row. { unfold i_vcmpunord_sps_kxo, i_vcmpps_kxoi. ref. }
row. { unfold i_vcmpunord_ssd_kxo, i_vcmpsd_kxoi. ref. }
row. { unfold i_vcmpunord_sss_kxo, i_vcmpss_kxoi. ref. }
row. { unfold i_vcmpunordpd_kxo, i_vcmppd_kxoi. ref. }
row. { unfold i_vcmpunordps_kxo, i_vcmpps_kxoi. ref. }
row. { unfold i_vcmpunordsd_kxo, i_vcmpsd_kxoi. ref. }
row. { unfold i_vcmpunordss_kxo, i_vcmpss_kxoi. ref. }
row. { unfold i_vcomish. ref. }
row. { unfold i_vcompresspd. ref. }
row. { unfold i_vcompressps. ref. }
row. { unfold i_vcomsbf16. ref. }
row. { unfold i_vcomxsd. ref. }
row. { unfold i_vcomxsh. ref. }
row. { unfold i_vcomxss. ref. }
row. { unfold i_vcvt2ps2phx. ref. }
row. { unfold i_vcvtbiasph2bf8. ref. }
row. { unfold i_vcvtbiasph2bf8s. ref. }
row. { unfold i_vcvtbiasph2hf8. ref. }
row. { unfold i_vcvtbiasph2hf8s. ref. }
row. { unfold i_vcvtdq2ph. ref. }
row. { unfold i_vcvthf82ph. ref. }
apply Forall_nil. Qed.
Definition rips63 : list rip_entry :=
  [mkRipE "vcvtne2ph2bf8/2" false (fun a r n e => i_vcvtne2ph2bf8 (r 0) (r 1) (OMem a));
   mkRipE "vcvtne2ph2bf8s/2" false (fun a r n e => i_vcvtne2ph2bf8s (r 0) (r 1) (OMem a));
   mkRipE "vcvtne2ph2hf8/2" false (fun a r n e => i_vcvtne2ph2hf8 (r 0) (r 1) (OMem a));
   mkRipE "vcvtne2ph2hf8s/2" false (fun a r n e => i_vcvtne2ph2hf8s (r 0) (r 1) (OMem a));
   mkRipE "vcvtne2ps2bf16/2" false (fun a r n e => i_vcvtne2ps2bf16 (r 0) (r 1) (OMem a));
   mkRipE "vcvtnebf162ibs/1" false (fun a r n e => i_vcvtnebf162ibs (r 0) (OMem a));
   mkRipE "vcvtnebf162iubs/1" false (fun a r n e => i_vcvtnebf162iubs (r 0) (OMem a));
   mkRipE "vcvtneph2bf8/1" false (fun a r n e => i_vcvtneph2bf8 (r 0) (OMem a));
   mkRipE "vcvtneph2bf8s/1" false (fun a r n e => i_vcvtneph2bf8s (r 0) (OMem a));
   mkRipE "vcvtneph2hf8/1" false (fun a r n e => i_vcvtneph2hf8 (r 0) (OMem a));
   mkRipE "vcvtneph2hf8s/1" false (fun a r n e => i_vcvtneph2hf8s (r 0) (OMem a));
   mkRipE "vcvtpd2ph/1" false (fun a r n e => i_vcvtpd2ph (r 0) (OMem a));
   mkRipE "vcvtpd2qq/1" false (fun a r n e => i_vcvtpd2qq (r 0) (OMem a));
   mkRipE "vcvtpd2udq/1" false (fun a r n e => i_vcvtpd2udq (r 0) (OMem a));
   mkRipE "vcvtpd2uqq/1" false (fun a r n e => i_vcvtpd2uqq (r 0) (OMem a));
   mkRipE "vcvtph2dq/1" false (fun a r n e => i_vcvtph2dq (r 0) (OMem a));
   mkRipE "vcvtph2ibs/1" false (fun a r n e => i_vcvtph2ibs (r 0) (OMem a));
   mkRipE "vcvtph2iubs/1" false (fun a r n e => i_vcvtph2iubs (r 0) (OMem a));
   mkRipE "vcvtph2pd/1" false (fun a r n e => i_vcvtph2pd (r 0) (OMem a));
   mkRipE "vcvtph2psx/1" false (fun a r n e => i_vcvtph2psx (r 0) (OMem a));
   mkRipE "vcvtph2qq/1" false (fun a r n e => i_vcvtph2qq (r 0) (OMem a));
   mkRipE "vcvtph2udq/1" false (fun a r n e => i_vcvtph2udq (r 0) (OMem a));
   mkRipE "vcvtph2uqq/1" false (fun a r n e => i_vcvtph2uqq (r 0) (OMem a));
   mkRipE "vcvtph2uw/1" false (fun a r n e => i_vcvtph2uw (r 0) (OMem a));
   mkRipE "vcvtph2w/1" false (fun a r n e => i_vcvtph2w (r 0) (OMem a))].
Lemma rips63_ok : Forall entry_refers rips63.
Proof. unfold rips63. 
row. { unfold i_vcvtne2ph2bf8. ref. }
row. { unfold i_vcvtne2ph2bf8s. ref. }
row. { unfold i_vcvtne2ph2hf8. ref. }
row. { unfold i_vcvtne2ph2hf8s. ref. }
row. { unfold i_vcvtne2ps2bf16. ref. }
row. { unfold i_vcvtnebf162ibs. ref. }
row. { unfold i_vcvtnebf162iubs. ref. }
row. { unfold i_vcvtneph2bf8. ref. }
row. { unfold i_vcvtneph2bf8s. ref. }
row. { unfold i_vcvtneph2hf8. ref. }
row. { unfold i_vcvtneph2hf8s. ref. }
row. { unfold i_vcvtpd2ph. ref. }
row. { unfold i_vcvtpd2qq. ref. }
row. { unfold i_vcvtpd2udq. ref. }
row. { unfold i_vcvtpd2uqq. ref. }
row. { unfold i_vcvtph2dq. ref. }
row. { unfold i_vcvtph2ibs. ref. }
row. { unfold i_vcvtph2iubs. ref. }
row. { unfold i_vcvtph2pd. ref. }
row. { unfold i_vcvtph2psx. ref. }
row. { unfold i_vcvtph2qq. ref. }
row. { unfold i_vcvtph2udq. ref. }
row. { unfold i_vcvtph2uqq. ref. }
row. { unfold i_vcvtph2uw. ref. }
row. { unfold i_vcvtph2w. ref. }
apply Forall_nil. Qed.
Definition rips64 : list rip_entry :=
  [mkRipE "vcvtps2ibs/1" false (fun a r n e => i_vcvtps2ibs (r 0) (OMem a));
   mkRipE "vcvtps2iubs/1" false (fun a r n e => i_vcvtps2iubs (r 0) (OMem a));
   mkRipE "vcvtps2phx/1" false (fun a r n e => i_vcvtps2phx (r 0) (OMem a));
   mkRipE "vcvtps2qq/1" false (fun a r n e => i_vcvtps2qq (r 0) (OMem a));
   mkRipE "vcvtps2udq/1" false (fun a r n e => i_vcvtps2udq (r 0) (OMem a));
   mkRipE "vcvtps2uqq/1" false (fun a r n e => i_vcvtps2uqq (r 0) (OMem a));
   mkRipE "vcvtqq2pd/1" false (fun a r n e => i_vcvtqq2pd (r 0) (OMem a));
   mkRipE "vcvtqq2ph/1" false (fun a r n e => i_vcvtqq2ph (r 0) (OMem a));
   mkRipE "vcvtqq2ps/1" false (fun a r n e => i_vcvtqq2ps (r 0) (OMem a));
   mkRipE "vcvtsd2sh/2" false (fun a r n e => i_vcvtsd2sh (r 0) (r 1) (OMem a));
   mkRipE "vcvtsd2usi/1" false (fun a r n e => i_vcvtsd2usi (r 0) (OMem a));
   mkRipE "vcvtsh2sd/2" false (fun a r n e => i_vcvtsh2sd (r 0) (r 1) (OMem a));
   mkRipE "vcvtsh2si/1" false (fun a r n e => i_vcvtsh2si (r 0) (OMem a));
   mkRipE "vcvtsh2ss/2" false (fun a r n e => i_vcvtsh2ss (r 0) (r 1) (OMem a));
   mkRipE "vcvtsh2usi/1" false (fun a r n e => i_vcvtsh2usi (r 0) (OMem a));
   mkRipE "vcvtsi2sh/2" false (fun a r n e => i_vcvtsi2sh (r 0) (r 1) (OMem a));
   mkRipE "vcvtss2sh/2" false (fun a r n e => i_vcvtss2sh (r 0) (r 1) (OMem a));
   mkRipE "vcvtss2usi/1" false (fun a r n e => i_vcvtss2usi (r 0) (OMem a));
   mkRipE "vcvttnebf162ibs/1" false (fun a r n e => i_vcvttnebf162ibs (r 0) (OMem a));
   mkRipE "vcvttnebf162iubs/1" false (fun a r n e => i_vcvttnebf162iubs (r 0) (OMem a));
   mkRipE "vcvttpd2dqs/1" false (fun a r n e => i_vcvttpd2dqs (r 0) (OMem a));
   mkRipE "vcvttpd2qq/1" false (fun a r n e => i_vcvttpd2qq (r 0) (OMem a));
   mkRipE "vcvttpd2qqs/1" false (fun a r n e => i_vcvttpd2qqs (r 0) (OMem a));
   mkRipE "vcvttpd2udq/1" false (fun a r n e => i_vcvttpd2udq (r 0) (OMem a));
   mkRipE "vcvttpd2udqs/1" false (fun a r n e => i_vcvttpd2udqs (r 0) (OMem a))].
Lemma rips64_ok : Forall entry_refers rips64.
Proof. unfold rips64. 
row. { unfold i_vcvtps2ibs. ref. }
row. { unfold i_vcvtps2iubs. ref. }
row. { unfold i_vcvtps2phx. ref. }
row. { unfold i_vcvtps2qq. ref. }
row. { unfold i_vcvtps2udq. ref. }
row. { unfold i_vcvtps2uqq. ref. }
row. { unfold i_vcvtqq2pd. ref. }
row. { unfold i_vcvtqq2ph. ref. }
row. { unfold i_vcvtqq2ps. ref. }
row. { unfold i_vcvtsd2sh. ref. }
row. { unfold i_vcvtsd2usi. ref. }
row. { unfold i_vcvtsh2sd. ref. }
row. { unfold i_vcvtsh2si. ref. }
row. { unfold i_vcvtsh2ss. ref. }
row. { unfold i_vcvtsh2usi. ref. }
row. { unfold i_vcvtsi2sh. ref. }
row. { unfold i_vcvtss2sh. ref. }
row. { unfold i_vcvtss2usi. ref. }
row. { unfold i_vcvttnebf162ibs. ref. }
row. { unfold i_vcvttnebf162iubs. ref. }
row. { unfold i_vcvttpd2dqs. ref. }
row. { unfold i_vcvttpd2qq. ref. }
row. { unfold i_vcvttpd2qqs. ref. }
row. { unfold i_vcvttpd2udq. ref. }
row. { unfold i_vcvttpd2udqs. ref. }
apply Forall_nil. Qed.
Definition rips65 : list rip_entry :=
  [mkRipE "vcvttpd2uqq/1" false (fun a r n e => i_vcvttpd2uqq (r 0) (OMem a));
   mkRipE "vcvttpd2uqqs/1" false (fun a r n e => i_vcvttpd2uqqs (r 0) (OMem a));
   mkRipE "vcvttph2dq/1" false (fun a r n e => i_vcvttph2dq (r 0) (OMem a));
   mkRipE "vcvttph2ibs/1" false (fun a r n e => i_vcvttph2ibs (r 0) (OMem a));
   mkRipE "vcvttph2iubs/1" false (fun a r n e => i_vcvttph2iubs (r 0) (OMem a));
   mkRipE "vcvttph2qq/1" false (fun a r n e => i_vcvttph2qq (r 0) (OMem a));
   mkRipE "vcvttph2udq/1" false (fun a r n e => i_vcvttph2udq (r 0) (OMem a));
   mkRipE "vcvttph2uqq/1" false (fun a r n e => i_vcvttph2uqq (r 0) (OMem a));
   mkRipE "vcvttph2uw/1" false (fun a r n e => i_vcvttph2uw (r 0) (OMem a));
   mkRipE "vcvttph2w/1" false (fun a r n e => i_vcvttph2w (r 0) (OMem a));
   mkRipE "vcvttps2dqs/1" false (fun a r n e => i_vcvttps2dqs (r 0) (OMem a));
   mkRipE "vcvttps2ibs/1" false (fun a r n e => i_vcvttps2ibs (r 0) (OMem a));
   mkRipE "vcvttps2iubs/1" false (fun a r n e => i_vcvttps2iubs (r 0) (OMem a));
   mkRipE "vcvttps2qq/1" false (fun a r n e => i_vcvttps2qq (r 0) (OMem a));
   mkRipE "vcvttps2qqs/1" false (fun a r n e => i_vcvttps2qqs (r 0) (OMem a));
   mkRipE "vcvttps2udq/1" false (fun a r n e => i_vcvttps2udq (r 0) (OMem a));
   mkRipE "vcvttps2udqs/1" false (fun a r n e => i_vcvttps2udqs (r 0) (OMem a));
   mkRipE "vcvttps2uqq/1" false (fun a r n e => i_vcvttps2uqq (r 0) (OMem a));
   mkRipE "vcvttps2uqqs/1" false (fun a r n e => i_vcvttps2uqqs (r 0) (OMem a));
   mkRipE "vcvttsd2sis/1" false (fun a r n e => i_vcvttsd2sis (r 0) (OMem a));
   mkRipE "vcvttsd2usi/1" false (fun a r n e => i_vcvttsd2usi (r 0) (OMem a));
   mkRipE "vcvttsd2usis/1" false (fun a r n e => i_vcvttsd2usis (r 0) (OMem a));
   mkRipE "vcvttsh2si/1" false (fun a r n e => i_vcvttsh2si (r 0) (OMem a));
   mkRipE "vcvttsh2usi/1" false (fun a r n e => i_vcvttsh2usi (r 0) (OMem a));
   mkRipE "vcvttss2sis/1" false (fun a r n e => i_vcvttss2sis (r 0) (OMem a))].
Lemma rips65_ok : Forall entry_refers rips65.
Proof. unfold rips65. 
row. { unfold i_vcvttpd2uqq. ref. }
row. { unfold i_vcvttpd2uqqs. ref. }
row. { unfold i_vcvttph2dq. ref. }
row. { unfold i_vcvttph2ibs. ref. }
row. { unfold i_vcvttph2iubs. ref. }
row. { unfold i_vcvttph2qq. ref. }
row. { unfold i_vcvttph2udq. ref. }
row. { unfold i_vcvttph2uqq. ref. }
row. { unfold i_vcvttph2uw. ref. }
row. { unfold i_vcvttph2w. ref. }
row. { unfold i_vcvttps2dqs. ref. }
row. { unfold i_vcvttps2ibs. ref. }
row. { unfold i_vcvttps2iubs. ref. }
row. { unfold i_vcvttps2qq. ref. }
row. { unfold i_vcvttps2qqs. ref. }
row. { unfold i_vcvttps2udq. ref. }
row. { unfold i_vcvttps2udqs. ref. }
row. { unfold i_vcvttps2uqq. ref. }
row. { unfold i_vcvttps2uqqs. ref. }
row. { unfold i_vcvttsd2sis. ref. }
row. { unfold i_vcvttsd2usi. ref. }
row. { unfold i_vcvttsd2usis. ref. }
row. { unfold i_vcvttsh2si. ref. }
row. { unfold i_vcvttsh2usi. ref. }
row. { unfold i_vcvttss2sis. ref. }
apply Forall_nil. Qed.
Definition rips66 : list rip_entry :=
  [mkRipE "vcvttss2usi/1" false (fun a r n e => i_vcvttss2usi (r 0) (OMem a));
   mkRipE "vcvttss2usis/1" false (fun a r n e => i_vcvttss2usis (r 0) (OMem a));
   mkRipE "vcvtudq2pd/1" false (fun a r n e => i_vcvtudq2pd (r 0) (OMem a));
   mkRipE "vcvtudq2ph/1" false (fun a r n e => i_vcvtudq2ph (r 0) (OMem a));
   mkRipE "vcvtudq2ps/1" false (fun a r n e => i_vcvtudq2ps (r 0) (OMem a));
   mkRipE "vcvtuqq2pd/1" false (fun a r n e => i_vcvtuqq2pd (r 0) (OMem a));
   mkRipE "vcvtuqq2ph/1" false (fun a r n e => i_vcvtuqq2ph (r 0) (OMem a));
   mkRipE "vcvtuqq2ps/1" false (fun a r n e => i_vcvtuqq2ps (r 0) (OMem a));
   mkRipE "vcvtusi2sd/2" false (fun a r n e => i_vcvtusi2sd (r 0) (r 1) (OMem a));
   mkRipE "vcvtusi2sh/2" false (fun a r n e => i_vcvtusi2sh (r 0) (r 1) (OMem a));
   mkRipE "vcvtusi2ss/2" false (fun a r n e => i_vcvtusi2ss (r 0) (r 1) (OMem a));
   mkRipE "vcvtuw2ph/1" false (fun a r n e => i_vcvtuw2ph (r 0) (OMem a));
   mkRipE "vcvtw2ph/1" false (fun a r n e => i_vcvtw2ph (r 0) (OMem a));
   mkRipE "vdbpsadbw/2" false (fun a r n e => i_vdbpsadbw (r 0) (r 1) (OMem a) (n 3));
   mkRipE "vdivnepbf16/2" false (fun a r n e => i_vdivnepbf16 (r 0) (r 1) (OMem a));
   mkRipE "vdivph/1" false (fun a r n e => i_vdivph (r 0) (OMem a) (OReg (r 2)));
   mkRipE "vdivph/2" false (fun a r n e => i_vdivph (r 0) (OReg (r 1)) (OMem a));
   mkRipE "vdivsh/1" false (fun a r n e => i_vdivsh (r 0) (OMem a) (OReg (r 2)));
   mkRipE "vdivsh/2" false (fun a r n e => i_vdivsh (r 0) (OReg (r 1)) (OMem a));
   mkRipE "vdpbf16ps/2" false (fun a r n e => i_vdpbf16ps (r 0) (r 1) (OMem a));
   mkRipE "vdpphps/2" false (fun a r n e => i_vdpphps (r 0) (r 1) (OMem a));
   mkRipE "vexp2pd/1" false (fun a r n e => i_vexp2pd (r 0) (OMem a));
   mkRipE "vexp2ps/1" false (fun a r n e => i_vexp2ps (r 0) (OMem a));
   mkRipE "vexpandpd/1" false (fun a r n e => i_vexpandpd (r 0) (OMem a));
   mkRipE "vexpandps/1" false (fun a r n e => i_vexpandps (r 0) (OMem a))].
Lemma rips66_ok : Forall entry_refers rips66.
Proof. unfold rips66. 
row. { unfold i_vcvttss2usi. ref. }
row. { unfold i_vcvttss2usis. ref. }
row. { unfold i_vcvtudq2pd. ref. }
row. { unfold i_vcvtudq2ph. ref. }
row. { unfold i_vcvtudq2ps. ref. }
row. { unfold i_vcvtuqq2pd. ref. }
row. { unfold i_vcvtuqq2ph. ref. }
row. { unfold i_vcvtuqq2ps. ref. }
row. { unfold i_vcvtusi2sd. ref. }
row. { unfold i_vcvtusi2sh. ref. }
row. { unfold i_vcvtusi2ss. ref. }
row. { unfold i_vcvtuw2ph. ref. }
row. { unfold i_vcvtw2ph. ref. }
row. { unfold i_vdbpsadbw. ref. }
row. { unfold i_vdivnepbf16. ref. }
row. { unfold i_vdivph. ref. }
row. { unfold i_vdivph. ref. }
row. { unfold i_vdivsh. ref. }
row. { unfold i_vdivsh. ref. }
row. { unfold i_vdpbf16ps. ref. }
row. { unfold i_vdpphps. ref. }
row. { unfold i_vexp2pd. ref. }
row. { unfold i_vexp2ps. ref. }
row. { unfold i_vexpandpd. ref. }
row. { unfold i_vexpandps. ref. }
apply Forall_nil. Qed.
Definition rips67 : list rip_entry :=
  [mkRipE "vextractf32x4/0" false (fun a r n e => i_vextractf32x4 (OMem a) (r 1) (n 2));
   mkRipE "vextractf32x8/0" false (fun a r n e => i_vextractf32x8 (OMem a) (r 1) (n 2));
   mkRipE "vextractf64x2/0" false (fun a r n e => i_vextractf64x2 (OMem a) (r 1) (n 2));
   mkRipE "vextractf64x4/0" false (fun a r n e => i_vextractf64x4 (OMem a) (r 1) (n 2));
   mkRipE "vextracti32x4/0" false (fun a r n e => i_vextracti32x4 (OMem a) (r 1) (n 2));
   mkRipE "vextracti32x8/0" false (fun a r n e => i_vextracti32x8 (OMem a) (r 1) (n 2));
   mkRipE "vextracti64x2/0" false (fun a r n e => i_vextracti64x2 (OMem a) (r 1) (n 2));
   mkRipE "vextracti64x4/0" false (fun a r n e => i_vextracti64x4 (OMem a) (r 1) (n 2));
   mkRipE "vfcmaddcph/2" false (fun a r n e => i_vfcmaddcph (r 0) (r 1) (OMem a));
   mkRipE "vfcmulcph/2" false (fun a r n e => i_vfcmulcph (r 0) (r 1) (OMem a));
   mkRipE "vfixupimmpd/2" false (fun a r n e => i_vfixupimmpd (r 0) (r 1) (OMem a) (n 3));
   mkRipE "vfixupimmps/2" false (fun a r n e => i_vfixupimmps (r 0) (r 1) (OMem a) (n 3));
   mkRipE "vfixupimmsd/2" false (fun a r n e => i_vfixupimmsd (r 0) (r 1) (OMem a) (n 3));
   mkRipE "vfixupimmss/2" false (fun a r n e => i_vfixupimmss (r 0) (r 1) (OMem a) (n 3));
   mkRipE "vfmadd132nepbf16/2" false (fun a r n e => i_vfmadd132nepbf16 (r 0) (r 1) (OMem a));
   mkRipE "vfmadd132ph/2" false (fun a r n e => i_vfmadd132ph (r 0) (r 1) (OMem a));
   mkRipE "vfmadd132sh/2" false (fun a r n e => i_vfmadd132sh (r 0) (r 1) (OMem a));
   mkRipE "vfmadd213nepbf16/2" false (fun a r n e => i_vfmadd213nepbf16 (r 0) (r 1) (OMem a));
   mkRipE "vfmadd213ph/2" false (fun a r n e => i_vfmadd213ph (r 0) (r 1) (OMem a));
   mkRipE "vfmadd213sh/2" false (fun a r n e => i_vfmadd213sh (r 0) (r 1) (OMem a));
   mkRipE "vfmadd231nepbf16/2" false (fun a r n e => i_vfmadd231nepbf16 (r 0) (r 1) (OMem a));
   mkRipE "vfmadd231ph/2" false (fun a r n e => i_vfmadd231ph (r 0) (r 1) (OMem a));
   mkRipE "vfmadd231sh/2" false (fun a r n e => i_vfmadd231sh (r 0) (r 1) (OMem a));
   mkRipE "vfmaddcph/2" false (fun a r n e => i_vfmaddcph (r 0) (r 1) (OMem a));
   mkRipE "vfmaddsub132ph/2" false (fun a r n e => i_vfmaddsub132ph (r 0) (r 1) (OMem a))].
Lemma rips67_ok : Forall entry_refers rips67.
Proof. unfold rips67. 
row. { unfold i_vextractf32x4. ref. }
row. { unfold i_vextractf32x8. ref. }
row. { unfold i_vextractf64x2. ref. }
row. { unfold i_vextractf64x4. ref. }
row. { unfold i_vextracti32x4. ref. }
row. { unfold i_vextracti32x8. ref. }
row. { unfold i_vextracti64x2. ref. }
row. { unfold i_vextracti64x4. ref. }
row. { unfold i_vfcmaddcph. ref. }
row. { unfold i_vfcmulcph. ref. }
row. { unfold i_vfixupimmpd. ref. }
row. { unfold i_vfixupimmps. ref. }
row. { unfold i_vfixupimmsd. ref. }
row. { unfold i_vfixupimmss. ref. }
row. { unfold i_vfmadd132nepbf16. ref. }
row. { unfold i_vfmadd132ph. ref. }
row. { unfold i_vfmadd132sh. ref. }
row. { unfold i_vfmadd213nepbf16. ref. }
row. { unfold i_vfmadd213ph. ref. }
row. { unfold i_vfmadd213sh. ref. }
row. { unfold i_vfmadd231nepbf16. ref. }
row. { unfold i_vfmadd231ph. ref. }
row. { unfold i_vfmadd231sh. ref. }
row. { unfold i_vfmaddcph. ref. }
row. { unfold i_vfmaddsub132ph. ref. }
apply Forall_nil. Qed.
Definition rips68 : list rip_entry :=
  [mkRipE "vfmaddsub213ph/2" false (fun a r n e => i_vfmaddsub213ph (r 0) (r 1) (OMem a));
   mkRipE "vfmaddsub231ph/2" false (fun a r n e => i_vfmaddsub231ph (r 0) (r 1) (OMem a));
   mkRipE "vfmsub132nepbf16/2" false (fun a r n e => i_vfmsub132nepbf16 (r 0) (r 1) (OMem a));
   mkRipE "vfmsub132ph/2" false (fun a r n e => i_vfmsub132ph (r 0) (r 1) (OMem a));
   mkRipE "vfmsub132sh/2" false (fun a r n e => i_vfmsub132sh (r 0) (r 1) (OMem a));
   mkRipE "vfmsub213nepbf16/2" false (fun a r n e => i_vfmsub213nepbf16 (r 0) (r 1) (OMem a));
   mkRipE "vfmsub213ph/2" false (fun a r n e => i_vfmsub213ph (r 0) (r 1) (OMem a));
   mkRipE "vfmsub213sh/2" false (fun a r n e => i_vfmsub213sh (r 0) (r 1) (OMem a));
   mkRipE "vfmsub231nepbf16/2" false (fun a r n e => i_vfmsub231nepbf16 (r 0) (r 1) (OMem a));
   mkRipE "vfmsub231ph/2" false (fun a r n e => i_vfmsub231ph (r 0) (r 1) (OMem a));
   mkRipE "vfmsub231sh/2" false (fun a r n e => i_vfmsub231sh (r 0) (r 1) (OMem a));
   mkRipE "vfmsubadd132ph/2" false (fun a r n e => i_vfmsubadd132ph (r 0) (r 1) (OMem a));
   mkRipE "vfmsubadd213ph/2" false (fun a r n e => i_vfmsubadd213ph (r 0) (r 1) (OMem a));
   mkRipE "vfmsubadd231ph/2" false (fun a r n e => i_vfmsubadd231ph (r 0) (r 1) (OMem a));
   mkRipE "vfmulcph/2" false (fun a r n e => i_vfmulcph (r 0) (r 1) (OMem a));
   mkRipE "vfnmadd132nepbf16/2" false (fun a r n e => i_vfnmadd132nepbf16 (r 0) (r 1) (OMem a));
   mkRipE "vfnmadd132ph/2" false (fun a r n e => i_vfnmadd132ph (r 0) (r 1) (OMem a));
   mkRipE "vfnmadd132sh/2" false (fun a r n e => i_vfnmadd132sh (r 0) (r 1) (OMem a));
   mkRipE "vfnmadd213nepbf16/2" false (fun a r n e => i_vfnmadd213nepbf16 (r 0) (r 1) (OMem a));
   mkRipE "vfnmadd213ph/2" false (fun a r n e => i_vfnmadd213ph (r 0) (r 1) (OMem a));
   mkRipE "vfnmadd213sh/2" false (fun a r n e => i_vfnmadd213sh (r 0) (r 1) (OMem a));
   mkRipE "vfnmadd231nepbf16/2" false (fun a r n e => i_vfnmadd231nepbf16 (r 0) (r 1) (OMem a));
   mkRipE "vfnmadd231ph/2" false (fun a r n e => i_vfnmadd231ph (r 0) (r 1) (OMem a));
   mkRipE "vfnmadd231sh/2" false (fun a r n e => i_vfnmadd231sh (r 0) (r 1) (OMem a));
   mkRipE "vfnmsub132nepbf16/2" false (fun a r n e => i_vfnmsub132nepbf16 (r 0) (r 1) (OMem a))].
Lemma rips68_ok : Forall entry_refers rips68.
Proof. unfold rips68. 
row. { unfold i_vfmaddsub213ph. ref. }
row. { unfold i_vfmaddsub231ph. ref. }
row. { unfold i_vfmsub132nepbf16. ref. }
row. { unfold i_vfmsub132ph. ref. }
row. { unfold i_vfmsub132sh. ref. }
row. { unfold i_vfmsub213nepbf16. ref. }
row. { unfold i_vfmsub213ph. ref. }
row. { unfold i_vfmsub213sh. ref. }
row. { unfold i_vfmsub231nepbf16. ref. }
row. { unfold i_vfmsub231ph. ref. }
row. { unfold i_vfmsub231sh. ref. }
row. { unfold i_vfmsubadd132ph. ref. }
row. { unfold i_vfmsubadd213ph. ref. }
row. { unfold i_vfmsubadd231ph. ref. }
row. { unfold i_vfmulcph. ref. }
row. { unfold i_vfnmadd132nepbf16. ref. }
row. { unfold i_vfnmadd132ph. ref. }
row. { unfold i_vfnmadd132sh. ref. }
row. { unfold i_vfnmadd213nepbf16. ref. }
row. { unfold i_vfnmadd213ph. ref. }
row. { unfold i_vfnmadd213sh. ref. }
row. { unfold i_vfnmadd231nepbf16. ref. }
row. { unfold i_vfnmadd231ph. ref. }
row. { unfold i_vfnmadd231sh. ref. }
row. { unfold i_vfnmsub132nepbf16. ref. }
apply Forall_nil. Qed.
Definition rips69 : list rip_entry :=
  [mkRipE "vfnmsub132ph/2" false (fun a r n e => i_vfnmsub132ph (r 0) (r 1) (OMem a));
   mkRipE "vfnmsub132sh/2" false (fun a r n e => i_vfnmsub132sh (r 0) (r 1) (OMem a));
   mkRipE "vfnmsub213nepbf16/2" false (fun a r n e => i_vfnmsub213nepbf16 (r 0) (r 1) (OMem a));
   mkRipE "vfnmsub213ph/2" false (fun a r n e => i_vfnmsub213ph (r 0) (r 1) (OMem a));
   mkRipE "vfnmsub213sh/2" false (fun a r n e => i_vfnmsub213sh (r 0) (r 1) (OMem a));
   mkRipE "vfnmsub231nepbf16/2" false (fun a r n e => i_vfnmsub231nepbf16 (r 0) (r 1) (OMem a));
   mkRipE "vfnmsub231ph/2" false (fun a r n e => i_vfnmsub231ph (r 0) (r 1) (OMem a));
   mkRipE "vfnmsub231sh/2" false (fun a r n e => i_vfnmsub231sh (r 0) (r 1) (OMem a));
   mkRipE "vfpclasspbf16/1" false (fun a r n e => i_vfpclasspbf16 (r 0) (OMem a) (n 2));
   mkRipE "vfpclasspd/1" false (fun a r n e => i_vfpclasspd (r 0) (OMem a) (n 2));
   mkRipE "vfpclassph/1" false (fun a r n e => i_vfpclassph (r 0) (OMem a) (n 2));
   mkRipE "vfpclassps/1" false (fun a r n e => i_vfpclassps (r 0) (OMem a) (n 2));
   mkRipE "vfpclasssd/1" false (fun a r n e => i_vfpclasssd (r 0) (OMem a) (n 2));
   mkRipE "vfpclasssh/1" false (fun a r n e => i_vfpclasssh (r 0) (OMem a) (n 2));
   mkRipE "vfpclassss/1" false (fun a r n e => i_vfpclassss (r 0) (OMem a) (n 2));
   mkRipE "vgatherdpd_xa/1" false (fun a r n e => i_vgatherdpd_xa (r 0) a);
   mkRipE "vgatherdps_xa/1" false (fun a r n e => i_vgatherdps_xa (r 0) a);
   mkRipE "vgatherpf0dpd/0" false (fun a r n e => i_vgatherpf0dpd a);
   mkRipE "vgatherpf0dps/0" false (fun a r n e => i_vgatherpf0dps a);
   mkRipE "vgatherpf0qpd/0" false (fun a r n e => i_vgatherpf0qpd a);
   mkRipE "vgatherpf0qps/0" false (fun a r n e => i_vgatherpf0qps a);
   mkRipE "vgatherpf1dpd/0" false (fun a r n e => i_vgatherpf1dpd a);
   mkRipE "vgatherpf1dps/0" false (fun a r n e => i_vgatherpf1dps a);
   mkRipE "vgatherpf1qpd/0" false (fun a r n e => i_vgatherpf1qpd a);
   mkRipE "vgatherpf1qps/0" false (fun a r n e => i_vgatherpf1qps a)].
Lemma rips69_ok : Forall entry_refers rips69.
Proof. unfold rips69. 
row. { unfold i_vfnmsub132ph. ref. }
row. { unfold i_vfnmsub132sh. ref. }
row. { unfold i_vfnmsub213nepbf16. ref. }
row. { unfold i_vfnmsub213ph. ref. }
row. { unfold i_vfnmsub213sh. ref. }
row. { unfold i_vfnmsub231nepbf16. ref. }
row. { unfold i_vfnmsub231ph. ref. }
row. { unfold i_vfnmsub231sh. ref. }
row. { unfold i_vfpclasspbf16. ref. }
row. { unfold i_vfpclasspd. ref. }
row. { unfold i_vfpclassph. ref. }
row. { unfold i_vfpclassps. ref. }
row. { unfold i_vfpclasssd. ref. }
row. { unfold i_vfpclasssh. ref. }
row. { unfold i_vfpclassss. ref. }
row. { unfold i_vgatherdpd_xa. ref. }
row. { unfold i_vgatherdps_xa. ref. }
row. { unfold i_vgatherpf0dpd. ref. }
row. { unfold i_vgatherpf0dps. ref. }
row. { unfold i_vgatherpf0qpd. ref. }
row. { unfold i_vgatherpf0qps. ref. }
row. { unfold i_vgatherpf1dpd. ref. }
row. { unfold i_vgatherpf1dps. ref. }
row. { unfold i_vgatherpf1qpd. ref. }
row. { unfold i_vgatherpf1qps. ref. }
apply Forall_nil. Qed.
Definition rips70 : list rip_entry :=
  [mkRipE "vgatherqpd_xa/1" false (fun a r n e => i_vgatherqpd_xa (r 0) a);
   mkRipE "vgatherqps_xa/1" false (fun a r n e => i_vgatherqps_xa (r 0) a);
   mkRipE "vgetexppbf16/1" false (fun a r n e => i_vgetexppbf16 (r 0) (OMem a));
   mkRipE "vgetexppd/1" false (fun a r n e => i_vgetexppd (r 0) (OMem a));
   mkRipE "vgetexpph/1" false (fun a r n e => i_vgetexpph (r 0) (OMem a));
   mkRipE "vgetexpps/1" false (fun a r n e => i_vgetexpps (r 0) (OMem a));
   mkRipE "vgetexpsd/2" false (fun a r n e => i_vgetexpsd (r 0) (r 1) (OMem a));
   mkRipE "vgetexpsh/2" false (fun a r n e => i_vgetexpsh (r 0) (r 1) (OMem a));
   mkRipE "vgetexpss/2" false (fun a r n e => i_vgetexpss (r 0) (r 1) (OMem a));
   mkRipE "vgetmantpbf16/1" false (fun a r n e => i_vgetmantpbf16 (r 0) (OMem a) (n 2));
   mkRipE "vgetmantpd/1" false (fun a r n e => i_vgetmantpd (r 0) (OMem a) (n 2));
   mkRipE "vgetmantph/1" false (fun a r n e => i_vgetmantph (r 0) (OMem a) (n 2));
   mkRipE "vgetmantps/1" false (fun a r n e => i_vgetmantps (r 0) (OMem a) (n 2));
   mkRipE "vgetmantsd/2" false (fun a r n e => i_vgetmantsd (r 0) (r 1) (OMem a) (n 3));
   mkRipE "vgetmantsh/2" false (fun a r n e => i_vgetmantsh (r 0) (r 1) (OMem a) (n 3));
   mkRipE "vgetmantss/2" false (fun a r n e => i_vgetmantss (r 0) (r 1) (OMem a) (n 3));
   mkRipE "vinsertf32x4/2" false (fun a r n e => i_vinsertf32x4 (r 0) (r 1) (OMem a) (n 3));
   mkRipE "vinsertf32x8/2" false (fun a r n e => i_vinsertf32x8 (r 0) (r 1) (OMem a) (n 3));
   mkRipE "vinsertf64x2/2" false (fun a r n e => i_vinsertf64x2 (r 0) (r 1) (OMem a) (n 3));
   mkRipE "vinsertf64x4/2" false (fun a r n e => i_vinsertf64x4 (r 0) (r 1) (OMem a) (n 3));
   mkRipE "vinserti32x4/2" false (fun a r n e => i_vinserti32x4 (r 0) (r 1) (OMem a) (n 3));
   mkRipE "vinserti32x8/2" false (fun a r n e => i_vinserti32x8 (r 0) (r 1) (OMem a) (n 3));
   mkRipE "vinserti64x2/2" false (fun a r n e => i_vinserti64x2 (r 0) (r 1) (OMem a) (n 3));
   mkRipE "vinserti64x4/2" false (fun a r n e => i_vinserti64x4 (r 0) (r 1) (OMem a) (n 3));
   mkRipE "vmaxpbf16/2" false (fun a r n e => i_vmaxpbf16 (r 0) (r 1) (OMem a))].
Lemma rips70_ok : Forall entry_refers rips70.
Proof. unfold rips70. 
row. { unfold i_vgatherqpd_xa. ref. }
row. { unfold i_vgatherqps_xa. ref. }
row. { unfold i_vgetexppbf16. ref. }
row. { unfold i_vgetexppd. ref. }
row. { unfold i_vgetexpph. ref. }
row. { unfold i_vgetexpps. ref. }
row. { unfold i_vgetexpsd. ref. }
row. { unfold i_vgetexpsh. ref. }
row. { unfold i_vgetexpss. ref. }
row. { unfold i_vgetmantpbf16. ref. }
row. { unfold i_vgetmantpd. ref. }
row. { unfold i_vgetmantph. ref. }
row. { unfold i_vgetmantps. ref. }
row. { unfold i_vgetmantsd. ref. }
row. { unfold i_vgetmantsh. ref. }
row. { unfold i_vgetmantss. ref. }
row. { unfold i_vinsertf32x4. ref. }
row. { unfold i_vinsertf32x8. ref. }
row. { unfold i_vinsertf64x2. ref. }
row. { unfold i_vinsertf64x4. ref. }
row. { unfold i_vinserti32x4. ref. }
row. { unfold i_vinserti32x8. ref. }
row. { unfold i_vinserti64x2. ref. }
row. { unfold i_vinserti64x4. ref. }
row. { unfold i_vmaxpbf16. ref. }
apply Forall_nil. Qed.
Definition rips71 : list rip_entry :=
  [mkRipE "vmaxph/1" false (fun a r n e => i_vmaxph (r 0) (OMem a) (OReg (r 2)));
   mkRipE "vmaxph/2" false (fun a r n e => i_vmaxph (r 0) (OReg (r 1)) (OMem a));
   mkRipE "vmaxsh/1" false (fun a r n e => i_vmaxsh (r 0) (OMem a) (OReg (r 2)));
   mkRipE "vmaxsh/2" false (fun a r n e => i_vmaxsh (r 0) (OReg (r 1)) (OMem a));
   mkRipE "vminmaxnepbf16/2" false (fun a r n e => i_vminmaxnepbf16 (r 0) (r 1) (OMem a) (n 3));
   mkRipE "vminmaxpd/2" false (fun a r n e => i_vminmaxpd (r 0) (r 1) (OMem a) (n 3));
   mkRipE "vminmaxph/2" false (fun a r n e => i_vminmaxph (r 0) (r 1) (OMem a) (n 3));
   mkRipE "vminmaxps/2" false (fun a r n e => i_vminmaxps (r 0) (r 1) (OMem a) (n 3));
   mkRipE "vminmaxsd/2" false (fun a r n e => i_vminmaxsd (r 0) (r 1) (OMem a) (n 3));
   mkRipE "vminmaxsh/2" false (fun a r n e => i_vminmaxsh (r 0) (r 1) (OMem a) (n 3));
   mkRipE "vminmaxss/2" false (fun a r n e => i_vminmaxss (r 0) (r 1) (OMem a) (n 3));
   mkRipE "vminpbf16/2" false (fun a r n e => i_vminpbf16 (r 0) (r 1) (OMem a));
   mkRipE "vminph/1" false (fun a r n e => i_vminph (r 0) (OMem a) (OReg (r 2)));
   mkRipE "vminph/2" false (fun a r n e => i_vminph (r 0) (OReg (r 1)) (OMem a));
   mkRipE "vminsh/1" false (fun a r n e => i_vminsh (r 0) (OMem a) (OReg (r 2)));
   mkRipE "vminsh/2" false (fun a r n e => i_vminsh (r 0) (OReg (r 1)) (OMem a));
   mkRipE "vmovdqa32_ax/0" false (fun a r n e => i_vmovdqa32_ax a (r 1));
   mkRipE "vmovdqa32_xo/1" false (fun a r n e => i_vmovdqa32_xo (r 0) (OMem a));
   mkRipE "vmovdqa64_ax/0" false (fun a r n e => i_vmovdqa64_ax a (r 1));
   mkRipE "vmovdqa64_xo/1" false (fun a r n e => i_vmovdqa64_xo (r 0) (OMem a));
   mkRipE "vmovdqu16_ax/0" false (fun a r n e => i_vmovdqu16_ax a (r 1));
   mkRipE "vmovdqu16_xo/1" false (fun a r n e => i_vmovdqu16_xo (r 0) (OMem a));
   mkRipE "vmovdqu32_ax/0" false (fun a r n e => i_vmovdqu32_ax a (r 1));
   mkRipE "vmovdqu32_xo/1" false (fun a r n e => i_vmovdqu32_xo (r 0) (OMem a));
   mkRipE "vmovdqu64_ax/0" false (fun a r n e => i_vmovdqu64_ax a (r 1))].
Lemma rips71_ok : Forall entry_refers rips71.
Proof. unfold rips71. 
row. { unfold i_vmaxph. ref. }
row. { unfold i_vmaxph. ref. }
row. { unfold i_vmaxsh. ref. }
row. { unfold i_vmaxsh. ref. }
row. { unfold i_vminmaxnepbf16. ref. }
row. { unfold i_vminmaxpd. ref. }
row. { unfold i_vminmaxph. ref. }
row. { unfold i_vminmaxps. ref. }
row. { unfold i_vminmaxsd. ref. }
row. { unfold i_vminmaxsh. ref. }
row. { unfold i_vminmaxss. ref. }
row. { unfold i_vminpbf16. ref. }
row. { unfold i_vminph. ref. }
row. { unfold i_vminph. ref. }
row. { unfold i_vminsh. ref. }
row. { unfold i_vminsh. ref. }
row. { unfold i_vmovdqa32_ax. ref. }
row. { unfold i_vmovdqa32_xo. ref. }
row. { unfold i_vmovdqa64_ax. ref. }
row. { unfold i_vmovdqa64_xo. ref. }
row. { unfold i_vmovdqu16_ax. ref. }
row. { unfold i_vmovdqu16_xo. ref. }
row. { unfold i_vmovdqu32_ax. ref. }
row. { unfold i_vmovdqu32_xo. ref. }
row. { unfold i_vmovdqu64_ax. ref. }
apply Forall_nil. Qed.
Definition rips72 : list rip_entry :=
  [mkRipE "vmovdqu64_xo/1" false (fun a r n e => i_vmovdqu64_xo (r 0) (OMem a));
   mkRipE "vmovdqu8_ax/0" false (fun a r n e => i_vmovdqu8_ax a (r 1));
   mkRipE "vmovdqu8_xo/1" false (fun a r n e => i_vmovdqu8_xo (r 0) (OMem a));
   mkRipE "vmovsh_ax/0" false (fun a r n e => i_vmovsh_ax a (r 1));
   mkRipE "vmovsh_xa/1" false (fun a r n e => i_vmovsh_xa (r 0) a);
   mkRipE "vmulnepbf16/2" false (fun a r n e => i_vmulnepbf16 (r 0) (r 1) (OMem a));
   mkRipE "vmulph/1" false (fun a r n e => i_vmulph (r 0) (OMem a) (OReg (r 2)));
   mkRipE "vmulph/2" false (fun a r n e => i_vmulph (r 0) (OReg (r 1)) (OMem a));
   mkRipE "vmulsh/1" false (fun a r n e => i_vmulsh (r 0) (OMem a) (OReg (r 2)));
   mkRipE "vmulsh/2" false (fun a r n e => i_vmulsh (r 0) (OReg (r 1)) (OMem a));
   mkRipE "vp2intersectd/2" false (fun a r n e => i_vp2intersectd (r 0) (r 1) (OMem a));
   mkRipE "vp2intersectq/2" false (fun a r n e => i_vp2intersectq (r 0) (r 1) (OMem a));
   mkRipE "vp4dpwssd/2" false (fun a r n e => i_vp4dpwssd (r 0) (r 1) a);
   mkRipE "vp4dpwssds/2" false (fun a r n e => i_vp4dpwssds (r 0) (r 1) a);
   mkRipE "vpabsq/1" false (fun a r n e => i_vpabsq (r 0) (OMem a));
   mkRipE "vpandd/2" false (fun a r n e => i_vpandd (r 0) (r 1) (OMem a));
   mkRipE "vpandnd/2" false (fun a r n e => i_vpandnd (r 0) (r 1) (OMem a));
   mkRipE "vpandnq/2" false (fun a r n e => i_vpandnq (r 0) (r 1) (OMem a));
   mkRipE "vpandq/2" false (fun a r n e => i_vpandq (r 0) (r 1) (OMem a));
   mkRipE "vpblendmb/2" false (fun a r n e => i_vpblendmb (r 0) (r 1) (OMem a));
   mkRipE "vpblendmd/2" false (fun a r n e => i_vpblendmd (r 0) (r 1) (OMem a));
   mkRipE "vpblendmq/2" false (fun a r n e => i_vpblendmq (r 0) (r 1) (OMem a));
   mkRipE "vpblendmw/2" false (fun a r n e => i_vpblendmw (r 0) (r 1) (OMem a));
   mkRipE "vpcmpb/2" false (fun a r n e => i_vpcmpb (r 0) (r 1) (OMem a) (n 3));
   mkRipE "vpcmpd/2" false (fun a r n e => i_vpcmpd (r 0) (r 1) (OMem a) (n 3))].
Lemma rips72_ok : Forall entry_refers rips72.
Proof. unfold rips72. 
row. { unfold i_vmovdqu64_xo. ref. }
row. { unfold i_vmovdqu8_ax. ref. }
row. { unfold i_vmovdqu8_xo. ref. }
row. { unfold i_vmovsh_ax. ref. }
row. { unfold i_vmovsh_xa. ref. }
row. { unfold i_vmulnepbf16. ref. }
row. { unfold i_vmulph. ref. }
row. { unfold i_vmulph. ref. }
row. { unfold i_vmulsh. ref. }
row. { unfold i_vmulsh. ref. }
row. { unfold i_vp2intersectd. ref. }
row. { unfold i_vp2intersectq. ref. }
row. { unfold i_vp4dpwssd. ref. }
row. { unfold i_vp4dpwssds. ref. }
row. { unfold i_vpabsq. ref. }
row. { unfold i_vpandd. ref. }
row. { unfold i_vpandnd. ref. }
row. { unfold i_vpandnq. ref. }
row. { unfold i_vpandq. ref. }
row. { unfold i_vpblendmb. ref. }
row. { unfold i_vpblendmd. ref. }
row. { unfold i_vpblendmq. ref. }
row. { unfold i_vpblendmw. ref. }
row. { unfold i_vpcmpb. ref. }
row. { unfold i_vpcmpd. ref. }
apply Forall_nil. Qed.
Definition rips73 : list rip_entry :=
  [mkRipE "vpcmpeqb_kxo/2" false (fun a r n e => i_vpcmpeqb_kxo (r 0) (r 1) (OMem a));
   mkRipE "vpcmpeqd_kxo/2" false (fun a r n e => i_vpcmpeqd_kxo (r 0) (r 1) (OMem a));
   mkRipE "vpcmpeqq_kxo/2" false (fun a r n e => i_vpcmpeqq_kxo (r 0) (r 1) (OMem a));
   mkRipE "vpcmpeqw_kxo/2" false (fun a r n e => i_vpcmpeqw_kxo (r 0) (r 1) (OMem a));
   mkRipE "vpcmpgtb_kxo/2" false (fun a r n e => i_vpcmpgtb_kxo (r 0) (r 1) (OMem a));
   mkRipE "vpcmpgtd_kxo/2" false (fun a r n e => i_vpcmpgtd_kxo (r 0) (r 1) (OMem a));
   mkRipE "vpcmpgtq_kxo/2" false (fun a r n e => i_vpcmpgtq_kxo (r 0) (r 1) (OMem a));
   mkRipE "vpcmpgtw_kxo/2" false (fun a r n e => i_vpcmpgtw_kxo (r 0) (r 1) (OMem a));
   mkRipE "vpcmpq/2" false (fun a r n e => i_vpcmpq (r 0) (r 1) (OMem a) (n 3));
   mkRipE "vpcmpub/2" false (fun a r n e => i_vpcmpub (r 0) (r 1) (OMem a) (n 3));
   mkRipE "vpcmpud/2" false (fun a r n e => i_vpcmpud (r 0) (r 1) (OMem a) (n 3));
   mkRipE "vpcmpuq/2" false (fun a r n e => i_vpcmpuq (r 0) (r 1) (OMem a) (n 3));
   mkRipE "vpcmpuw/2" false (fun a r n e => i_vpcmpuw (r 0) (r 1) (OMem a) (n 3));
   mkRipE "vpcmpw/2" false (fun a r n e => i_vpcmpw (r 0) (r 1) (OMem a) (n 3));
   mkRipE "vpcompressb/0" false (fun a r n e => i_vpcompressb (OMem a) (r 1));
   mkRipE "vpcompressd/0" false (fun a r n e => i_vpcompressd (OMem a) (r 1));
   mkRipE "vpcompressq/0" false (fun a r n e => i_vpcompressq (OMem a) (r 1));
   mkRipE "vpcompressw/0" false (fun a r n e => i_vpcompressw (OMem a) (r 1));
   mkRipE "vpconflictd/1" false (fun a r n e => i_vpconflictd (r 0) (OMem a));
   mkRipE "vpconflictq/1" false (fun a r n e => i_vpconflictq (r 0) (OMem a));
   mkRipE "vpdpbssd/2" false (fun a r n e => i_vpdpbssd (r 0) (r 1) (OMem a) e);
   mkRipE "vpdpbssds/2" false (fun a r n e => i_vpdpbssds (r 0) (r 1) (OMem a) e);
   mkRipE "vpdpbsud/2" false (fun a r n e => i_vpdpbsud (r 0) (r 1) (OMem a) e);
   mkRipE "vpdpbsuds/2" false (fun a r n e => i_vpdpbsuds (r 0) (r 1) (OMem a) e);
   mkRipE "vpdpbuud/2" false (fun a r n e => i_vpdpbuud (r 0) (r 1) (OMem a) e)].
Lemma rips73_ok : Forall entry_refers rips73.
Proof. unfold rips73. 
row. { unfold i_vpcmpeqb_kxo. ref. }
row. { unfold i_vpcmpeqd_kxo. ref. }
row. { unfold i_vpcmpeqq_kxo. ref. }
row. { unfold i_vpcmpeqw_kxo. ref. }
row. { unfold i_vpcmpgtb_kxo. ref. }
row. { unfold i_vpcmpgtd_kxo. ref. }
row. { unfold i_vpcmpgtq_kxo. ref. }
row. { unfold i_vpcmpgtw_kxo. ref. }
row. { unfold i_vpcmpq. ref. }
row. { unfold i_vpcmpub. ref. }
row. { unfold i_vpcmpud. ref. }
row. { unfold i_vpcmpuq. ref. }
row. { unfold i_vpcmpuw. ref. }
row. { unfold i_vpcmpw. ref. }
row. { unfold i_vpcompressb. ref. }
row. { unfold i_vpcompressd. ref. }
row. { unfold i_vpcompressq. ref. }
row. { unfold i_vpcompressw. ref. }
row. { unfold i_vpconflictd. ref. }
row. { unfold i_vpconflictq. ref. }
row. { unfold i_vpdpbssd. ref. }
row. { unfold i_vpdpbssds. ref. }
row. { unfold i_vpdpbsud. ref. }
row. { unfold i_vpdpbsuds. ref. }
row. { unfold i_vpdpbuud. ref. }
apply Forall_nil. Qed.
Definition rips74 : list rip_entry :=
  [mkRipE "vpdpbuuds/2" false (fun a r n e => i_vpdpbuuds (r 0) (r 1) (OMem a) e);
   mkRipE "vpdpwsud/2" false (fun a r n e => i_vpdpwsud (r 0) (r 1) (OMem a) e);
   mkRipE "vpdpwsuds/2" false (fun a r n e => i_vpdpwsuds (r 0) (r 1) (OMem a) e);
   mkRipE "vpdpwusd/2" false (fun a r n e => i_vpdpwusd (r 0) (r 1) (OMem a) e);
   mkRipE "vpdpwusds/2" false (fun a r n e => i_vpdpwusds (r 0) (r 1) (OMem a) e);
   mkRipE "vpdpwuud/2" false (fun a r n e => i_vpdpwuud (r 0) (r 1) (OMem a) e);
   mkRipE "vpdpwuuds/2" false (fun a r n e => i_vpdpwuuds (r 0) (r 1) (OMem a) e);
   mkRipE "vpermb/2" false (fun a r n e => i_vpermb (r 0) (r 1) (OMem a));
   mkRipE "vpermi2b/2" false (fun a r n e => i_vpermi2b (r 0) (r 1) (OMem a));
   mkRipE "vpermi2d/2" false (fun a r n e => i_vpermi2d (r 0) (r 1) (OMem a));
   mkRipE "vpermi2pd/2" false (fun a r n e => i_vpermi2pd (r 0) (r 1) (OMem a));
   mkRipE "vpermi2ps/2" false (fun a r n e => i_vpermi2ps (r 0) (r 1) (OMem a));
   mkRipE "vpermi2q/2" false (fun a r n e => i_vpermi2q (r 0) (r 1) (OMem a));
   mkRipE "vpermi2w/2" false (fun a r n e => i_vpermi2w (r 0) (r 1) (OMem a));
   mkRipE "vpermt2b/2" false (fun a r n e => i_vpermt2b (r 0) (r 1) (OMem a));
   mkRipE "vpermt2d/2" false (fun a r n e => i_vpermt2d (r 0) (r 1) (OMem a));
   mkRipE "vpermt2pd/2" false (fun a r n e => i_vpermt2pd (r 0) (r 1) (OMem a));
   mkRipE "vpermt2ps/2" false (fun a r n e => i_vpermt2ps (r 0) (r 1) (OMem a));
   mkRipE "vpermt2q/2" false (fun a r n e => i_vpermt2q (r 0) (r 1) (OMem a));
   mkRipE "vpermt2w/2" false (fun a r n e => i_vpermt2w (r 0) (r 1) (OMem a));
   mkRipE "vpermw/2" false (fun a r n e => i_vpermw (r 0) (r 1) (OMem a));
   mkRipE "vpexpandb/1" false (fun a r n e => i_vpexpandb (r 0) (OMem a));
   mkRipE "vpexpandd/1" false (fun a r n e => i_vpexpandd (r 0) (OMem a));
   mkRipE "vpexpandq/1" false (fun a r n e => i_vpexpandq (r 0) (OMem a));
   mkRipE "vpexpandw/1" false (fun a r n e => i_vpexpandw (r 0) (OMem a))].
Lemma rips74_ok : Forall entry_refers rips74.
Proof. unfold rips74. 
row. { unfold i_vpdpbuuds. ref. }
row. { unfold i_vpdpwsud. ref. }
row. { unfold i_vpdpwsuds. ref. }
row. { unfold i_vpdpwusd. ref. }
row. { unfold i_vpdpwusds. ref. }
row. { unfold i_vpdpwuud. ref. }
row. { unfold i_vpdpwuuds. ref. }
row. { unfold i_vpermb. ref. }
row. { unfold i_vpermi2b. ref. }
row. { unfold i_vpermi2d. ref. }
row. { unfold i_vpermi2pd. ref. }
row. { unfold i_vpermi2ps. ref. }
row. { unfold i_vpermi2q. ref. }
row. { unfold i_vpermi2w. ref. }
row. { unfold i_vpermt2b. ref. }
row. { unfold i_vpermt2d. ref. }
row. { unfold i_vpermt2pd. ref. }
row. { unfold i_vpermt2ps. ref. }
row. { unfold i_vpermt2q. ref. }
row. { unfold i_vpermt2w. ref. }
row. { unfold i_vpermw. ref. }
row. { unfold i_vpexpandb. ref. }
row. { unfold i_vpexpandd. ref. }
row. { unfold i_vpexpandq. ref. }
row. { unfold i_vpexpandw. ref. }
apply Forall_nil. Qed.
Definition rips75 : list rip_entry :=
  [mkRipE "vpgatherdd_xa/1" false (fun a r n e => i_vpgatherdd_xa (r 0) a);
   mkRipE "vpgatherdq_xa/1" false (fun a r n e => i_vpgatherdq_xa (r 0) a);
   mkRipE "vpgatherqd_xa/1" false (fun a r n e => i_vpgatherqd_xa (r 0) a);
   mkRipE "vpgatherqq_xa/1" false (fun a r n e => i_vpgatherqq_xa (r 0) a);
   mkRipE "vplzcntd/1" false (fun a r n e => i_vplzcntd (r 0) (OMem a));
   mkRipE "vplzcntq/1" false (fun a r n e => i_vplzcntq (r 0) (OMem a));
   mkRipE "vpmadd52huq/2" false (fun a r n e => i_vpmadd52huq (r 0) (r 1) (OMem a));
   mkRipE "vpmadd52luq/2" false (fun a r n e => i_vpmadd52luq (r 0) (r 1) (OMem a));
   mkRipE "vpmaxsq/2" false (fun a r n e => i_vpmaxsq (r 0) (r 1) (OMem a));
   mkRipE "vpmaxuq/2" false (fun a r n e => i_vpmaxuq (r 0) (r 1) (OMem a));
   mkRipE "vpminsq/2" false (fun a r n e => i_vpminsq (r 0) (r 1) (OMem a));
   mkRipE "vpminuq/2" false (fun a r n e => i_vpminuq (r 0) (r 1) (OMem a));
   mkRipE "vpmovdb/0" false (fun a r n e => i_vpmovdb (OMem a) (r 1));
   mkRipE "vpmovdw/0" false (fun a r n e => i_vpmovdw (OMem a) (r 1));
   mkRipE "vpmovqb/0" false (fun a r n e => i_vpmovqb (OMem a) (r 1));
   mkRipE "vpmovqd/0" false (fun a r n e => i_vpmovqd (OMem a) (r 1));
   mkRipE "vpmovqw/0" false (fun a r n e => i_vpmovqw (OMem a) (r 1));
   mkRipE "vpmovsdb/0" false (fun a r n e => i_vpmovsdb (OMem a) (r 1));
   mkRipE "vpmovsdw/0" false (fun a r n e => i_vpmovsdw (OMem a) (r 1));
   mkRipE "vpmovsqb/0" false (fun a r n e => i_vpmovsqb (OMem a) (r 1));
   mkRipE "vpmovsqd/0" false (fun a r n e => i_vpmovsqd (OMem a) (r 1));
   mkRipE "vpmovsqw/0" false (fun a r n e => i_vpmovsqw (OMem a) (r 1));
   mkRipE "vpmovswb/0" false (fun a r n e => i_vpmovswb (OMem a) (r 1));
   mkRipE "vpmovusdb/0" false (fun a r n e => i_vpmovusdb (OMem a) (r 1));
   mkRipE "vpmovusdw/0" false (fun a r n e => i_vpmovusdw (OMem a) (r 1))].
Lemma rips75_ok : Forall entry_refers rips75.
Proof. unfold rips75. 
row. { unfold i_vpgatherdd_xa. ref. }
row. { unfold i_vpgatherdq_xa. ref. }
row. { unfold i_vpgatherqd_xa. ref. }
row. { unfold i_vpgatherqq_xa. ref. }
row. { unfold i_vplzcntd. ref. }
row. { unfold i_vplzcntq. ref. }
row. { unfold i_vpmadd52huq. ref. }
row. { unfold i_vpmadd52luq. ref. }
row. { unfold i_vpmaxsq. ref. }
row. { unfold i_vpmaxuq. ref. }
row. { unfold i_vpminsq. ref. }
row. { unfold i_vpminuq. ref. }
row. { unfold i_vpmovdb. ref. }
row. { unfold i_vpmovdw. ref. }
row. { unfold i_vpmovqb. ref. }
row. { unfold i_vpmovqd. ref. }
row. { unfold i_vpmovqw. ref. }
row. { unfold i_vpmovsdb. ref. }
row. { unfold i_vpmovsdw. ref. }
row. { unfold i_vpmovsqb. ref. }
row. { unfold i_vpmovsqd. ref. }
row. { unfold i_vpmovsqw. ref. }
row. { unfold i_vpmovswb. ref. }
row. { unfold i_vpmovusdb. ref. }
row. { unfold i_vpmovusdw. ref. }
apply Forall_nil. Qed.
Definition rips76 : list rip_entry :=
  [mkRipE "vpmovusqb/0" false (fun a r n e => i_vpmovusqb (OMem a) (r 1));
   mkRipE "vpmovusqd/0" false (fun a r n e => i_vpmovusqd (OMem a) (r 1));
   mkRipE "vpmovusqw/0" false (fun a r n e => i_vpmovusqw (OMem a) (r 1));
   mkRipE "vpmovuswb/0" false (fun a r n e => i_vpmovuswb (OMem a) (r 1));
   mkRipE "vpmovwb/0" false (fun a r n e => i_vpmovwb (OMem a) (r 1));
   mkRipE "vpmullq/2" false (fun a r n e => i_vpmullq (r 0) (r 1) (OMem a));
   mkRipE "vpmultishiftqb/2" false (fun a r n e => i_vpmultishiftqb (r 0) (r 1) (OMem a));
   mkRipE "vpopcntb/1" false (fun a r n e => i_vpopcntb (r 0) (OMem a));
   mkRipE "vpopcntd/1" false (fun a r n e => i_vpopcntd (r 0) (OMem a));
   mkRipE "vpopcntq/1" false (fun a r n e => i_vpopcntq (r 0) (OMem a));
   mkRipE "vpopcntw/1" false (fun a r n e => i_vpopcntw (r 0) (OMem a));
   mkRipE "vpord/2" false (fun a r n e => i_vpord (r 0) (r 1) (OMem a));
   mkRipE "vporq/2" false (fun a r n e => i_vporq (r 0) (r 1) (OMem a));
   mkRipE "vprold/1" false (fun a r n e => i_vprold (r 0) (OMem a) (n 2));
   mkRipE "vprolq/1" false (fun a r n e => i_vprolq (r 0) (OMem a) (n 2));
   mkRipE "vprolvd/2" false (fun a r n e => i_vprolvd (r 0) (r 1) (OMem a));
   mkRipE "vprolvq/2" false (fun a r n e => i_vprolvq (r 0) (r 1) (OMem a));
   mkRipE "vprord/1" false (fun a r n e => i_vprord (r 0) (OMem a) (n 2));
   mkRipE "vprorq/1" false (fun a r n e => i_vprorq (r 0) (OMem a) (n 2));
   mkRipE "vprorvd/2" false (fun a r n e => i_vprorvd (r 0) (r 1) (OMem a));
   mkRipE "vprorvq/2" false (fun a r n e => i_vprorvq (r 0) (r 1) (OMem a));
   mkRipE "vpscatterdd/0" false (fun a r n e => i_vpscatterdd a (r 1));
   mkRipE "vpscatterdq/0" false (fun a r n e => i_vpscatterdq a (r 1));
   mkRipE "vpscatterqd/0" false (fun a r n e => i_vpscatterqd a (r 1));
   mkRipE "vpscatterqq/0" false (fun a r n e => i_vpscatterqq a (r 1))].
Lemma rips76_ok : Forall entry_refers rips76.
Proof. unfold rips76. 
row. { unfold i_vpmovusqb. ref. }
row. { unfold i_vpmovusqd. ref. }
row. { unfold i_vpmovusqw. ref. }
row. { unfold i_vpmovuswb. ref. }
row. { unfold i_vpmovwb. ref. }
row. { unfold i_vpmullq. ref. }
row. { unfold i_vpmultishiftqb. ref. }
row. { unfold i_vpopcntb. ref. }
row. { unfold i_vpopcntd. ref. }
row. { unfold i_vpopcntq. ref. }
row. { unfold i_vpopcntw. ref. }
row. { unfold i_vpord. ref. }
row. { unfold i_vporq. ref. }
row. { unfold i_vprold. ref. }
row. { unfold i_vprolq. ref. }
row. { unfold i_vprolvd. ref. }
row. { unfold i_vprolvq. ref. }
row. { unfold i_vprord. ref. }
row. { unfold i_vprorq. ref. }
row. { unfold i_vprorvd. ref. }
row. { unfold i_vprorvq. ref. }
row. { unfold i_vpscatterdd. ref. }
row. { unfold i_vpscatterdq. ref. }
row. { unfold i_vpscatterqd. ref. }
row. { unfold i_vpscatterqq. ref. }
apply Forall_nil. Qed.
Definition rips77 : list rip_entry :=
  [mkRipE "vpshldd/2" false (fun a r n e => i_vpshldd (r 0) (r 1) (OMem a) (n 3));
   mkRipE "vpshldq/2" false (fun a r n e => i_vpshldq (r 0) (r 1) (OMem a) (n 3));
   mkRipE "vpshldvd/2" false (fun a r n e => i_vpshldvd (r 0) (r 1) (OMem a));
   mkRipE "vpshldvq/2" false (fun a r n e => i_vpshldvq (r 0) (r 1) (OMem a));
   mkRipE "vpshldvw/2" false (fun a r n e => i_vpshldvw (r 0) (r 1) (OMem a));
   mkRipE "vpshldw/2" false (fun a r n e => i_vpshldw (r 0) (r 1) (OMem a) (n 3));
   mkRipE "vpshrdd/2" false (fun a r n e => i_vpshrdd (r 0) (r 1) (OMem a) (n 3));
   mkRipE "vpshrdq/2" false (fun a r n e => i_vpshrdq (r 0) (r 1) (OMem a) (n 3));
   mkRipE "vpshrdvd/2" false (fun a r n e => i_vpshrdvd (r 0) (r 1) (OMem a));
   mkRipE "vpshrdvq/2" false (fun a r n e => i_vpshrdvq (r 0) (r 1) (OMem a));
   mkRipE "vpshrdvw/2" false (fun a r n e => i_vpshrdvw (r 0) (r 1) (OMem a));
   mkRipE "vpshrdw/2" false (fun a r n e => i_vpshrdw (r 0) (r 1) (OMem a) (n 3));
   mkRipE "vpshufbitqmb/2" false (fun a r n e => i_vpshufbitqmb (r 0) (r 1) (OMem a));
   mkRipE "vpsllvw/2" false (fun a r n e => i_vpsllvw (r 0) (r 1) (OMem a));
   mkRipE "vpsraq_xoi/1" false (fun a r n e => i_vpsraq_xoi (r 0) (OMem a) (n 2));
   mkRipE "vpsraq_xxo/2" false (fun a r n e => i_vpsraq_xxo (r 0) (r 1) (OMem a));
   mkRipE "vpsravq/2" false (fun a r n e => i_vpsravq (r 0) (r 1) (OMem a));
   mkRipE "vpsravw/2" false (fun a r n e => i_vpsravw (r 0) (r 1) (OMem a));
   mkRipE "vpsrlvw/2" false (fun a r n e => i_vpsrlvw (r 0) (r 1) (OMem a));
   mkRipE "vpternlogd/2" false (fun a r n e => i_vpternlogd (r 0) (r 1) (OMem a) (n 3));
   mkRipE "vpternlogq/2" false (fun a r n e => i_vpternlogq (r 0) (r 1) (OMem a) (n 3));
   mkRipE "vptestmb/2" false (fun a r n e => i_vptestmb (r 0) (r 1) (OMem a));
   mkRipE "vptestmd/2" false (fun a r n e => i_vptestmd (r 0) (r 1) (OMem a));
   mkRipE "vptestmq/2" false (fun a r n e => i_vptestmq (r 0) (r 1) (OMem a));
   mkRipE "vptestmw/2" false (fun a r n e => i_vptestmw (r 0) (r 1) (OMem a))].
Lemma rips77_ok : Forall entry_refers rips77.
Proof. unfold rips77. 
row. { unfold i_vpshldd. ref. }
row. { unfold i_vpshldq. ref. }
row. { unfold i_vpshldvd. ref. }
row. { unfold i_vpshldvq. ref. }
row. { unfold i_vpshldvw. ref. }
row. { unfold i_vpshldw. ref. }
row. { unfold i_vpshrdd. ref. }
row. { unfold i_vpshrdq. ref. }
row. { unfold i_vpshrdvd. ref. }
row. { unfold i_vpshrdvq. ref. }
row. { unfold i_vpshrdvw. ref. }
row. { unfold i_vpshrdw. ref. }
row. { unfold i_vpshufbitqmb. ref. }
row. { unfold i_vpsllvw. ref. }
row. { unfold i_vpsraq_xoi. ref. }
row. { unfold i_vpsraq_xxo. ref. }
row. { unfold i_vpsravq. ref. }
row. { unfold i_vpsravw. ref. }
row. { unfold i_vpsrlvw. ref. }
row. { unfold i_vpternlogd. ref. }
row. { unfold i_vpternlogq. ref. }
row. { unfold i_vptestmb. ref. }
row. { unfold i_vptestmd. ref. }
row. { unfold i_vptestmq. ref. }
row. { unfold i_vptestmw. ref. }
apply Forall_nil. Qed.
Definition rips78 : list rip_entry :=
  [mkRipE "vptestnmb/2" false (fun a r n e => i_vptestnmb (r 0) (r 1) (OMem a));
   mkRipE "vptestnmd/2" false (fun a r n e => i_vptestnmd (r 0) (r 1) (OMem a));
   mkRipE "vptestnmq/2" false (fun a r n e => i_vptestnmq (r 0) (r 1) (OMem a));
   mkRipE "vptestnmw/2" false (fun a r n e => i_vptestnmw (r 0) (r 1) (OMem a));
   mkRipE "vpxord/2" false (fun a r n e => i_vpxord (r 0) (r 1) (OMem a));
   mkRipE "vpxorq/2" false (fun a r n e => i_vpxorq (r 0) (r 1) (OMem a));
   mkRipE "vrangepd/2" false (fun a r n e => i_vrangepd (r 0) (r 1) (OMem a) (n 3));
   mkRipE "vrangeps/2" false (fun a r n e => i_vrangeps (r 0) (r 1) (OMem a) (n 3));
   mkRipE "vrangesd/2" false (fun a r n e => i_vrangesd (r 0) (r 1) (OMem a) (n 3));
   mkRipE "vrangess/2" false (fun a r n e => i_vrangess (r 0) (r 1) (OMem a) (n 3));
   mkRipE "vrcp14pd/1" false (fun a r n e => i_vrcp14pd (r 0) (OMem a));
   mkRipE "vrcp14ps/1" false (fun a r n e => i_vrcp14ps (r 0) (OMem a));
   mkRipE "vrcp14sd/2" false (fun a r n e => i_vrcp14sd (r 0) (r 1) (OMem a));
   mkRipE "vrcp14ss/2" false (fun a r n e => i_vrcp14ss (r 0) (r 1) (OMem a));
   mkRipE "vrcp28pd/1" false (fun a r n e => i_vrcp28pd (r 0) (OMem a));
   mkRipE "vrcp28ps/1" false (fun a r n e => i_vrcp28ps (r 0) (OMem a));
   mkRipE "vrcp28sd/2" false (fun a r n e => i_vrcp28sd (r 0) (r 1) (OMem a));
   mkRipE "vrcp28ss/2" false (fun a r n e => i_vrcp28ss (r 0) (r 1) (OMem a));
   mkRipE "vrcppbf16/1" false (fun a r n e => i_vrcppbf16 (r 0) (OMem a));
   mkRipE "vrcpph/1" false (fun a r n e => i_vrcpph (r 0) (OMem a));
   mkRipE "vrcpsh/2" false (fun a r n e => i_vrcpsh (r 0) (r 1) (OMem a));
   mkRipE "vreducenepbf16/1" false (fun a r n e => i_vreducenepbf16 (r 0) (OMem a) (n 2));
   mkRipE "vreducepd/1" false (fun a r n e => i_vreducepd (r 0) (OMem a) (n 2));
   mkRipE "vreduceph/1" false (fun a r n e => i_vreduceph (r 0) (OMem a) (n 2));
   mkRipE "vreduceps/1" false (fun a r n e => i_vreduceps (r 0) (OMem a) (n 2))].
Lemma rips78_ok : Forall entry_refers rips78.
Proof. unfold rips78. 
row. { unfold i_vptestnmb. ref. }
row. { unfold i_vptestnmd. ref. }
row. { unfold i_vptestnmq. ref. }
row. { unfold i_vptestnmw. ref. }
row. { unfold i_vpxord. ref. }
row. { unfold i_vpxorq. ref. }
row. { unfold i_vrangepd. ref. }
row. { unfold i_vrangeps. ref. }
row. { unfold i_vrangesd. ref. }
row. { unfold i_vrangess. ref. }
row. { unfold i_vrcp14pd. ref. }
row. { unfold i_vrcp14ps. ref. }
row. { unfold i_vrcp14sd. ref. }
row. { unfold i_vrcp14ss. ref. }
row. { unfold i_vrcp28pd. ref. }
row. { unfold i_vrcp28ps. ref. }
row. { unfold i_vrcp28sd. ref. }
row. { unfold i_vrcp28ss. ref. }
row. { unfold i_vrcppbf16. ref. }
row. { unfold i_vrcpph. ref. }
row. { unfold i_vrcpsh. ref. }
row. { unfold i_vreducenepbf16. ref. }
row. { unfold i_vreducepd. ref. }
row. { unfold i_vreduceph. ref. }
row. { unfold i_vreduceps. ref. }
apply Forall_nil. Qed.
Definition rips79 : list rip_entry :=
  [mkRipE "vreducesd/2" false (fun a r n e => i_vreducesd (r 0) (r 1) (OMem a) (n 3));
   mkRipE "vreducesh/2" false (fun a r n e => i_vreducesh (r 0) (r 1) (OMem a) (n 3));
   mkRipE "vreducess/2" false (fun a r n e => i_vreducess (r 0) (r 1) (OMem a) (n 3));
   mkRipE "vrndscalenepbf16/1" false (fun a r n e => i_vrndscalenepbf16 (r 0) (OMem a) (n 2));
   mkRipE "vrndscalepd/1" false (fun a r n e => i_vrndscalepd (r 0) (OMem a) (n 2));
   mkRipE "vrndscaleph/1" false (fun a r n e => i_vrndscaleph (r 0) (OMem a) (n 2));
   mkRipE "vrndscaleps/1" false (fun a r n e => i_vrndscaleps (r 0) (OMem a) (n 2));
   mkRipE "vrndscalesd/2" false (fun a r n e => i_vrndscalesd (r 0) (r 1) (OMem a) (n 3));
   mkRipE "vrndscalesh/2" false (fun a r n e => i_vrndscalesh (r 0) (r 1) (OMem a) (n 3));
   mkRipE "vrndscaless/2" false (fun a r n e => i_vrndscaless (r 0) (r 1) (OMem a) (n 3));
   mkRipE "vrsqrt14pd/1" false (fun a r n e => i_vrsqrt14pd (r 0) (OMem a));
   mkRipE "vrsqrt14ps/1" false (fun a r n e => i_vrsqrt14ps (r 0) (OMem a));
   mkRipE "vrsqrt14sd/2" false (fun a r n e => i_vrsqrt14sd (r 0) (r 1) (OMem a));
   mkRipE "vrsqrt14ss/2" false (fun a r n e => i_vrsqrt14ss (r 0) (r 1) (OMem a));
   mkRipE "vrsqrt28pd/1" false (fun a r n e => i_vrsqrt28pd (r 0) (OMem a));
   mkRipE "vrsqrt28ps/1" false (fun a r n e => i_vrsqrt28ps (r 0) (OMem a));
   mkRipE "vrsqrt28sd/2" false (fun a r n e => i_vrsqrt28sd (r 0) (r 1) (OMem a));
   mkRipE "vrsqrt28ss/2" false (fun a r n e => i_vrsqrt28ss (r 0) (r 1) (OMem a));
   mkRipE "vrsqrtpbf16/1" false (fun a r n e => i_vrsqrtpbf16 (r 0) (OMem a));
   mkRipE "vrsqrtph/1" false (fun a r n e => i_vrsqrtph (r 0) (OMem a));
   mkRipE "vrsqrtsh/2" false (fun a r n e => i_vrsqrtsh (r 0) (r 1) (OMem a));
   mkRipE "vscalefpbf16_xo/1" false (fun a r n e => i_vscalefpbf16_xo (r 0) (OMem a));
   mkRipE "vscalefpbf16_xxo/2" false (fun a r n e => i_vscalefpbf16_xxo (r 0) (r 1) (OMem a));
   mkRipE "vscalefpd/2" false (fun a r n e => i_vscalefpd (r 0) (r 1) (OMem a));
   mkRipE "vscalefph/2" false (fun a r n e => i_vscalefph (r 0) (r 1) (OMem a))].
Lemma rips79_ok : Forall entry_refers rips79.
Proof. unfold rips79. 
row. { unfold i_vreducesd. ref. }
row. { unfold i_vreducesh. ref. }
row. { unfold i_vreducess. ref. }
row. { unfold i_vrndscalenepbf16. ref. }
row. { unfold i_vrndscalepd. ref. }
row. { unfold i_vrndscaleph. ref. }
row. { unfold i_vrndscaleps. ref. }
row. { unfold i_vrndscalesd. ref. }
row. { unfold i_vrndscalesh. ref. }
row. { unfold i_vrndscaless. ref. }
row. { unfold i_vrsqrt14pd. ref. }
row. { unfold i_vrsqrt14ps. ref. }
row. { unfold i_vrsqrt14sd. ref. }
row. { unfold i_vrsqrt14ss. ref. }
row. { unfold i_vrsqrt28pd. ref. }
row. { unfold i_vrsqrt28ps. ref. }
row. { unfold i_vrsqrt28sd. ref. }
row. { unfold i_vrsqrt28ss. ref. }
row. { unfold i_vrsqrtpbf16. ref. }
row. { unfold i_vrsqrtph. ref. }
row. { unfold i_vrsqrtsh. ref. }
row. { unfold i_vscalefpbf16_xo. ref. }
row. { unfold i_vscalefpbf16_xxo. ref. }
row. { unfold i_vscalefpd. ref. }
row. { unfold i_vscalefph. ref. }
apply Forall_nil. Qed.
Definition rips80 : list rip_entry :=
  [mkRipE "vscalefps/2" false (fun a r n e => i_vscalefps (r 0) (r 1) (OMem a));
   mkRipE "vscalefsd/2" false (fun a r n e => i_vscalefsd (r 0) (r 1) (OMem a));
   mkRipE "vscalefsh/2" false (fun a r n e => i_vscalefsh (r 0) (r 1) (OMem a));
   mkRipE "vscalefss/2" false (fun a r n e => i_vscalefss (r 0) (r 1) (OMem a));
   mkRipE "vscatterdpd/0" false (fun a r n e => i_vscatterdpd a (r 1));
   mkRipE "vscatterdps/0" false (fun a r n e => i_vscatterdps a (r 1));
   mkRipE "vscatterpf0dpd/0" false (fun a r n e => i_vscatterpf0dpd a);
   mkRipE "vscatterpf0dps/0" false (fun a r n e => i_vscatterpf0dps a);
   mkRipE "vscatterpf0qpd/0" false (fun a r n e => i_vscatterpf0qpd a);
   mkRipE "vscatterpf0qps/0" false (fun a r n e => i_vscatterpf0qps a);
   mkRipE "vscatterpf1dpd/0" false (fun a r n e => i_vscatterpf1dpd a);
   mkRipE "vscatterpf1dps/0" false (fun a r n e => i_vscatterpf1dps a);
   mkRipE "vscatterpf1qpd/0" false (fun a r n e => i_vscatterpf1qpd a);
   mkRipE "vscatterpf1qps/0" false (fun a r n e => i_vscatterpf1qps a);
   mkRipE "vscatterqpd/0" false (fun a r n e => i_vscatterqpd a (r 1));
   mkRipE "vscatterqps/0" false (fun a r n e => i_vscatterqps a (r 1));
   mkRipE "vshuff32x4/2" false (fun a r n e => i_vshuff32x4 (r 0) (r 1) (OMem a) (n 3));
   mkRipE "vshuff64x2/2" false (fun a r n e => i_vshuff64x2 (r 0) (r 1) (OMem a) (n 3));
   mkRipE "vshufi32x4/2" false (fun a r n e => i_vshufi32x4 (r 0) (r 1) (OMem a) (n 3));
   mkRipE "vshufi64x2/2" false (fun a r n e => i_vshufi64x2 (r 0) (r 1) (OMem a) (n 3));
   mkRipE "vsqrtnepbf16/1" false (fun a r n e => i_vsqrtnepbf16 (r 0) (OMem a));
   mkRipE "vsqrtph/1" false (fun a r n e => i_vsqrtph (r 0) (OMem a));
   mkRipE "vsqrtsh/2" false (fun a r n e => i_vsqrtsh (r 0) (r 1) (OMem a));
   mkRipE "vsubnepbf16/2" false (fun a r n e => i_vsubnepbf16 (r 0) (r 1) (OMem a));
   mkRipE "vsubph/1" false (fun a r n e => i_vsubph (r 0) (OMem a) (OReg (r 2)))].
Lemma rips80_ok : Forall entry_refers rips80.
Proof. unfold rips80. 
row. { unfold i_vscalefps. ref. }
row. { unfold i_vscalefsd. ref. }
row. { unfold i_vscalefsh. ref. }
row. { unfold i_vscalefss. ref. }
row. { unfold i_vscatterdpd. ref. }
row. { unfold i_vscatterdps. ref. }
row. { unfold i_vscatterpf0dpd. ref. }
row. { unfold i_vscatterpf0dps. ref. }
row. { unfold i_vscatterpf0qpd. ref. }
row. { unfold i_vscatterpf0qps. ref. }
row. { unfold i_vscatterpf1dpd. ref. }
row. { unfold i_vscatterpf1dps. ref. }
row. { unfold i_vscatterpf1qpd. ref. }
row. { unfold i_vscatterpf1qps. ref. }
row. { unfold i_vscatterqpd. ref. }
row. { unfold i_vscatterqps. ref. }
row. { unfold i_vshuff32x4. ref. }
row. { unfold i_vshuff64x2. ref. }
row. { unfold i_vshufi32x4. ref. }
row. { unfold i_vshufi64x2. ref. }
row. { unfold i_vsqrtnepbf16. ref. }
row. { unfold i_vsqrtph. ref. }
row. { unfold i_vsqrtsh. ref. }
row. { unfold i_vsubnepbf16. ref. }
row. { unfold i_vsubph. ref. }
apply Forall_nil. Qed.
Definition rips81 : list rip_entry :=
  [mkRipE "vsubph/2" false (fun a r n e => i_vsubph (r 0) (OReg (r 1)) (OMem a));
   mkRipE "vsubsh/1" false (fun a r n e => i_vsubsh (r 0) (OMem a) (OReg (r 2)));
   mkRipE "vsubsh/2" false (fun a r n e => i_vsubsh (r 0) (OReg (r 1)) (OMem a));
   mkRipE "vucomish/1" false (fun a r n e => i_vucomish (r 0) (OMem a));
   mkRipE "vucomxsd/1" false (fun a r n e => i_vucomxsd (r 0) (OMem a));
   mkRipE "vucomxsh/1" false (fun a r n e => i_vucomxsh (r 0) (OMem a));
   mkRipE "vucomxss/1" false (fun a r n e => i_vucomxss (r 0) (OMem a));
   mkRipE "vblendpd_xoi/1" false (fun a r n e => i_vblendpd_xoi (r 0) (OMem a) (n 2));
   mkRipE "vblendps_xoi/1" false (fun a r n e => i_vblendps_xoi (r 0) (OMem a) (n 2));
   mkRipE "vblendvpd_xox/1" false (fun a r n e => i_vblendvpd_xox (r 0) (OMem a) (r 2));
   mkRipE "vblendvps_xox/1" false (fun a r n e => i_vblendvps_xox (r 0) (OMem a) (r 2));
   mkRipE "vcmpeq_ospd_xo/1" false (fun a r n e => i_vcmpeq_ospd_xo (r 0) (OMem a));
   mkRipE "vcmpeq_osps_xo/1" false (fun a r n e => i_vcmpeq_osps_xo (r 0) (OMem a));
   mkRipE "vcmpeq_ossd_xo/1" false (fun a r n e => i_vcmpeq_ossd_xo (r 0) (OMem a));
   mkRipE "vcmpeq_osss_xo/1" false (fun a r n e => i_vcmpeq_osss_xo (r 0) (OMem a));
   mkRipE "vcmpeq_uqpd_xo/1" false (fun a r n e => i_vcmpeq_uqpd_xo (r 0) (OMem a));
   mkRipE "vcmpeq_uqps_xo/1" false (fun a r n e => i_vcmpeq_uqps_xo (r 0) (OMem a));
   mkRipE "vcmpeq_uqsd_xo/1" false (fun a r n e => i_vcmpeq_uqsd_xo (r 0) (OMem a));
   mkRipE "vcmpeq_uqss_xo/1" false (fun a r n e => i_vcmpeq_uqss_xo (r 0) (OMem a));
   mkRipE "vcmpeq_uspd_xo/1" false (fun a r n e => i_vcmpeq_uspd_xo (r 0) (OMem a));
   mkRipE "vcmpeq_usps_xo/1" false (fun a r n e => i_vcmpeq_usps_xo (r 0) (OMem a));
   mkRipE "vcmpeq_ussd_xo/1" false (fun a r n e => i_vcmpeq_ussd_xo (r 0) (OMem a));
   mkRipE "vcmpeq_usss_xo/1" false (fun a r n e => i_vcmpeq_usss_xo (r 0) (OMem a));
   mkRipE "vcmpeqpd_xo/1" false (fun a r n e => i_vcmpeqpd_xo (r 0) (OMem a));
   mkRipE "vcmpeqps_xo/1" false (fun a r n e => i_vcmpeqps_xo (r 0) (OMem a))].
Lemma rips81_ok : Forall entry_refers rips81.
Proof. unfold rips81. 
row. { unfold i_vsubph. ref. }
row. { unfold i_vsubsh. ref. }
row. { unfold i_vsubsh. ref. }
row. { unfold i_vucomish. ref. }
row. { unfold i_vucomxsd. ref. }
row. { unfold i_vucomxsh. ref. }
row. { unfold i_vucomxss. ref. }
row. { unfold i_vblendpd_xoi, i_vblendpd_xxoi. ref. }
row. { unfold i_vblendps_xoi, i_vblendps_xxoi. ref. }
row. { unfold i_vblendvpd_xox, i_vblendvpd_xxox. ref. }
row. { unfold i_vblendvps_xox, i_vblendvps_xxox. ref. }
row. { unfold i_vcmpeq_ospd_xo, i_vcmpeq_ospd_xxo, i_vcmppd_xxoi. ref. }
row. { unfold i_vcmpeq_osps_xo, i_vcmpeq_osps_xxo, i_vcmpps_xxoi. ref. }
row. { unfold i_vcmpeq_ossd_xo, i_vcmpeq_ossd_xxo, i_vcmpsd_xxoi. ref. }
row. { unfold i_vcmpeq_osss_xo, i_vcmpeq_osss_xxo, i_vcmpss_xxoi. ref. }
row. { unfold i_vcmpeq_uqpd_xo, i_vcmpeq_uqpd_xxo, i_vcmppd_xxoi. ref. }
row. { unfold i_vcmpeq_uqps_xo, i_vcmpeq_uqps_xxo, i_vcmpps_xxoi. ref. }
row. { unfold i_vcmpeq_uqsd_xo, i_vcmpeq_uqsd_xxo, i_vcmpsd_xxoi. ref. }
row. { unfold i_vcmpeq_uqss_xo, i_vcmpeq_uqss_xxo, i_vcmpss_xxoi. ref. }
row. { unfold i_vcmpeq_uspd_xo, i_vcmpeq_uspd_xxo, i_vcmppd_xxoi. ref. }
row. { unfold i_vcmpeq_usps_xo, i_vcmpeq_usps_xxo, i_vcmpps_xxoi. ref. }
row. { unfold i_vcmpeq_ussd_xo, i_vcmpeq_ussd_xxo, i_vcmpsd_xxoi. ref. }
row. { unfold i_vcmpeq_usss_xo, i_vcmpeq_usss_xxo, i_vcmpss_xxoi. ref. }
row. { unfold i_vcmpeqpd_xo, i_vcmpeqpd_xxo, i_vcmppd_xxoi. ref. }
row. { unfold i_vcmpeqps_xo, i_vcmpeqps_xxo, i_vcmpps_xxoi. ref. }
apply Forall_nil. Qed.
Definition rips82 : list rip_entry :=
  [mkRipE "vcmpeqsd_xo/1" false (fun a r n e => i_vcmpeqsd_xo (r 0) (OMem a));
   mkRipE "vcmpeqss_xo/1" false (fun a r n e => i_vcmpeqss_xo (r 0) (OMem a));
   mkRipE "vcmpfalse_ospd_xo/1" false (fun a r n e => i_vcmpfalse_ospd_xo (r 0) (OMem a));
   mkRipE "vcmpfalse_osps_xo/1" false (fun a r n e => i_vcmpfalse_osps_xo (r 0) (OMem a));
   mkRipE "vcmpfalse_ossd_xo/1" false (fun a r n e => i_vcmpfalse_ossd_xo (r 0) (OMem a));
   mkRipE "vcmpfalse_osss_xo/1" false (fun a r n e => i_vcmpfalse_osss_xo (r 0) (OMem a));
   mkRipE "vcmpfalsepd_xo/1" false (fun a r n e => i_vcmpfalsepd_xo (r 0) (OMem a));
   mkRipE "vcmpfalseps_xo/1" false (fun a r n e => i_vcmpfalseps_xo (r 0) (OMem a));
   mkRipE "vcmpfalsesd_xo/1" false (fun a r n e => i_vcmpfalsesd_xo (r 0) (OMem a));
   mkRipE "vcmpfalsess_xo/1" false (fun a r n e => i_vcmpfalsess_xo (r 0) (OMem a));
   mkRipE "vcmpge_oqpd_xo/1" false (fun a r n e => i_vcmpge_oqpd_xo (r 0) (OMem a));
   mkRipE "vcmpge_oqps_xo/1" false (fun a r n e => i_vcmpge_oqps_xo (r 0) (OMem a));
   mkRipE "vcmpge_oqsd_xo/1" false (fun a r n e => i_vcmpge_oqsd_xo (r 0) (OMem a));
   mkRipE "vcmpge_oqss_xo/1" false (fun a r n e => i_vcmpge_oqss_xo (r 0) (OMem a));
   mkRipE "vcmpgepd_xo/1" false (fun a r n e => i_vcmpgepd_xo (r 0) (OMem a));
   mkRipE "vcmpgeps_xo/1" false (fun a r n e => i_vcmpgeps_xo (r 0) (OMem a));
   mkRipE "vcmpgesd_xo/1" false (fun a r n e => i_vcmpgesd_xo (r 0) (OMem a));
   mkRipE "vcmpgess_xo/1" false (fun a r n e => i_vcmpgess_xo (r 0) (OMem a));
   mkRipE "vcmpgt_oqpd_xo/1" false (fun a r n e => i_vcmpgt_oqpd_xo (r 0) (OMem a));
   mkRipE "vcmpgt_oqps_xo/1" false (fun a r n e => i_vcmpgt_oqps_xo (r 0) (OMem a));
   mkRipE "vcmpgt_oqsd_xo/1" false (fun a r n e => i_vcmpgt_oqsd_xo (r 0) (OMem a));
   mkRipE "vcmpgt_oqss_xo/1" false (fun a r n e => i_vcmpgt_oqss_xo (r 0) (OMem a));
   mkRipE "vcmpgtpd_xo/1" false (fun a r n e => i_vcmpgtpd_xo (r 0) (OMem a));
   mkRipE "vcmpgtps_xo/1" false (fun a r n e => i_vcmpgtps_xo (r 0) (OMem a));
   mkRipE "vcmpgtsd_xo/1" false (fun a r n e => i_vcmpgtsd_xo (r 0) (OMem a))].
Lemma rips82_ok : Forall entry_refers rips82.
Proof. unfold rips82. 
row. { unfold i_vcmpeqsd_xo, i_vcmpeqsd_xxo, i_vcmpsd_xxoi. ref. }
row. { unfold i_vcmpeqss_xo, i_vcmpeqss_xxo, i_vcmpss_xxoi. ref. }
row. { unfold i_vcmpfalse_ospd_xo, i_vcmpfalse_ospd_xxo, i_vcmppd_xxoi. ref. }
row. { unfold i_vcmpfalse_osps_xo, i_vcmpfalse_osps_xxo, i_vcmpps_xxoi. ref. }
row. { unfold i_vcmpfalse_ossd_xo, i_vcmpfalse_ossd_xxo, i_vcmpsd_xxoi. ref. }
row. { unfold i_vcmpfalse_osss_xo, i_vcmpfalse_osss_xxo, i_vcmpss_xxoi. ref. }
row. { unfold i_vcmpfalsepd_xo, i_vcmpfalsepd_xxo, i_vcmppd_xxoi. ref. }
row. { unfold i_vcmpfalseps_xo, i_vcmpfalseps_xxo, i_vcmpps_xxoi. ref. }
row. { unfold i_vcmpfalsesd_xo, i_vcmpfalsesd_xxo, i_vcmpsd_xxoi. ref. }
row. { unfold i_vcmpfalsess_xo, i_vcmpfalsess_xxo, i_vcmpss_xxoi. ref. }
row. { unfold i_vcmpge_oqpd_xo, i_vcmpge_oqpd_xxo, i_vcmppd_xxoi. ref. }
row. { unfold i_vcmpge_oqps_xo, i_vcmpge_oqps_xxo, i_vcmpps_xxoi. ref. }
row. { unfold i_vcmpge_oqsd_xo, i_vcmpge_oqsd_xxo, i_vcmpsd_xxoi. ref. }
row. { unfold i_vcmpge_oqss_xo, i_vcmpge_oqss_xxo, i_vcmpss_xxoi. ref. }
row. { unfold i_vcmpgepd_xo, i_vcmpgepd_xxo, i_vcmppd_xxoi. ref. }
row. { unfold i_vcmpgeps_xo, i_vcmpgeps_xxo, i_vcmpps_xxoi. ref. }
row. { unfold i_vcmpgesd_xo, i_vcmpgesd_xxo, i_vcmpsd_xxoi. ref. }
row. { unfold i_vcmpgess_xo, i_vcmpgess_xxo, i_vcmpss_xxoi. ref. }
row. { unfold i_vcmpgt_oqpd_xo, i_vcmpgt_oqpd_xxo, i_vcmppd_xxoi. ref. }
row. { unfold i_vcmpgt_oqps_xo, i_vcmpgt_oqps_xxo, i_vcmpps_xxoi. ref. }
row. { unfold i_vcmpgt_oqsd_xo, i_vcmpgt_oqsd_xxo, i_vcmpsd_xxoi. ref. }
row. { unfold i_vcmpgt_oqss_xo, i_vcmpgt_oqss_xxo, i_vcmpss_xxoi. ref. }
row. { unfold i_vcmpgtpd_xo, i_vcmpgtpd_xxo, i_vcmppd_xxoi. ref. }
row. { unfold i_vcmpgtps_xo, i_vcmpgtps_xxo, i_vcmpps_xxoi. ref. }
row. { unfold i_vcmpgtsd_xo, i_vcmpgtsd_xxo, i_vcmpsd_xxoi. ref. }
apply Forall_nil. Qed.
Definition rips83 : list rip_entry :=
  [mkRipE "vcmpgtss_xo/1" false (fun a r n e => i_vcmpgtss_xo (r 0) (OMem a));
   mkRipE "vcmple_oqpd_xo/1" false (fun a r n e => i_vcmple_oqpd_xo (r 0) (OMem a));
   mkRipE "vcmple_oqps_xo/1" false (fun a r n e => i_vcmple_oqps_xo (r 0) (OMem a));
   mkRipE "vcmple_oqsd_xo/1" false (fun a r n e => i_vcmple_oqsd_xo (r 0) (OMem a));
   mkRipE "vcmple_oqss_xo/1" false (fun a r n e => i_vcmple_oqss_xo (r 0) (OMem a));
   mkRipE "vcmplepd_xo/1" false (fun a r n e => i_vcmplepd_xo (r 0) (OMem a));
   mkRipE "vcmpleps_xo/1" false (fun a r n e => i_vcmpleps_xo (r 0) (OMem a));
   mkRipE "vcmplesd_xo/1" false (fun a r n e => i_vcmplesd_xo (r 0) (OMem a));
   mkRipE "vcmpless_xo/1" false (fun a r n e => i_vcmpless_xo (r 0) (OMem a));
   mkRipE "vcmplt_oqpd_xo/1" false (fun a r n e => i_vcmplt_oqpd_xo (r 0) (OMem a));
   mkRipE "vcmplt_oqps_xo/1" false (fun a r n e => i_vcmplt_oqps_xo (r 0) (OMem a));
   mkRipE "vcmplt_oqsd_xo/1" false (fun a r n e => i_vcmplt_oqsd_xo (r 0) (OMem a));
   mkRipE "vcmplt_oqss_xo/1" false (fun a r n e => i_vcmplt_oqss_xo (r 0) (OMem a));
   mkRipE "vcmpltpd_xo/1" false (fun a r n e => i_vcmpltpd_xo (r 0) (OMem a));
   mkRipE "vcmpltps_xo/1" false (fun a r n e => i_vcmpltps_xo (r 0) (OMem a));
   mkRipE "vcmpltsd_xo/1" false (fun a r n e => i_vcmpltsd_xo (r 0) (OMem a));
   mkRipE "vcmpltss_xo/1" false (fun a r n e => i_vcmpltss_xo (r 0) (OMem a));
   mkRipE "vcmpneq_oqpd_xo/1" false (fun a r n e => i_vcmpneq_oqpd_xo (r 0) (OMem a));
   mkRipE "vcmpneq_oqps_xo/1" false (fun a r n e => i_vcmpneq_oqps_xo (r 0) (OMem a));
   mkRipE "vcmpneq_oqsd_xo/1" false (fun a r n e => i_vcmpneq_oqsd_xo (r 0) (OMem a));
   mkRipE "vcmpneq_oqss_xo/1" false (fun a r n e => i_vcmpneq_oqss_xo (r 0) (OMem a));
   mkRipE "vcmpneq_ospd_xo/1" false (fun a r n e => i_vcmpneq_ospd_xo (r 0) (OMem a));
   mkRipE "vcmpneq_osps_xo/1" false (fun a r n e => i_vcmpneq_osps_xo (r 0) (OMem a));
   mkRipE "vcmpneq_ossd_xo/1" false (fun a r n e => i_vcmpneq_ossd_xo (r 0) (OMem a));
   mkRipE "vcmpneq_osss_xo/1" false (fun a r n e => i_vcmpneq_osss_xo (r 0) (OMem a))].
Lemma rips83_ok : Forall entry_refers rips83.
Proof. unfold rips83. 
row. { unfold i_vcmpgtss_xo, i_vcmpgtss_xxo, i_vcmpss_xxoi. ref. }
row. { unfold i_vcmple_oqpd_xo, i_vcmple_oqpd_xxo, i_vcmppd_xxoi. ref. }
row. { unfold i_vcmple_oqps_xo, i_vcmple_oqps_xxo, i_vcmpps_xxoi. ref. }
row. { unfold i_vcmple_oqsd_xo, i_vcmple_oqsd_xxo, i_vcmpsd_xxoi. ref. }
row. { unfold i_vcmple_oqss_xo, i_vcmple_oqss_xxo, i_vcmpss_xxoi. ref. }
row. { unfold i_vcmplepd_xo, i_vcmplepd_xxo, i_vcmppd_xxoi. ref. }
row. { unfold i_vcmpleps_xo, i_vcmpleps_xxo, i_vcmpps_xxoi. ref. }
row. { unfold i_vcmplesd_xo, i_vcmplesd_xxo, i_vcmpsd_xxoi. ref. }
row. { unfold i_vcmpless_xo, i_vcmpless_xxo, i_vcmpss_xxoi. ref. }
row. { unfold i_vcmplt_oqpd_xo, i_vcmplt_oqpd_xxo, i_vcmppd_xxoi. ref. }
row. { unfold i_vcmplt_oqps_xo, i_vcmplt_oqps_xxo, i_vcmpps_xxoi. ref. }
row. { unfold i_vcmplt_oqsd_xo, i_vcmplt_oqsd_xxo, i_vcmpsd_xxoi. ref. }
row. { unfold i_vcmplt_oqss_xo, i_vcmplt_oqss_xxo, i_vcmpss_xxoi. ref. }
row. { unfold i_vcmpltpd_xo, i_vcmpltpd_xxo, i_vcmppd_xxoi. ref. }
row. { unfold i_vcmpltps_xo, i_vcmpltps_xxo, i_vcmpps_xxoi. ref. }
row. { unfold i_vcmpltsd_xo, i_vcmpltsd_xxo, i_vcmpsd_xxoi. ref. }
row. { unfold i_vcmpltss_xo, i_vcmpltss_xxo, i_vcmpss_xxoi. ref. }
row. { unfold i_vcmpneq_oqpd_xo, i_vcmpneq_oqpd_xxo, i_vcmppd_xxoi. ref. }
row. { unfold i_vcmpneq_oqps_xo, i_vcmpneq_oqps_xxo, i_vcmpps_xxoi. ref. }
row. { unfold i_vcmpneq_oqsd_xo, i_vcmpneq_oqsd_xxo, i_vcmpsd_xxoi. ref. }
row. { unfold i_vcmpneq_oqss_xo, i_vcmpneq_oqss_xxo, i_vcmpss_xxoi. ref. }
row. { unfold i_vcmpneq_ospd_xo, i_vcmpneq_ospd_xxo, i_vcmppd_xxoi. ref. }
row. { unfold i_vcmpneq_osps_xo, i_vcmpneq_osps_xxo, i_vcmpps_xxoi. ref. }
row. { unfold i_vcmpneq_ossd_xo, i_vcmpneq_ossd_xxo, i_vcmpsd_xxoi. ref. }
row. { unfold i_vcmpneq_osss_xo, i_vcmpneq_osss_xxo, i_vcmpss_xxoi. ref. }
apply Forall_nil. Qed.
Definition rips84 : list rip_entry :=
  [mkRipE "vcmpneq_uspd_xo/1" false (fun a r n e => i_vcmpneq_uspd_xo (r 0) (OMem a));
   mkRipE "vcmpneq_usps_xo/1" false (fun a r n e => i_vcmpneq_usps_xo (r 0) (OMem a));
   mkRipE "vcmpneq_ussd_xo/1" false (fun a r n e => i_vcmpneq_ussd_xo (r 0) (OMem a));
   mkRipE "vcmpneq_usss_xo/1" false (fun a r n e => i_vcmpneq_usss_xo (r 0) (OMem a));
   mkRipE "vcmpneqpd_xo/1" false (fun a r n e => i_vcmpneqpd_xo (r 0) (OMem a));
   mkRipE "vcmpneqps_xo/1" false (fun a r n e => i_vcmpneqps_xo (r 0) (OMem a));
   mkRipE "vcmpneqsd_xo/1" false (fun a r n e => i_vcmpneqsd_xo (r 0) (OMem a));
   mkRipE "vcmpneqss_xo/1" false (fun a r n e => i_vcmpneqss_xo (r 0) (OMem a));
   mkRipE "vcmpnge_uqpd_xo/1" false (fun a r n e => i_vcmpnge_uqpd_xo (r 0) (OMem a));
   mkRipE "vcmpnge_uqps_xo/1" false (fun a r n e => i_vcmpnge_uqps_xo (r 0) (OMem a));
   mkRipE "vcmpnge_uqsd_xo/1" false (fun a r n e => i_vcmpnge_uqsd_xo (r 0) (OMem a));
   mkRipE "vcmpnge_uqss_xo/1" false (fun a r n e => i_vcmpnge_uqss_xo (r 0) (OMem a));
   mkRipE "vcmpngepd_xo/1" false (fun a r n e => i_vcmpngepd_xo (r 0) (OMem a));
   mkRipE "vcmpngeps_xo/1" false (fun a r n e => i_vcmpngeps_xo (r 0) (OMem a));
   mkRipE "vcmpngesd_xo/1" false (fun a r n e => i_vcmpngesd_xo (r 0) (OMem a));
   mkRipE "vcmpngess_xo/1" false (fun a r n e => i_vcmpngess_xo (r 0) (OMem a));
   mkRipE "vcmpngt_uqpd_xo/1" false (fun a r n e => i_vcmpngt_uqpd_xo (r 0) (OMem a));
   mkRipE "vcmpngt_uqps_xo/1" false (fun a r n e => i_vcmpngt_uqps_xo (r 0) (OMem a));
   mkRipE "vcmpngt_uqsd_xo/1" false (fun a r n e => i_vcmpngt_uqsd_xo (r 0) (OMem a));
   mkRipE "vcmpngt_uqss_xo/1" false (fun a r n e => i_vcmpngt_uqss_xo (r 0) (OMem a));
   mkRipE "vcmpngtpd_xo/1" false (fun a r n e => i_vcmpngtpd_xo (r 0) (OMem a));
   mkRipE "vcmpngtps_xo/1" false (fun a r n e => i_vcmpngtps_xo (r 0) (OMem a));
   mkRipE "vcmpngtsd_xo/1" false (fun a r n e => i_vcmpngtsd_xo (r 0) (OMem a));
   mkRipE "vcmpngtss_xo/1" false (fun a r n e => i_vcmpngtss_xo (r 0) (OMem a));
   mkRipE "vcmpnle_uqpd_xo/1" false (fun a r n e => i_vcmpnle_uqpd_xo (r 0) (OMem a))].
Lemma rips84_ok : Forall entry_refers rips84.
Proof. unfold rips84. 
row. { unfold i_vcmpneq_uspd_xo, i_vcmpneq_uspd_xxo, i_vcmppd_xxoi. ref. }
row. { unfold i_vcmpneq_usps_xo, i_vcmpneq_usps_xxo, i_vcmpps_xxoi. ref. }
row. { unfold i_vcmpneq_ussd_xo, i_vcmpneq_ussd_xxo, i_vcmpsd_xxoi. ref. }
row. { unfold i_vcmpneq_usss_xo, i_vcmpneq_usss_xxo, i_vcmpss_xxoi. ref. }
row. { unfold i_vcmpneqpd_xo, i_vcmpneqpd_xxo, i_vcmppd_xxoi. ref. }
row. { unfold i_vcmpneqps_xo, i_vcmpneqps_xxo, i_vcmpps_xxoi. ref. }
row. { unfold i_vcmpneqsd_xo, i_vcmpneqsd_xxo, i_vcmpsd_xxoi. ref. }
row. { unfold i_vcmpneqss_xo, i_vcmpneqss_xxo, i_vcmpss_xxoi. ref. }
row. { unfold i_vcmpnge_uqpd_xo, i_vcmpnge_uqpd_xxo, i_vcmppd_xxoi. ref. }
row. { unfold i_vcmpnge_uqps_xo, i_vcmpnge_uqps_xxo, i_vcmpps_xxoi. ref. }
row. { unfold i_vcmpnge_uqsd_xo, i_vcmpnge_uqsd_xxo, i_vcmpsd_xxoi. ref. }
row. { unfold i_vcmpnge_uqss_xo, i_vcmpnge_uqss_xxo, i_vcmpss_xxoi. ref. }
row. { unfold i_vcmpngepd_xo, i_vcmpngepd_xxo, i_vcmppd_xxoi. ref. }
row. { unfold i_vcmpngeps_xo, i_vcmpngeps_xxo, i_vcmpps_xxoi. ref. }
row. { unfold i_vcmpngesd_xo, i_vcmpngesd_xxo, i_vcmpsd_xxoi. ref. }
row. { unfold i_vcmpngess_xo, i_vcmpngess_xxo, i_vcmpss_xxoi. ref. }
row. { unfold i_vcmpngt_uqpd_xo, i_vcmpngt_uqpd_xxo, i_vcmppd_xxoi. ref. }
row. { unfold i_vcmpngt_uqps_xo, i_vcmpngt_uqps_xxo, i_vcmpps_xxoi. ref. }
row. { unfold i_vcmpngt_uqsd_xo, i_vcmpngt_uqsd_xxo, i_vcmpsd_xxoi. ref. }
row. { unfold i_vcmpngt_uqss_xo, i_vcmpngt_uqss_xxo, i_vcmpss_xxoi. ref. }
row. { unfold i_vcmpngtpd_xo, i_vcmpngtpd_xxo, i_vcmppd_xxoi. ref. }
row. { unfold i_vcmpngtps_xo, i_vcmpngtps_xxo, i_vcmpps_xxoi. ref. }
row. { unfold i_vcmpngtsd_xo, i_vcmpngtsd_xxo, i_vcmpsd_xxoi. ref. }
row. { unfold i_vcmpngtss_xo, i_vcmpngtss_xxo, i_vcmpss_xxoi. ref. }
row. { unfold i_vcmpnle_uqpd_xo, i_vcmpnle_uqpd_xxo, i_vcmppd_xxoi. ref. }
apply Forall_nil. Qed.
Definition rips85 : list rip_entry :=
  [mkRipE "vcmpnle_uqps_xo/1" false (fun a r n e => i_vcmpnle_uqps_xo (r 0) (OMem a));
   mkRipE "vcmpnle_uqsd_xo/1" false (fun a r n e => i_vcmpnle_uqsd_xo (r 0) (OMem a));
   mkRipE "vcmpnle_uqss_xo/1" false (fun a r n e => i_vcmpnle_uqss_xo (r 0) (OMem a));
   mkRipE "vcmpnlepd_xo/1" false (fun a r n e => i_vcmpnlepd_xo (r 0) (OMem a));
   mkRipE "vcmpnleps_xo/1" false (fun a r n e => i_vcmpnleps_xo (r 0) (OMem a));
   mkRipE "vcmpnlesd_xo/1" false (fun a r n e => i_vcmpnlesd_xo (r 0) (OMem a));
   mkRipE "vcmpnless_xo/1" false (fun a r n e => i_vcmpnless_xo (r 0) (OMem a));
   mkRipE "vcmpnlt_uqpd_xo/1" false (fun a r n e => i_vcmpnlt_uqpd_xo (r 0) (OMem a));
   mkRipE "vcmpnlt_uqps_xo/1" false (fun a r n e => i_vcmpnlt_uqps_xo (r 0) (OMem a));
   mkRipE "vcmpnlt_uqsd_xo/1" false (fun a r n e => i_vcmpnlt_uqsd_xo (r 0) (OMem a));
   mkRipE "vcmpnlt_uqss_xo/1" false (fun a r n e => i_vcmpnlt_uqss_xo (r 0) (OMem a));
   mkRipE "vcmpnltpd_xo/1" false (fun a r n e => i_vcmpnltpd_xo (r 0) (OMem a));
   mkRipE "vcmpnltps_xo/1" false (fun a r n e => i_vcmpnltps_xo (r 0) (OMem a));
   mkRipE "vcmpnltsd_xo/1" false (fun a r n e => i_vcmpnltsd_xo (r 0) (OMem a));
   mkRipE "vcmpnltss_xo/1" false (fun a r n e => i_vcmpnltss_xo (r 0) (OMem a));
   mkRipE "vcmpord_spd_xo/1" false (fun a r n e => i_vcmpord_spd_xo (r 0) (OMem a));
   mkRipE "vcmpord_sps_xo/1" false (fun a r n e => i_vcmpord_sps_xo (r 0) (OMem a));
   mkRipE "vcmpord_ssd_xo/1" false (fun a r n e => i_vcmpord_ssd_xo (r 0) (OMem a));
   mkRipE "vcmpord_sss_xo/1" false (fun a r n e => i_vcmpord_sss_xo (r 0) (OMem a));
   mkRipE "vcmpordpd_xo/1" false (fun a r n e => i_vcmpordpd_xo (r 0) (OMem a));
   mkRipE "vcmpordps_xo/1" false (fun a r n e => i_vcmpordps_xo (r 0) (OMem a));
   mkRipE "vcmpordsd_xo/1" false (fun a r n e => i_vcmpordsd_xo (r 0) (OMem a));
   mkRipE "vcmpordss_xo/1" false (fun a r n e => i_vcmpordss_xo (r 0) (OMem a));
   mkRipE "vcmppd_xoi/1" false (fun a r n e => i_vcmppd_xoi (r 0) (OMem a) (n 2));
   mkRipE "vcmpps_xoi/1" false (fun a r n e => i_vcmpps_xoi (r 0) (OMem a) (n 2))].
Lemma rips85_ok : Forall entry_refers rips85.
Proof. unfold rips85. 
row. { unfold i_vcmpnle_uqps_xo, i_vcmpnle_uqps_xxo, i_vcmpps_xxoi. ref. }
row. { unfold i_vcmpnle_uqsd_xo, i_vcmpnle_uqsd_xxo, i_vcmpsd_xxoi. ref. }
row. { unfold i_vcmpnle_uqss_xo, i_vcmpnle_uqss_xxo, i_vcmpss_xxoi. ref. }
row. { unfold i_vcmpnlepd_xo, i_vcmpnlepd_xxo, i_vcmppd_xxoi. ref. }
row. { unfold i_vcmpnleps_xo, i_vcmpnleps_xxo, i_vcmpps_xxoi. ref. }
row. { unfold i_vcmpnlesd_xo, i_vcmpnlesd_xxo, i_vcmpsd_xxoi. ref. }
row. { unfold i_vcmpnless_xo, i_vcmpnless_xxo, i_vcmpss_xxoi. ref. }
row. { unfold i_vcmpnlt_uqpd_xo, i_vcmpnlt_uqpd_xxo, i_vcmppd_xxoi. ref. }
row. { unfold i_vcmpnlt_uqps_xo, i_vcmpnlt_uqps_xxo, i_vcmpps_xxoi. ref. }
row. { unfold i_vcmpnlt_uqsd_xo, i_vcmpnlt_uqsd_xxo, i_vcmpsd_xxoi. ref. }
row. { unfold i_vcmpnlt_uqss_xo, i_vcmpnlt_uqss_xxo, i_vcmpss_xxoi. ref. }
row. { unfold i_vcmpnltpd_xo, i_vcmpnltpd_xxo, i_vcmppd_xxoi. ref. }
row. { unfold i_vcmpnltps_xo, i_vcmpnltps_xxo, i_vcmpps_xxoi. ref. }
row. { unfold i_vcmpnltsd_xo, i_vcmpnltsd_xxo, i_vcmpsd_xxoi. ref. }
row. { unfold i_vcmpnltss_xo, i_vcmpnltss_xxo, i_vcmpss_xxoi. ref. }
row. { unfold i_vcmpord_spd_xo, i_vcmpord_spd_xxo, i_vcmppd_xxoi. ref. }
row. { unfold i_vcmpord_sps_xo, i_vcmpord_sps_xxo, i_vcmpps_xxoi. ref. }
row. { unfold i_vcmpord_ssd_xo, i_vcmpord_ssd_xxo, i_vcmpsd_xxoi. ref. }
row. { unfold i_vcmpord_sss_xo, i_vcmpord_sss_xxo, i_vcmpss_xxoi. ref. }
row. { unfold i_vcmpordpd_xo, i_vcmpordpd_xxo, i_vcmppd_xxoi. ref. }
row. { unfold i_vcmpordps_xo, i_vcmpordps_xxo, i_vcmpps_xxoi. ref. }
row. { unfold i_vcmpordsd_xo, i_vcmpordsd_xxo, i_vcmpsd_xxoi. ref. }
row. { unfold i_vcmpordss_xo, i_vcmpordss_xxo, i_vcmpss_xxoi. ref. }
row. { unfold i_vcmppd_xoi, i_vcmppd_xxoi. ref. }
row. { unfold i_vcmpps_xoi, i_vcmpps_xxoi. ref. }
apply Forall_nil. Qed.
Definition rips86 : list rip_entry :=
  [mkRipE "vcmpsd_xoi/1" false (fun a r n e => i_vcmpsd_xoi (r 0) (OMem a) (n 2));
   mkRipE "vcmpss_xoi/1" false (fun a r n e => i_vcmpss_xoi (r 0) (OMem a) (n 2));
   mkRipE "vcmptrue_uspd_xo/1" false (fun a r n e => i_vcmptrue_uspd_xo (r 0) (OMem a));
   mkRipE "vcmptrue_usps_xo/1" false (fun a r n e => i_vcmptrue_usps_xo (r 0) (OMem a));
   mkRipE "vcmptrue_ussd_xo/1" false (fun a r n e => i_vcmptrue_ussd_xo (r 0) (OMem a));
   mkRipE "vcmptrue_usss_xo/1" false (fun a r n e => i_vcmptrue_usss_xo (r 0) (OMem a));
   mkRipE "vcmptruepd_xo/1" false (fun a r n e => i_vcmptruepd_xo (r 0) (OMem a));
   mkRipE "vcmptrueps_xo/1" false (fun a r n e => i_vcmptrueps_xo (r 0) (OMem a));
   mkRipE "vcmptruesd_xo/1" false (fun a r n e => i_vcmptruesd_xo (r 0) (OMem a));
   mkRipE "vcmptruess_xo/1" false (fun a r n e => i_vcmptruess_xo (r 0) (OMem a));
   mkRipE "vcmpunord_spd_xo/1" false (fun a r n e => i_vcmpunord_spd_xo (r 0) (OMem a));
   mkRipE "vcmpunord_sps_xo/1" false (fun a r n e => i_vcmpunord_sps_xo (r 0) (OMem a));
   mkRipE "vcmpunord_ssd_xo/1" false (fun a r n e => i_vcmpunord_ssd_xo (r 0) (OMem a));
   mkRipE "vcmpunord_sss_xo/1" false (fun a r n e => i_vcmpunord_sss_xo (r 0) (OMem a));
   mkRipE "vcmpunordpd_xo/1" false (fun a r n e => i_vcmpunordpd_xo (r 0) (OMem a));
   mkRipE "vcmpunordps_xo/1" false (fun a r n e => i_vcmpunordps_xo (r 0) (OMem a));
   mkRipE "vcmpunordsd_xo/1" false (fun a r n e => i_vcmpunordsd_xo (r 0) (OMem a));
   mkRipE "vcmpunordss_xo/1" false (fun a r n e => i_vcmpunordss_xo (r 0) (OMem a));
   mkRipE "vcvtsd2ss_xo/1" false (fun a r n e => i_vcvtsd2ss_xo (r 0) (OMem a));
   mkRipE "vcvtsi2sd_xo/1" false (fun a r n e => i_vcvtsi2sd_xo (r 0) (OMem a));
   mkRipE "vcvtsi2ss_xo/1" false (fun a r n e => i_vcvtsi2ss_xo (r 0) (OMem a));
   mkRipE "vcvtss2sd_xo/1" false (fun a r n e => i_vcvtss2sd_xo (r 0) (OMem a));
   mkRipE "vdppd_xoi/1" false (fun a r n e => i_vdppd_xoi (r 0) (OMem a) (n 2));
   mkRipE "vdpps_xoi/1" false (fun a r n e => i_vdpps_xoi (r 0) (OMem a) (n 2));
   mkRipE "vinsertps_xoi/1" false (fun a r n e => i_vinsertps_xoi (r 0) (OMem a) (n 2))].
Lemma rips86_ok : Forall entry_refers rips86.
Proof. unfold rips86. 
row. { unfold i_vcmpsd_xoi, i_vcmpsd_xxoi. ref. }
row. { unfold i_vcmpss_xoi, i_vcmpss_xxoi. ref. }
row. { unfold i_vcmptrue_uspd_xo, i_vcmptrue_uspd_xxo, i_vcmppd_xxoi. ref. }
row. { unfold i_vcmptrue_usps_xo, i_vcmptrue_usps_xxo, i_vcmpps_xxoi. ref. }
row. { unfold i_vcmptrue_ussd_xo, i_vcmptrue_ussd_xxo, i_vcmpsd_xxoi. ref. }
row. { unfold i_vcmptrue_usss_xo, i_vcmptrue_usss_xxo, i_vcmpss_xxoi. ref. }
row. { unfold i_vcmptruepd_xo, i_vcmptruepd_xxo, i_vcmppd_xxoi. ref. }
row. { unfold i_vcmptrueps_xo, i_vcmptrueps_xxo, i_vcmpps_xxoi. ref. }
row. { unfold i_vcmptruesd_xo, i_vcmptruesd_xxo, i_vcmpsd_xxoi. ref. }
row. { unfold i_vcmptruess_xo, i_vcmptruess_xxo, i_vcmpss_xxoi. ref. }
row. { unfold i_vcmpunord_spd_xo, i_vcmpunord_spd_xxo, i_vcmppd_xxoi. ref. }
row. { unfold i_vcmpunord_sps_xo, i_vcmpunord_sps_xxo, i_vcmpps_xxoi. ref. }
row. { unfold i_vcmpunord_ssd_xo, i_vcmpunord_ssd_xxo, i_vcmpsd_xxoi. ref. }
row. { unfold i_vcmpunord_sss_xo, i_vcmpunord_sss_xxo, i_vcmpss_xxoi. ref. }
row. { unfold i_vcmpunordpd_xo, i_vcmpunordpd_xxo, i_vcmppd_xxoi. ref. }
row. { unfold i_vcmpunordps_xo, i_vcmpunordps_xxo, i_vcmpps_xxoi. ref. }
row. { unfold i_vcmpunordsd_xo, i_vcmpunordsd_xxo, i_vcmpsd_xxoi. ref. }
row. { unfold i_vcmpunordss_xo, i_vcmpunordss_xxo, i_vcmpss_xxoi. ref. }
row. { unfold i_vcvtsd2ss_xo, i_vcvtsd2ss_xxo. ref. }
row. { unfold i_vcvtsi2sd_xo, i_vcvtsi2sd_xxo. ref. }
row. { unfold i_vcvtsi2ss_xo, i_vcvtsi2ss_xxo. ref. }
row. { unfold i_vcvtss2sd_xo, i_vcvtss2sd_xxo. ref. }
row. { unfold i_vdppd_xoi, i_vdppd_xxoi. ref. }
row. { unfold i_vdpps_xoi, i_vdpps_xxoi. ref. }
row. { unfold i_vinsertps_xoi, i_vinsertps_xxoi. ref. }
apply Forall_nil. Qed.
Definition rips87 : list rip_entry :=
  [mkRipE "vmpsadbw_xoi/1" false (fun a r n e => i_vmpsadbw_xoi (r 0) (OMem a) (n 2));
   mkRipE "vpackssdw_xo/1" false (fun a r n e => i_vpackssdw_xo (r 0) (OMem a));
   mkRipE "vpacksswb_xo/1" false (fun a r n e => i_vpacksswb_xo (r 0) (OMem a));
   mkRipE "vpackusdw_xo/1" false (fun a r n e => i_vpackusdw_xo (r 0) (OMem a));
   mkRipE "vpackuswb_xo/1" false (fun a r n e => i_vpackuswb_xo (r 0) (OMem a));
   mkRipE "vpaddb_xo/1" false (fun a r n e => i_vpaddb_xo (r 0) (OMem a));
   mkRipE "vpaddd_xo/1" false (fun a r n e => i_vpaddd_xo (r 0) (OMem a));
   mkRipE "vpaddq_xo/1" false (fun a r n e => i_vpaddq_xo (r 0) (OMem a));
   mkRipE "vpaddsb_xo/1" false (fun a r n e => i_vpaddsb_xo (r 0) (OMem a));
   mkRipE "vpaddsw_xo/1" false (fun a r n e => i_vpaddsw_xo (r 0) (OMem a));
   mkRipE "vpaddusb_xo/1" false (fun a r n e => i_vpaddusb_xo (r 0) (OMem a));
   mkRipE "vpaddusw_xo/1" false (fun a r n e => i_vpaddusw_xo (r 0) (OMem a));
   mkRipE "vpaddw_xo/1" false (fun a r n e => i_vpaddw_xo (r 0) (OMem a));
   mkRipE "vpalignr_xoi/1" false (fun a r n e => i_vpalignr_xoi (r 0) (OMem a) (n 2));
   mkRipE "vpand_xo/1" false (fun a r n e => i_vpand_xo (r 0) (OMem a));
   mkRipE "vpandn_xo/1" false (fun a r n e => i_vpandn_xo (r 0) (OMem a));
   mkRipE "vpavgb_xo/1" false (fun a r n e => i_vpavgb_xo (r 0) (OMem a));
   mkRipE "vpavgw_xo/1" false (fun a r n e => i_vpavgw_xo (r 0) (OMem a));
   mkRipE "vpblendd_xoi/1" false (fun a r n e => i_vpblendd_xoi (r 0) (OMem a) (n 2));
   mkRipE "vpblendvb_xox/1" false (fun a r n e => i_vpblendvb_xox (r 0) (OMem a) (r 2));
   mkRipE "vpblendw_xoi/1" false (fun a r n e => i_vpblendw_xoi (r 0) (OMem a) (n 2));
   mkRipE "vpclmulqdq_xoi/1" false (fun a r n e => i_vpclmulqdq_xoi (r 0) (OMem a) (n 2));
   mkRipE "vpcmpeqb_xo/1" false (fun a r n e => i_vpcmpeqb_xo (r 0) (OMem a));
   mkRipE "vpcmpeqd_xo/1" false (fun a r n e => i_vpcmpeqd_xo (r 0) (OMem a));
   mkRipE "vpcmpeqq_xo/1" false (fun a r n e => i_vpcmpeqq_xo (r 0) (OMem a))].
Lemma rips87_ok : Forall entry_refers rips87.
Proof. unfold rips87. 
row. { unfold i_vmpsadbw_xoi, i_vmpsadbw_xxoip. ref. }
row. { unfold i_vpackssdw_xo, i_vpackssdw_xxo. ref. }
row. { unfold i_vpacksswb_xo, i_vpacksswb_xxo. ref. }
row. { unfold i_vpackusdw_xo, i_vpackusdw_xxo. ref. }
row. { unfold i_vpackuswb_xo, i_vpackuswb_xxo. ref. }
row. { unfold i_vpaddb_xo, i_vpaddb_xxo. ref. }
row. { unfold i_vpaddd_xo, i_vpaddd_xxo. ref. }
row. { unfold i_vpaddq_xo, i_vpaddq_xxo. ref. }
row. { unfold i_vpaddsb_xo, i_vpaddsb_xxo. ref. }
row. { unfold i_vpaddsw_xo, i_vpaddsw_xxo. ref. }
row. { unfold i_vpaddusb_xo, i_vpaddusb_xxo. ref. }
row. { unfold i_vpaddusw_xo, i_vpaddusw_xxo. ref. }
row. { unfold i_vpaddw_xo, i_vpaddw_xxo. ref. }
row. { unfold i_vpalignr_xoi, i_vpalignr_xxoi. ref. }
row. { unfold i_vpand_xo, i_vpand_xxo. ref. }
row. { unfold i_vpandn_xo, i_vpandn_xxo. ref. }
row. { unfold i_vpavgb_xo, i_vpavgb_xxo. ref. }
row. { unfold i_vpavgw_xo, i_vpavgw_xxo. ref. }
row. { unfold i_vpblendd_xoi, i_vpblendd_xxoi. ref. }
row. { unfold i_vpblendvb_xox, i_vpblendvb_xxox. ref. }
row. { unfold i_vpblendw_xoi, i_vpblendw_xxoi. ref. }
row. { unfold i_vpclmulqdq_xoi, i_vpclmulqdq_xxoi. ref. }
row. { unfold i_vpcmpeqb_xo, i_vpcmpeqb_xxo. ref. }
row. { unfold i_vpcmpeqd_xo, i_vpcmpeqd_xxo. ref. }
row. { unfold i_vpcmpeqq_xo, i_vpcmpeqq_xxo. ref. }
apply Forall_nil. Qed.
Definition rips88 : list rip_entry :=
  [mkRipE "vpcmpeqw_xo/1" false (fun a r n e => i_vpcmpeqw_xo (r 0) (OMem a));
   mkRipE "vpcmpgtb_xo/1" false (fun a r n e => i_vpcmpgtb_xo (r 0) (OMem a));
   mkRipE "vpcmpgtd_xo/1" false (fun a r n e => i_vpcmpgtd_xo (r 0) (OMem a));
   mkRipE "vpcmpgtq_xo/1" false (fun a r n e => i_vpcmpgtq_xo (r 0) (OMem a));
   mkRipE "vpcmpgtw_xo/1" false (fun a r n e => i_vpcmpgtw_xo (r 0) (OMem a));
   mkRipE "vphaddd_xo/1" false (fun a r n e => i_vphaddd_xo (r 0) (OMem a));
   mkRipE "vphaddsw_xo/1" false (fun a r n e => i_vphaddsw_xo (r 0) (OMem a));
   mkRipE "vphaddw_xo/1" false (fun a r n e => i_vphaddw_xo (r 0) (OMem a));
   mkRipE "vphsubd_xo/1" false (fun a r n e => i_vphsubd_xo (r 0) (OMem a));
   mkRipE "vphsubsw_xo/1" false (fun a r n e => i_vphsubsw_xo (r 0) (OMem a));
   mkRipE "vphsubw_xo/1" false (fun a r n e => i_vphsubw_xo (r 0) (OMem a));
   mkRipE "vpinsrb_xoi/1" false (fun a r n e => i_vpinsrb_xoi (r 0) (OMem a) (n 2));
   mkRipE "vpinsrd_xoi/1" false (fun a r n e => i_vpinsrd_xoi (r 0) (OMem a) (n 2));
   mkRipE "vpinsrq_xoi/1" false (fun a r n e => i_vpinsrq_xoi (r 0) (OMem a) (n 2));
   mkRipE "vpinsrw_xoi/1" false (fun a r n e => i_vpinsrw_xoi (r 0) (OMem a) (n 2));
   mkRipE "vpmaddubsw_xo/1" false (fun a r n e => i_vpmaddubsw_xo (r 0) (OMem a));
   mkRipE "vpmaddwd_xo/1" false (fun a r n e => i_vpmaddwd_xo (r 0) (OMem a));
   mkRipE "vpmaxsb_xo/1" false (fun a r n e => i_vpmaxsb_xo (r 0) (OMem a));
   mkRipE "vpmaxsd_xo/1" false (fun a r n e => i_vpmaxsd_xo (r 0) (OMem a));
   mkRipE "vpmaxsw_xo/1" false (fun a r n e => i_vpmaxsw_xo (r 0) (OMem a));
   mkRipE "vpmaxub_xo/1" false (fun a r n e => i_vpmaxub_xo (r 0) (OMem a));
   mkRipE "vpmaxud_xo/1" false (fun a r n e => i_vpmaxud_xo (r 0) (OMem a));
   mkRipE "vpmaxuw_xo/1" false (fun a r n e => i_vpmaxuw_xo (r 0) (OMem a));
   mkRipE "vpminsb_xo/1" false (fun a r n e => i_vpminsb_xo (r 0) (OMem a));
   mkRipE "vpminsd_xo/1" false (fun a r n e => i_vpminsd_xo (r 0) (OMem a))].
Lemma rips88_ok : Forall entry_refers rips88.
Proof. unfold rips88. 
row. { unfold i_vpcmpeqw_xo, i_vpcmpeqw_xxo. ref. }
row. { unfold i_vpcmpgtb_xo, i_vpcmpgtb_xxo. ref. }
row. { unfold i_vpcmpgtd_xo, i_vpcmpgtd_xxo. ref. }
row. { unfold i_vpcmpgtq_xo, i_vpcmpgtq_xxo. ref. }
row. { unfold i_vpcmpgtw_xo, i_vpcmpgtw_xxo. ref. }
row. { unfold i_vphaddd_xo, i_vphaddd_xxo. ref. }
row. { unfold i_vphaddsw_xo, i_vphaddsw_xxo. ref. }
row. { unfold i_vphaddw_xo, i_vphaddw_xxo. ref. }
row. { unfold i_vphsubd_xo, i_vphsubd_xxo. ref. }
row. { unfold i_vphsubsw_xo, i_vphsubsw_xxo. ref. }
row. { unfold i_vphsubw_xo, i_vphsubw_xxo. ref. }
row. { unfold i_vpinsrb_xoi, i_vpinsrb_xxoi. ref. }
row. { unfold i_vpinsrd_xoi, i_vpinsrd_xxoi. ref. }
row. { unfold i_vpinsrq_xoi, i_vpinsrq_xxoi. ref. }
row. { unfold i_vpinsrw_xoi, i_vpinsrw_xxoi. ref. }
row. { unfold i_vpmaddubsw_xo, i_vpmaddubsw_xxo. ref. }
row. { unfold i_vpmaddwd_xo, i_vpmaddwd_xxo. ref. }
row. { unfold i_vpmaxsb_xo, i_vpmaxsb_xxo. ref. }
row. { unfold i_vpmaxsd_xo, i_vpmaxsd_xxo. ref. }
row. { unfold i_vpmaxsw_xo, i_vpmaxsw_xxo. ref. }
row. { unfold i_vpmaxub_xo, i_vpmaxub_xxo. ref. }
row. { unfold i_vpmaxud_xo, i_vpmaxud_xxo. ref. }
row. { unfold i_vpmaxuw_xo, i_vpmaxuw_xxo. ref. }
row. { unfold i_vpminsb_xo, i_vpminsb_xxo. ref. }
row. { unfold i_vpminsd_xo, i_vpminsd_xxo. ref. }
apply Forall_nil. Qed.
Definition rips89 : list rip_entry :=
  [mkRipE "vpminsw_xo/1" false (fun a r n e => i_vpminsw_xo (r 0) (OMem a));
   mkRipE "vpminub_xo/1" false (fun a r n e => i_vpminub_xo (r 0) (OMem a));
   mkRipE "vpminud_xo/1" false (fun a r n e => i_vpminud_xo (r 0) (OMem a));
   mkRipE "vpminuw_xo/1" false (fun a r n e => i_vpminuw_xo (r 0) (OMem a));
   mkRipE "vpmuldq_xo/1" false (fun a r n e => i_vpmuldq_xo (r 0) (OMem a));
   mkRipE "vpmulhrsw_xo/1" false (fun a r n e => i_vpmulhrsw_xo (r 0) (OMem a));
   mkRipE "vpmulhuw_xo/1" false (fun a r n e => i_vpmulhuw_xo (r 0) (OMem a));
   mkRipE "vpmulhw_xo/1" false (fun a r n e => i_vpmulhw_xo (r 0) (OMem a));
   mkRipE "vpmulld_xo/1" false (fun a r n e => i_vpmulld_xo (r 0) (OMem a));
   mkRipE "vpmullw_xo/1" false (fun a r n e => i_vpmullw_xo (r 0) (OMem a));
   mkRipE "vpmuludq_xo/1" false (fun a r n e => i_vpmuludq_xo (r 0) (OMem a));
   mkRipE "vpor_xo/1" false (fun a r n e => i_vpor_xo (r 0) (OMem a));
   mkRipE "vpsadbw_xo/1" false (fun a r n e => i_vpsadbw_xo (r 0) (OMem a));
   mkRipE "vpsignb_xo/1" false (fun a r n e => i_vpsignb_xo (r 0) (OMem a));
   mkRipE "vpsignd_xo/1" false (fun a r n e => i_vpsignd_xo (r 0) (OMem a));
   mkRipE "vpsignw_xo/1" false (fun a r n e => i_vpsignw_xo (r 0) (OMem a));
   mkRipE "vpslld_xo/1" false (fun a r n e => i_vpslld_xo (r 0) (OMem a));
   mkRipE "vpsllq_xo/1" false (fun a r n e => i_vpsllq_xo (r 0) (OMem a));
   mkRipE "vpsllw_xo/1" false (fun a r n e => i_vpsllw_xo (r 0) (OMem a));
   mkRipE "vpsrad_xo/1" false (fun a r n e => i_vpsrad_xo (r 0) (OMem a));
   mkRipE "vpsraw_xo/1" false (fun a r n e => i_vpsraw_xo (r 0) (OMem a));
   mkRipE "vpsrld_xo/1" false (fun a r n e => i_vpsrld_xo (r 0) (OMem a));
   mkRipE "vpsrlq_xo/1" false (fun a r n e => i_vpsrlq_xo (r 0) (OMem a));
   mkRipE "vpsrlw_xo/1" false (fun a r n e => i_vpsrlw_xo (r 0) (OMem a));
   mkRipE "vpsubb_xo/1" false (fun a r n e => i_vpsubb_xo (r 0) (OMem a))].
Lemma rips89_ok : Forall entry_refers rips89.
Proof. unfold rips89. 
row. { unfold i_vpminsw_xo, i_vpminsw_xxo. ref. }
row. { unfold i_vpminub_xo, i_vpminub_xxo. ref. }
row. { unfold i_vpminud_xo, i_vpminud_xxo. ref. }
row. { unfold i_vpminuw_xo, i_vpminuw_xxo. ref. }
row. { unfold i_vpmuldq_xo, i_vpmuldq_xxo. ref. }
row. { unfold i_vpmulhrsw_xo, i_vpmulhrsw_xxo. ref. }
row. { unfold i_vpmulhuw_xo, i_vpmulhuw_xxo. ref. }
row. { unfold i_vpmulhw_xo, i_vpmulhw_xxo. ref. }
row. { unfold i_vpmulld_xo, i_vpmulld_xxo. ref. }
row. { unfold i_vpmullw_xo, i_vpmullw_xxo. ref. }
row. { unfold i_vpmuludq_xo, i_vpmuludq_xxo. ref. }
row. { unfold i_vpor_xo, i_vpor_xxo. ref. }
row. { unfold i_vpsadbw_xo, i_vpsadbw_xxo. ref. }
row. { unfold i_vpsignb_xo, i_vpsignb_xxo. ref. }
row. { unfold i_vpsignd_xo, i_vpsignd_xxo. ref. }
row. { unfold i_vpsignw_xo, i_vpsignw_xxo. ref. }
row. { unfold i_vpslld_xo, i_vpslld_xxo. ref. }
row. { unfold i_vpsllq_xo, i_vpsllq_xxo. ref. }
row. { unfold i_vpsllw_xo, i_vpsllw_xxo. ref. }
row. { unfold i_vpsrad_xo, i_vpsrad_xxo. ref. }
row. { unfold i_vpsraw_xo, i_vpsraw_xxo. ref. }
row. { unfold i_vpsrld_xo, i_vpsrld_xxo. ref. }
row. { unfold i_vpsrlq_xo, i_vpsrlq_xxo. ref. }
row. { unfold i_vpsrlw_xo, i_vpsrlw_xxo. ref. }
row. { unfold i_vpsubb_xo, i_vpsubb_xxo. ref. }
apply Forall_nil. Qed.
Definition rips90 : list rip_entry :=
  [mkRipE "vpsubd_xo/1" false (fun a r n e => i_vpsubd_xo (r 0) (OMem a));
   mkRipE "vpsubq_xo/1" false (fun a r n e => i_vpsubq_xo (r 0) (OMem a));
   mkRipE "vpsubsb_xo/1" false (fun a r n e => i_vpsubsb_xo (r 0) (OMem a));
   mkRipE "vpsubsw_xo/1" false (fun a r n e => i_vpsubsw_xo (r 0) (OMem a));
   mkRipE "vpsubusb_xo/1" false (fun a r n e => i_vpsubusb_xo (r 0) (OMem a));
   mkRipE "vpsubusw_xo/1" false (fun a r n e => i_vpsubusw_xo (r 0) (OMem a));
   mkRipE "vpsubw_xo/1" false (fun a r n e => i_vpsubw_xo (r 0) (OMem a));
   mkRipE "vpunpckhbw_xo/1" false (fun a r n e => i_vpunpckhbw_xo (r 0) (OMem a));
   mkRipE "vpunpckhdq_xo/1" false (fun a r n e => i_vpunpckhdq_xo (r 0) (OMem a));
   mkRipE "vpunpckhqdq_xo/1" false (fun a r n e => i_vpunpckhqdq_xo (r 0) (OMem a));
   mkRipE "vpunpckhwd_xo/1" false (fun a r n e => i_vpunpckhwd_xo (r 0) (OMem a));
   mkRipE "vpunpcklbw_xo/1" false (fun a r n e => i_vpunpcklbw_xo (r 0) (OMem a));
   mkRipE "vpunpckldq_xo/1" false (fun a r n e => i_vpunpckldq_xo (r 0) (OMem a));
   mkRipE "vpunpcklqdq_xo/1" false (fun a r n e => i_vpunpcklqdq_xo (r 0) (OMem a));
   mkRipE "vpunpcklwd_xo/1" false (fun a r n e => i_vpunpcklwd_xo (r 0) (OMem a));
   mkRipE "vpxor_xo/1" false (fun a r n e => i_vpxor_xo (r 0) (OMem a));
   mkRipE "vrcpss_xo/1" false (fun a r n e => i_vrcpss_xo (r 0) (OMem a));
   mkRipE "vroundsd_xoi/1" false (fun a r n e => i_vroundsd_xoi (r 0) (OMem a) (n 2));
   mkRipE "vroundss_xoi/1" false (fun a r n e => i_vroundss_xoi (r 0) (OMem a) (n 2));
   mkRipE "vrsqrtss_xo/1" false (fun a r n e => i_vrsqrtss_xo (r 0) (OMem a));
   mkRipE "vshufpd_xoi/1" false (fun a r n e => i_vshufpd_xoi (r 0) (OMem a) (n 2));
   mkRipE "vshufps_xoi/1" false (fun a r n e => i_vshufps_xoi (r 0) (OMem a) (n 2));
   mkRipE "vsqrtsd_xo/1" false (fun a r n e => i_vsqrtsd_xo (r 0) (OMem a));
   mkRipE "vsqrtss_xo/1" false (fun a r n e => i_vsqrtss_xo (r 0) (OMem a));
   mkRipE "vunpckhpd_xo/1" false (fun a r n e => i_vunpckhpd_xo (r 0) (OMem a))].
Lemma rips90_ok : Forall entry_refers rips90.
Proof. unfold rips90. 
row. { unfold i_vpsubd_xo, i_vpsubd_xxo. ref. }
row. { unfold i_vpsubq_xo, i_vpsubq_xxo. ref. }
row. { unfold i_vpsubsb_xo, i_vpsubsb_xxo. ref. }
row. { unfold i_vpsubsw_xo, i_vpsubsw_xxo. ref. }
row. { unfold i_vpsubusb_xo, i_vpsubusb_xxo. ref. }
row. { unfold i_vpsubusw_xo, i_vpsubusw_xxo. ref. }
row. { unfold i_vpsubw_xo, i_vpsubw_xxo. ref. }
row. { unfold i_vpunpckhbw_xo, i_vpunpckhbw_xxo. ref. }
row. { unfold i_vpunpckhdq_xo, i_vpunpckhdq_xxo. ref. }
row. { unfold i_vpunpckhqdq_xo, i_vpunpckhqdq_xxo. ref. }
row. { unfold i_vpunpckhwd_xo, i_vpunpckhwd_xxo. ref. }
row. { unfold i_vpunpcklbw_xo, i_vpunpcklbw_xxo. ref. }
row. { unfold i_vpunpckldq_xo, i_vpunpckldq_xxo. ref. }
row. { unfold i_vpunpcklqdq_xo, i_vpunpcklqdq_xxo. ref. }
row. { unfold i_vpunpcklwd_xo, i_vpunpcklwd_xxo. ref. }
row. { unfold i_vpxor_xo, i_vpxor_xxo. ref. }
row. { unfold i_vrcpss_xo, i_vrcpss_xxo. ref. }
row. { unfold i_vroundsd_xoi, i_vroundsd_xxoi. ref. }
row. { unfold i_vroundss_xoi, i_vroundss_xxoi. ref. }
row. { unfold i_vrsqrtss_xo, i_vrsqrtss_xxo. ref. }
row. { unfold i_vshufpd_xoi, i_vshufpd_xxoi. ref. }
row. { unfold i_vshufps_xoi, i_vshufps_xxoi. ref. }
row. { unfold i_vsqrtsd_xo, i_vsqrtsd_xxo. ref. }
row. { unfold i_vsqrtss_xo, i_vsqrtss_xxo. ref. }
row. { unfold i_vunpckhpd_xo, i_vunpckhpd_xxo. ref. }
apply Forall_nil. Qed.
Definition rips91 : list rip_entry :=
  [mkRipE "vunpckhps_xo/1" false (fun a r n e => i_vunpckhps_xo (r 0) (OMem a));
   mkRipE "vunpcklpd_xo/1" false (fun a r n e => i_vunpcklpd_xo (r 0) (OMem a));
   mkRipE "vunpcklps_xo/1" false (fun a r n e => i_vunpcklps_xo (r 0) (OMem a));
   mkRipE "test_/0" false (fun a r n e => test_ (OMem a) (r 1));
   mkRipE "test_imm/0" false (fun a r n e => test_imm (OMem a) (n 1));
   mkRipE "imul_imm/1" false (fun a r n e => imul_imm (r 0) (OMem a) (n 2));
   mkRipE "push_op/0" false (fun a r n e => push_op (OMem a));
   mkRipE "pop_op/0" false (fun a r n e => pop_op (OMem a));
   mkRipE "mov_oo/0" false (fun a r n e => mov_oo (OMem a) (OReg (r 1)));
   mkRipE "mov_oo/1" false (fun a r n e => mov_oo (OReg (r 0)) (OMem a));
   mkRipE "mov_oi/0" false (fun a r n e => mov_oi (OMem a) (n 1));
   mkRipE "xchg/0" false (fun a r n e => xchg (OMem a) (OReg (r 1)));
   mkRipE "xchg/1" false (fun a r n e => xchg (OReg (r 0)) (OMem a));
   mkRipE "vmovd/0" false (fun a r n e => vmovd (OMem a) (OReg (r 1)) e);
   mkRipE "vmovd/1" false (fun a r n e => vmovd (OReg (r 0)) (OMem a) e);
   mkRipE "vmovw/0" false (fun a r n e => vmovw (OMem a) (OReg (r 1)) e);
   mkRipE "vmovw/1" false (fun a r n e => vmovw (OReg (r 0)) (OMem a) e);
   mkRipE "jmp_op/T_SHORT" false (fun a r n e => jmp_op (OMem a) T_SHORT);
   mkRipE "jmp_op/T_NEAR" false (fun a r n e => jmp_op (OMem a) T_NEAR);
   mkRipE "jmp_op/T_FAR" false (fun a r n e => jmp_op (OMem a) T_FAR);
   mkRipE "jmp_op/T_AUTO" false (fun a r n e => jmp_op (OMem a) T_AUTO);
   mkRipE "call_op/T_SHORT" false (fun a r n e => call_op (OMem a) T_SHORT);
   mkRipE "call_op/T_NEAR" false (fun a r n e => call_op (OMem a) T_NEAR);
   mkRipE "call_op/T_FAR" false (fun a r n e => call_op (OMem a) T_FAR);
   mkRipE "call_op/T_AUTO" false (fun a r n e => call_op (OMem a) T_AUTO)].
Lemma rips91_ok : Forall entry_refers rips91.
Proof. unfold rips91. 
row. { unfold i_vunpckhps_xo, i_vunpckhps_xxo. ref. }
row. { unfold i_vunpcklpd_xo, i_vunpcklpd_xxo. ref. }
row. { unfold i_vunpcklps_xo, i_vunpcklps_xxo. ref. }
row. { unfold test_. ref. }
row. { ref. }
row. { ref. }
row. { unfold push_op. ref. }
row. { unfold pop_op. ref. }
row. { ref. }
row. { ref. }
row. { ref. }
row. { ref. }
row. { ref. }
row. { unfold vmovd. ref. }
row. { unfold vmovd. ref. }
row. { unfold vmovw. ref. }
row. { unfold vmovw. ref. }
row. { unfold jmp_op. ref. }
row. { unfold jmp_op. ref. }
row. { unfold jmp_op. ref. }
row. { unfold jmp_op. ref. }
row. { unfold call_op. ref. }
row. { unfold call_op. ref. }
row. { unfold call_op. ref. }
row. { unfold call_op. ref. }
apply Forall_nil. Qed.
Definition rips92 : list rip_entry :=
  [mkRipE "mov_o_seg/ES" false (fun a r n e => mov_o_seg (OMem a) ES);
   mkRipE "mov_seg_o/ES" false (fun a r n e => mov_seg_o ES (OMem a));
   mkRipE "mov_o_seg/CS" false (fun a r n e => mov_o_seg (OMem a) CS);
   mkRipE "mov_seg_o/CS" false (fun a r n e => mov_seg_o CS (OMem a));
   mkRipE "mov_o_seg/SS" false (fun a r n e => mov_o_seg (OMem a) SS);
   mkRipE "mov_seg_o/SS" false (fun a r n e => mov_seg_o SS (OMem a));
   mkRipE "mov_o_seg/DS" false (fun a r n e => mov_o_seg (OMem a) DS);
   mkRipE "mov_seg_o/DS" false (fun a r n e => mov_seg_o DS (OMem a));
   mkRipE "mov_o_seg/FS" false (fun a r n e => mov_o_seg (OMem a) FS);
   mkRipE "mov_seg_o/FS" false (fun a r n e => mov_seg_o FS (OMem a));
   mkRipE "mov_o_seg/GS" false (fun a r n e => mov_o_seg (OMem a) GS);
   mkRipE "mov_seg_o/GS" false (fun a r n e => mov_seg_o GS (OMem a))].
Lemma rips92_ok : Forall entry_refers rips92.
Proof. unfold rips92. 
row. { ref. }
row. { ref. }
row. { ref. }
row. { ref. }
row. { ref. }
row. { ref. }
row. { ref. }
row. { ref. }
row. { ref. }
row. { ref. }
row. { ref. }
row. { ref. }
apply Forall_nil. Qed.

Definition rip_methods : list rip_entry :=
  rips0 ++ rips1 ++ rips2 ++ rips3 ++ rips4 ++ rips5 ++ rips6 ++ rips7 ++ rips8 ++ rips9 ++ rips10 ++ rips11 ++ rips12 ++ rips13 ++ rips14 ++ rips15 ++ rips16 ++ rips17 ++ rips18 ++ rips19 ++ rips20 ++ rips21 ++ rips22 ++ rips23 ++ rips24 ++ rips25 ++ rips26 ++ rips27 ++ rips28 ++ rips29 ++ rips30 ++ rips31 ++ rips32 ++ rips33 ++ rips34 ++ rips35 ++ rips36 ++ rips37 ++ rips38 ++ rips39 ++ rips40 ++ rips41 ++ rips42 ++ rips43 ++ rips44 ++ rips45 ++ rips46 ++ rips47 ++ rips48 ++ rips49 ++ rips50 ++ rips51 ++ rips52 ++ rips53 ++ rips54 ++ rips55 ++ rips56 ++ rips57 ++ rips58 ++ rips59 ++ rips60 ++ rips61 ++ rips62 ++ rips63 ++ rips64 ++ rips65 ++ rips66 ++ rips67 ++ rips68 ++ rips69 ++ rips70 ++ rips71 ++ rips72 ++ rips73 ++ rips74 ++ rips75 ++ rips76 ++ rips77 ++ rips78 ++ rips79 ++ rips80 ++ rips81 ++ rips82 ++ rips83 ++ rips84 ++ rips85 ++ rips86 ++ rips87 ++ rips88 ++ rips89 ++ rips90 ++ rips91 ++ rips92.
Lemma rip_methods_ok : Forall entry_refers rip_methods.
Proof. unfold rip_methods. repeat (apply Forall_app; split); auto using rips0_ok, rips1_ok, rips2_ok, rips3_ok, rips4_ok, rips5_ok, rips6_ok, rips7_ok, rips8_ok, rips9_ok, rips10_ok, rips11_ok, rips12_ok, rips13_ok, rips14_ok, rips15_ok, rips16_ok, rips17_ok, rips18_ok, rips19_ok, rips20_ok, rips21_ok, rips22_ok, rips23_ok, rips24_ok, rips25_ok, rips26_ok, rips27_ok, rips28_ok, rips29_ok, rips30_ok, rips31_ok, rips32_ok, rips33_ok, rips34_ok, rips35_ok, rips36_ok, rips37_ok, rips38_ok, rips39_ok, rips40_ok, rips41_ok, rips42_ok, rips43_ok, rips44_ok, rips45_ok, rips46_ok, rips47_ok, rips48_ok, rips49_ok, rips50_ok, rips51_ok, rips52_ok, rips53_ok, rips54_ok, rips55_ok, rips56_ok, rips57_ok, rips58_ok, rips59_ok, rips60_ok, rips61_ok, rips62_ok, rips63_ok, rips64_ok, rips65_ok, rips66_ok, rips67_ok, rips68_ok, rips69_ok, rips70_ok, rips71_ok, rips72_ok, rips73_ok, rips74_ok, rips75_ok, rips76_ok, rips77_ok, rips78_ok, rips79_ok, rips80_ok, rips81_ok, rips82_ok, rips83_ok, rips84_ok, rips85_ok, rips86_ok, rips87_ok, rips88_ok, rips89_ok, rips90_ok, rips91_ok, rips92_ok. Qed.
