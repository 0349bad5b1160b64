(* Generated by tools/legtab.py.  Methods for general registers with their instruction rows (written from
   the Intel SDM vol. 2), and the proof that each method implements its rows. *)
From Coq Require Import ZArith List Bool String Lia.
From Verif Require Import Base Types Emit Encode Mnemonic SpecX86 SpecAddr SpecIsa SpecInsn SpecLeg Wf EmitFacts LegFacts LegShapes LegGpr LegGpr2 LegGpr3.
Import ListNotations.
Open Scope Z_scope.
Ltac chk := vm_compute; reflexivity.
Ltac sizes := let b := fresh in let H := fresh in intros b H; cbn in H; repeat (destruct H as [H|H]; [rewrite <- H; reflexivity|]); destruct H.
Definition e_cmovo_ro := mkLE "cmovo"%string [tGv; tO] (ro i_cmovo_ro) [rorow NP 1 0x40 Sv Sv OsV I_none].
Lemma l_cmovo_ro : limplements e_cmovo_ro.
Proof. eapply cmov_entry; [intros; reflexivity|chk]. Qed.
Definition e_seto := mkLE "seto"%string [tOl [0; 8]] (f_o i_seto) [mkL NP 1 (0x90 + 0) true (Some 0) [rm_ KG true (Sn 8)] OsN I_none].
Lemma l_seto : limplements e_seto.
Proof. eapply setcc_entry; [intros; reflexivity|chk]. Qed.
Definition e_cmovno_ro := mkLE "cmovno"%string [tGv; tO] (ro i_cmovno_ro) [rorow NP 1 0x41 Sv Sv OsV I_none].
Lemma l_cmovno_ro : limplements e_cmovno_ro.
Proof. eapply cmov_entry; [intros; reflexivity|chk]. Qed.
Definition e_setno := mkLE "setno"%string [tOl [0; 8]] (f_o i_setno) [mkL NP 1 (0x90 + 1) true (Some 0) [rm_ KG true (Sn 8)] OsN I_none].
Lemma l_setno : limplements e_setno.
Proof. eapply setcc_entry; [intros; reflexivity|chk]. Qed.
Definition e_cmovb_ro := mkLE "cmovb"%string [tGv; tO] (ro i_cmovb_ro) [rorow NP 1 0x42 Sv Sv OsV I_none].
Lemma l_cmovb_ro : limplements e_cmovb_ro.
Proof. eapply cmov_entry; [intros; reflexivity|chk]. Qed.
Definition e_setb := mkLE "setb"%string [tOl [0; 8]] (f_o i_setb) [mkL NP 1 (0x90 + 2) true (Some 0) [rm_ KG true (Sn 8)] OsN I_none].
Lemma l_setb : limplements e_setb.
Proof. eapply setcc_entry; [intros; reflexivity|chk]. Qed.
Definition e_cmovc_ro := mkLE "cmovc"%string [tGv; tO] (ro i_cmovc_ro) [rorow NP 1 0x42 Sv Sv OsV I_none].
Lemma l_cmovc_ro : limplements e_cmovc_ro.
Proof. eapply cmov_entry; [intros; reflexivity|chk]. Qed.
Definition e_setc := mkLE "setc"%string [tOl [0; 8]] (f_o i_setc) [mkL NP 1 (0x90 + 2) true (Some 0) [rm_ KG true (Sn 8)] OsN I_none].
Lemma l_setc : limplements e_setc.
Proof. eapply setcc_entry; [intros; reflexivity|chk]. Qed.
Definition e_cmovnae_ro := mkLE "cmovnae"%string [tGv; tO] (ro i_cmovnae_ro) [rorow NP 1 0x42 Sv Sv OsV I_none].
Lemma l_cmovnae_ro : limplements e_cmovnae_ro.
Proof. eapply cmov_entry; [intros; reflexivity|chk]. Qed.
Definition e_setnae := mkLE "setnae"%string [tOl [0; 8]] (f_o i_setnae) [mkL NP 1 (0x90 + 2) true (Some 0) [rm_ KG true (Sn 8)] OsN I_none].
Lemma l_setnae : limplements e_setnae.
Proof. eapply setcc_entry; [intros; reflexivity|chk]. Qed.
Definition e_cmovae_ro := mkLE "cmovae"%string [tGv; tO] (ro i_cmovae_ro) [rorow NP 1 0x43 Sv Sv OsV I_none].
Lemma l_cmovae_ro : limplements e_cmovae_ro.
Proof. eapply cmov_entry; [intros; reflexivity|chk]. Qed.
Definition e_setae := mkLE "setae"%string [tOl [0; 8]] (f_o i_setae) [mkL NP 1 (0x90 + 3) true (Some 0) [rm_ KG true (Sn 8)] OsN I_none].
Lemma l_setae : limplements e_setae.
Proof. eapply setcc_entry; [intros; reflexivity|chk]. Qed.
Definition e_cmovnb_ro := mkLE "cmovnb"%string [tGv; tO] (ro i_cmovnb_ro) [rorow NP 1 0x43 Sv Sv OsV I_none].
Lemma l_cmovnb_ro : limplements e_cmovnb_ro.
Proof. eapply cmov_entry; [intros; reflexivity|chk]. Qed.
Definition e_setnb := mkLE "setnb"%string [tOl [0; 8]] (f_o i_setnb) [mkL NP 1 (0x90 + 3) true (Some 0) [rm_ KG true (Sn 8)] OsN I_none].
Lemma l_setnb : limplements e_setnb.
Proof. eapply setcc_entry; [intros; reflexivity|chk]. Qed.
Definition e_cmovnc_ro := mkLE "cmovnc"%string [tGv; tO] (ro i_cmovnc_ro) [rorow NP 1 0x43 Sv Sv OsV I_none].
Lemma l_cmovnc_ro : limplements e_cmovnc_ro.
Proof. eapply cmov_entry; [intros; reflexivity|chk]. Qed.
Definition e_setnc := mkLE "setnc"%string [tOl [0; 8]] (f_o i_setnc) [mkL NP 1 (0x90 + 3) true (Some 0) [rm_ KG true (Sn 8)] OsN I_none].
Lemma l_setnc : limplements e_setnc.
Proof. eapply setcc_entry; [intros; reflexivity|chk]. Qed.
Definition e_cmove_ro := mkLE "cmove"%string [tGv; tO] (ro i_cmove_ro) [rorow NP 1 0x44 Sv Sv OsV I_none].
Lemma l_cmove_ro : limplements e_cmove_ro.
Proof. eapply cmov_entry; [intros; reflexivity|chk]. Qed.
Definition e_sete := mkLE "sete"%string [tOl [0; 8]] (f_o i_sete) [mkL NP 1 (0x90 + 4) true (Some 0) [rm_ KG true (Sn 8)] OsN I_none].
Lemma l_sete : limplements e_sete.
Proof. eapply setcc_entry; [intros; reflexivity|chk]. Qed.
Definition e_cmovz_ro := mkLE "cmovz"%string [tGv; tO] (ro i_cmovz_ro) [rorow NP 1 0x44 Sv Sv OsV I_none].
Lemma l_cmovz_ro : limplements e_cmovz_ro.
Proof. eapply cmov_entry; [intros; reflexivity|chk]. Qed.
Definition e_setz := mkLE "setz"%string [tOl [0; 8]] (f_o i_setz) [mkL NP 1 (0x90 + 4) true (Some 0) [rm_ KG true (Sn 8)] OsN I_none].
Lemma l_setz : limplements e_setz.
Proof. eapply setcc_entry; [intros; reflexivity|chk]. Qed.
Definition e_cmovne_ro := mkLE "cmovne"%string [tGv; tO] (ro i_cmovne_ro) [rorow NP 1 0x45 Sv Sv OsV I_none].
Lemma l_cmovne_ro : limplements e_cmovne_ro.
Proof. eapply cmov_entry; [intros; reflexivity|chk]. Qed.
Definition e_setne := mkLE "setne"%string [tOl [0; 8]] (f_o i_setne) [mkL NP 1 (0x90 + 5) true (Some 0) [rm_ KG true (Sn 8)] OsN I_none].
Lemma l_setne : limplements e_setne.
Proof. eapply setcc_entry; [intros; reflexivity|chk]. Qed.
Definition e_cmovnz_ro := mkLE "cmovnz"%string [tGv; tO] (ro i_cmovnz_ro) [rorow NP 1 0x45 Sv Sv OsV I_none].
Lemma l_cmovnz_ro : limplements e_cmovnz_ro.
Proof. eapply cmov_entry; [intros; reflexivity|chk]. Qed.
Definition e_setnz := mkLE "setnz"%string [tOl [0; 8]] (f_o i_setnz) [mkL NP 1 (0x90 + 5) true (Some 0) [rm_ KG true (Sn 8)] OsN I_none].
Lemma l_setnz : limplements e_setnz.
Proof. eapply setcc_entry; [intros; reflexivity|chk]. Qed.
Definition e_cmovbe_ro := mkLE "cmovbe"%string [tGv; tO] (ro i_cmovbe_ro) [rorow NP 1 0x46 Sv Sv OsV I_none].
Lemma l_cmovbe_ro : limplements e_cmovbe_ro.
Proof. eapply cmov_entry; [intros; reflexivity|chk]. Qed.
Definition e_setbe := mkLE "setbe"%string [tOl [0; 8]] (f_o i_setbe) [mkL NP 1 (0x90 + 6) true (Some 0) [rm_ KG true (Sn 8)] OsN I_none].
Lemma l_setbe : limplements e_setbe.
Proof. eapply setcc_entry; [intros; reflexivity|chk]. Qed.
Definition e_cmovna_ro := mkLE "cmovna"%string [tGv; tO] (ro i_cmovna_ro) [rorow NP 1 0x46 Sv Sv OsV I_none].
Lemma l_cmovna_ro : limplements e_cmovna_ro.
Proof. eapply cmov_entry; [intros; reflexivity|chk]. Qed.
Definition e_setna := mkLE "setna"%string [tOl [0; 8]] (f_o i_setna) [mkL NP 1 (0x90 + 6) true (Some 0) [rm_ KG true (Sn 8)] OsN I_none].
Lemma l_setna : limplements e_setna.
Proof. eapply setcc_entry; [intros; reflexivity|chk]. Qed.
Definition e_cmova_ro := mkLE "cmova"%string [tGv; tO] (ro i_cmova_ro) [rorow NP 1 0x47 Sv Sv OsV I_none].
Lemma l_cmova_ro : limplements e_cmova_ro.
Proof. eapply cmov_entry; [intros; reflexivity|chk]. Qed.
Definition e_seta := mkLE "seta"%string [tOl [0; 8]] (f_o i_seta) [mkL NP 1 (0x90 + 7) true (Some 0) [rm_ KG true (Sn 8)] OsN I_none].
Lemma l_seta : limplements e_seta.
Proof. eapply setcc_entry; [intros; reflexivity|chk]. Qed.
Definition e_cmovnbe_ro := mkLE "cmovnbe"%string [tGv; tO] (ro i_cmovnbe_ro) [rorow NP 1 0x47 Sv Sv OsV I_none].
Lemma l_cmovnbe_ro : limplements e_cmovnbe_ro.
Proof. eapply cmov_entry; [intros; reflexivity|chk]. Qed.
Definition e_setnbe := mkLE "setnbe"%string [tOl [0; 8]] (f_o i_setnbe) [mkL NP 1 (0x90 + 7) true (Some 0) [rm_ KG true (Sn 8)] OsN I_none].
Lemma l_setnbe : limplements e_setnbe.
Proof. eapply setcc_entry; [intros; reflexivity|chk]. Qed.
Definition e_cmovs_ro := mkLE "cmovs"%string [tGv; tO] (ro i_cmovs_ro) [rorow NP 1 0x48 Sv Sv OsV I_none].
Lemma l_cmovs_ro : limplements e_cmovs_ro.
Proof. eapply cmov_entry; [intros; reflexivity|chk]. Qed.
Definition e_sets := mkLE "sets"%string [tOl [0; 8]] (f_o i_sets) [mkL NP 1 (0x90 + 8) true (Some 0) [rm_ KG true (Sn 8)] OsN I_none].
Lemma l_sets : limplements e_sets.
Proof. eapply setcc_entry; [intros; reflexivity|chk]. Qed.
Definition e_cmovns_ro := mkLE "cmovns"%string [tGv; tO] (ro i_cmovns_ro) [rorow NP 1 0x49 Sv Sv OsV I_none].
Lemma l_cmovns_ro : limplements e_cmovns_ro.
Proof. eapply cmov_entry; [intros; reflexivity|chk]. Qed.
Definition e_setns := mkLE "setns"%string [tOl [0; 8]] (f_o i_setns) [mkL NP 1 (0x90 + 9) true (Some 0) [rm_ KG true (Sn 8)] OsN I_none].
Lemma l_setns : limplements e_setns.
Proof. eapply setcc_entry; [intros; reflexivity|chk]. Qed.
Definition e_cmovp_ro := mkLE "cmovp"%string [tGv; tO] (ro i_cmovp_ro) [rorow NP 1 0x4A Sv Sv OsV I_none].
Lemma l_cmovp_ro : limplements e_cmovp_ro.
Proof. eapply cmov_entry; [intros; reflexivity|chk]. Qed.
Definition e_setp := mkLE "setp"%string [tOl [0; 8]] (f_o i_setp) [mkL NP 1 (0x90 + 10) true (Some 0) [rm_ KG true (Sn 8)] OsN I_none].
Lemma l_setp : limplements e_setp.
Proof. eapply setcc_entry; [intros; reflexivity|chk]. Qed.
Definition e_cmovpe_ro := mkLE "cmovpe"%string [tGv; tO] (ro i_cmovpe_ro) [rorow NP 1 0x4A Sv Sv OsV I_none].
Lemma l_cmovpe_ro : limplements e_cmovpe_ro.
Proof. eapply cmov_entry; [intros; reflexivity|chk]. Qed.
Definition e_setpe := mkLE "setpe"%string [tOl [0; 8]] (f_o i_setpe) [mkL NP 1 (0x90 + 10) true (Some 0) [rm_ KG true (Sn 8)] OsN I_none].
Lemma l_setpe : limplements e_setpe.
Proof. eapply setcc_entry; [intros; reflexivity|chk]. Qed.
Definition e_cmovnp_ro := mkLE "cmovnp"%string [tGv; tO] (ro i_cmovnp_ro) [rorow NP 1 0x4B Sv Sv OsV I_none].
Lemma l_cmovnp_ro : limplements e_cmovnp_ro.
Proof. eapply cmov_entry; [intros; reflexivity|chk]. Qed.
Definition e_setnp := mkLE "setnp"%string [tOl [0; 8]] (f_o i_setnp) [mkL NP 1 (0x90 + 11) true (Some 0) [rm_ KG true (Sn 8)] OsN I_none].
Lemma l_setnp : limplements e_setnp.
Proof. eapply setcc_entry; [intros; reflexivity|chk]. Qed.
Definition e_cmovpo_ro := mkLE "cmovpo"%string [tGv; tO] (ro i_cmovpo_ro) [rorow NP 1 0x4B Sv Sv OsV I_none].
Lemma l_cmovpo_ro : limplements e_cmovpo_ro.
Proof. eapply cmov_entry; [intros; reflexivity|chk]. Qed.
Definition e_setpo := mkLE "setpo"%string [tOl [0; 8]] (f_o i_setpo) [mkL NP 1 (0x90 + 11) true (Some 0) [rm_ KG true (Sn 8)] OsN I_none].
Lemma l_setpo : limplements e_setpo.
Proof. eapply setcc_entry; [intros; reflexivity|chk]. Qed.
Definition e_cmovl_ro := mkLE "cmovl"%string [tGv; tO] (ro i_cmovl_ro) [rorow NP 1 0x4C Sv Sv OsV I_none].
Lemma l_cmovl_ro : limplements e_cmovl_ro.
Proof. eapply cmov_entry; [intros; reflexivity|chk]. Qed.
Definition e_setl := mkLE "setl"%string [tOl [0; 8]] (f_o i_setl) [mkL NP 1 (0x90 + 12) true (Some 0) [rm_ KG true (Sn 8)] OsN I_none].
Lemma l_setl : limplements e_setl.
Proof. eapply setcc_entry; [intros; reflexivity|chk]. Qed.
Definition e_cmovnge_ro := mkLE "cmovnge"%string [tGv; tO] (ro i_cmovnge_ro) [rorow NP 1 0x4C Sv Sv OsV I_none].
Lemma l_cmovnge_ro : limplements e_cmovnge_ro.
Proof. eapply cmov_entry; [intros; reflexivity|chk]. Qed.
Definition e_setnge := mkLE "setnge"%string [tOl [0; 8]] (f_o i_setnge) [mkL NP 1 (0x90 + 12) true (Some 0) [rm_ KG true (Sn 8)] OsN I_none].
Lemma l_setnge : limplements e_setnge.
Proof. eapply setcc_entry; [intros; reflexivity|chk]. Qed.
Definition e_cmovge_ro := mkLE "cmovge"%string [tGv; tO] (ro i_cmovge_ro) [rorow NP 1 0x4D Sv Sv OsV I_none].
Lemma l_cmovge_ro : limplements e_cmovge_ro.
Proof. eapply cmov_entry; [intros; reflexivity|chk]. Qed.
Definition e_setge := mkLE "setge"%string [tOl [0; 8]] (f_o i_setge) [mkL NP 1 (0x90 + 13) true (Some 0) [rm_ KG true (Sn 8)] OsN I_none].
Lemma l_setge : limplements e_setge.
Proof. eapply setcc_entry; [intros; reflexivity|chk]. Qed.
Definition e_cmovnl_ro := mkLE "cmovnl"%string [tGv; tO] (ro i_cmovnl_ro) [rorow NP 1 0x4D Sv Sv OsV I_none].
Lemma l_cmovnl_ro : limplements e_cmovnl_ro.
Proof. eapply cmov_entry; [intros; reflexivity|chk]. Qed.
Definition e_setnl := mkLE "setnl"%string [tOl [0; 8]] (f_o i_setnl) [mkL NP 1 (0x90 + 13) true (Some 0) [rm_ KG true (Sn 8)] OsN I_none].
Lemma l_setnl : limplements e_setnl.
Proof. eapply setcc_entry; [intros; reflexivity|chk]. Qed.
Definition e_cmovle_ro := mkLE "cmovle"%string [tGv; tO] (ro i_cmovle_ro) [rorow NP 1 0x4E Sv Sv OsV I_none].
Lemma l_cmovle_ro : limplements e_cmovle_ro.
Proof. eapply cmov_entry; [intros; reflexivity|chk]. Qed.
Definition e_setle := mkLE "setle"%string [tOl [0; 8]] (f_o i_setle) [mkL NP 1 (0x90 + 14) true (Some 0) [rm_ KG true (Sn 8)] OsN I_none].
Lemma l_setle : limplements e_setle.
Proof. eapply setcc_entry; [intros; reflexivity|chk]. Qed.
Definition e_cmovng_ro := mkLE "cmovng"%string [tGv; tO] (ro i_cmovng_ro) [rorow NP 1 0x4E Sv Sv OsV I_none].
Lemma l_cmovng_ro : limplements e_cmovng_ro.
Proof. eapply cmov_entry; [intros; reflexivity|chk]. Qed.
Definition e_setng := mkLE "setng"%string [tOl [0; 8]] (f_o i_setng) [mkL NP 1 (0x90 + 14) true (Some 0) [rm_ KG true (Sn 8)] OsN I_none].
Lemma l_setng : limplements e_setng.
Proof. eapply setcc_entry; [intros; reflexivity|chk]. Qed.
Definition e_cmovg_ro := mkLE "cmovg"%string [tGv; tO] (ro i_cmovg_ro) [rorow NP 1 0x4F Sv Sv OsV I_none].
Lemma l_cmovg_ro : limplements e_cmovg_ro.
Proof. eapply cmov_entry; [intros; reflexivity|chk]. Qed.
Definition e_setg := mkLE "setg"%string [tOl [0; 8]] (f_o i_setg) [mkL NP 1 (0x90 + 15) true (Some 0) [rm_ KG true (Sn 8)] OsN I_none].
Lemma l_setg : limplements e_setg.
Proof. eapply setcc_entry; [intros; reflexivity|chk]. Qed.
Definition e_cmovnle_ro := mkLE "cmovnle"%string [tGv; tO] (ro i_cmovnle_ro) [rorow NP 1 0x4F Sv Sv OsV I_none].
Lemma l_cmovnle_ro : limplements e_cmovnle_ro.
Proof. eapply cmov_entry; [intros; reflexivity|chk]. Qed.
Definition e_setnle := mkLE "setnle"%string [tOl [0; 8]] (f_o i_setnle) [mkL NP 1 (0x90 + 15) true (Some 0) [rm_ KG true (Sn 8)] OsN I_none].
Lemma l_setnle : limplements e_setnle.
Proof. eapply setcc_entry; [intros; reflexivity|chk]. Qed.
Definition e_bsf := mkLE "bsf"%string [tGv; tO] (ro i_bsf) [rorow NP 1 0xBC Sv Sv OsV I_none].
Lemma l_bsf : limplements e_bsf.
Proof. eapply cmov_entry; [intros; reflexivity|chk]. Qed.
Definition e_bsr := mkLE "bsr"%string [tGv; tO] (ro i_bsr) [rorow NP 1 0xBD Sv Sv OsV I_none].
Lemma l_bsr : limplements e_bsr.
Proof. eapply cmov_entry; [intros; reflexivity|chk]. Qed.
Definition e_imul_ro := mkLE "imul"%string [tGl; tOl all_sizes] (ro i_imul_ro) [rorow NP 1 0xAF Sv Sv OsV I_none].
Lemma l_imul_ro : limplements e_imul_ro.
Proof. eapply imul_entry; [intros; reflexivity|reflexivity|chk]. Qed.
Definition e_bt_or := mkLE "bt"%string [tO; tGv] (or_ i_bt_or) [orrow NP 1 0xA3 Sv Sv OsV I_none].
Lemma l_bt_or : limplements e_bt_or.
Proof. eapply bt_entry; [intros; reflexivity|chk]. Qed.
Definition e_bts_or := mkLE "bts"%string [tO; tGv] (or_ i_bts_or) [orrow NP 1 0xAB Sv Sv OsV I_none].
Lemma l_bts_or : limplements e_bts_or.
Proof. eapply bt_entry; [intros; reflexivity|chk]. Qed.
Definition e_btr_or := mkLE "btr"%string [tO; tGv] (or_ i_btr_or) [orrow NP 1 0xB3 Sv Sv OsV I_none].
Lemma l_btr_or : limplements e_btr_or.
Proof. eapply bt_entry; [intros; reflexivity|chk]. Qed.
Definition e_btc_or := mkLE "btc"%string [tO; tGv] (or_ i_btc_or) [orrow NP 1 0xBB Sv Sv OsV I_none].
Lemma l_btc_or : limplements e_btc_or.
Proof. eapply bt_entry; [intros; reflexivity|chk]. Qed.
Definition e_popcnt := mkLE "popcnt"%string [tG; tO] (ro i_popcnt) [rorow PF3 1 0xB8 Sv Sv OsV I_none].
Lemma l_popcnt : limplements e_popcnt.
Proof. eapply cnt_entry; [intros; reflexivity|chk]. Qed.
Definition e_lzcnt := mkLE "lzcnt"%string [tGl; tOl all_sizes] (ro i_lzcnt) [rorow PF3 1 0xBD Sv Sv OsV I_none].
Lemma l_lzcnt : limplements e_lzcnt.
Proof. eapply cntl_entry; [intros; reflexivity|reflexivity|chk]. Qed.
Definition e_tzcnt := mkLE "tzcnt"%string [tGl; tOl all_sizes] (ro i_tzcnt) [rorow PF3 1 0xBC Sv Sv OsV I_none].
Lemma l_tzcnt : limplements e_tzcnt.
Proof. eapply cntl_entry; [intros; reflexivity|reflexivity|chk]. Qed.
Definition e_movzx := mkLE "movzx"%string [tG; tOp [8; 16]] (ro i_movzx) [rorow NP 1 0xB6 Sv (Sn 8) OsV I_none; rorow NP 1 (0xB6 + 1) Sv (Sn 16) OsV I_none].
Lemma l_movzx : limplements e_movzx.
Proof. eapply movxx_entry; [intros; reflexivity|chk|chk]. Qed.
Definition e_movsx := mkLE "movsx"%string [tG; tOp [8; 16]] (ro i_movsx) [rorow NP 1 0xBE Sv (Sn 8) OsV I_none; rorow NP 1 (0xBE + 1) Sv (Sn 16) OsV I_none].
Lemma l_movsx : limplements e_movsx.
Proof. eapply movxx_entry; [intros; reflexivity|chk|chk]. Qed.
Definition e_movsxd := mkLE "movsxd"%string [tR 64; tE] (ro i_movsxd) [mkL NP 0 0x63 true None [r_ KG (Sn 64); rm_ KG true (Sn 32)] Os1 I_none].
Lemma l_movsxd : limplements e_movsxd.
Proof. eapply movsxd_entry; intros; reflexivity. Qed.
Definition e_xadd := mkLE "xadd"%string [tE; tG] (or_ i_xadd) [orrow NP 1 0xC0 Sv Sv OsB I_none].
Lemma l_xadd : limplements e_xadd.
Proof. eapply (brow_entry _ _ tE NP 1 0xC0 T_0F (0xC0 ||| 0) (0xC0 ||| 1)); [intros op r; unfold i_xadd; destruct (isBit r 8); reflexivity|reflexivity|chk|chk]. Qed.
Definition e_cmpxchg := mkLE "cmpxchg"%string [tE; tG] (or_ i_cmpxchg) [orrow NP 1 0xB0 Sv Sv OsB I_none].
Lemma l_cmpxchg : limplements e_cmpxchg.
Proof. eapply (brow_entry _ _ tE NP 1 0xB0 T_0F (0xB0 ||| 0) (0xB0 ||| 1)); [intros op r; unfold i_cmpxchg; destruct (isBit r 8); reflexivity|reflexivity|chk|chk]. Qed.
Definition e_test_or := mkLE "test"%string [tO; tG] (or_ test_) [orrow NP 0 0x84 Sv Sv OsB I_none].
Lemma l_test_or : limplements e_test_or.
Proof. eapply test_entry; [intros; reflexivity|chk]. Qed.
Definition e_add_oo := mkLE "add"%string [tO; tE] (f_oo i_add_oo) (mr_rows 0x00).
Lemma l_add_oo : limplements e_add_oo.
Proof. eapply romr_entry; [intros; reflexivity|chk|chk]. Qed.
Definition e_add_oi := mkLE "add"%string [tOp [0; 8; 16; 32; 64]] (f_oi i_add_oi) (alu_rows 0).
Lemma l_add_oi : limplements e_add_oi.
Proof. eapply alu_entry; [intros; reflexivity|lia|reflexivity|chk|chk|chk]. Qed.
Definition e_or__oo := mkLE "or"%string [tO; tE] (f_oo i_or__oo) (mr_rows 0x08).
Lemma l_or__oo : limplements e_or__oo.
Proof. eapply romr_entry; [intros; reflexivity|chk|chk]. Qed.
Definition e_or__oi := mkLE "or"%string [tOp [0; 8; 16; 32; 64]] (f_oi i_or__oi) (alu_rows 1).
Lemma l_or__oi : limplements e_or__oi.
Proof. eapply alu_entry; [intros; reflexivity|lia|reflexivity|chk|chk|chk]. Qed.
Definition e_adc_oo := mkLE "adc"%string [tO; tE] (f_oo i_adc_oo) (mr_rows 0x10).
Lemma l_adc_oo : limplements e_adc_oo.
Proof. eapply romr_entry; [intros; reflexivity|chk|chk]. Qed.
Definition e_adc_oi := mkLE "adc"%string [tOp [0; 8; 16; 32; 64]] (f_oi i_adc_oi) (alu_rows 2).
Lemma l_adc_oi : limplements e_adc_oi.
Proof. eapply alu_entry; [intros; reflexivity|lia|reflexivity|chk|chk|chk]. Qed.
Definition e_sbb_oo := mkLE "sbb"%string [tO; tE] (f_oo i_sbb_oo) (mr_rows 0x18).
Lemma l_sbb_oo : limplements e_sbb_oo.
Proof. eapply romr_entry; [intros; reflexivity|chk|chk]. Qed.
Definition e_sbb_oi := mkLE "sbb"%string [tOp [0; 8; 16; 32; 64]] (f_oi i_sbb_oi) (alu_rows 3).
Lemma l_sbb_oi : limplements e_sbb_oi.
Proof. eapply alu_entry; [intros; reflexivity|lia|reflexivity|chk|chk|chk]. Qed.
Definition e_and__oo := mkLE "and"%string [tO; tE] (f_oo i_and__oo) (mr_rows 0x20).
Lemma l_and__oo : limplements e_and__oo.
Proof. eapply romr_entry; [intros; reflexivity|chk|chk]. Qed.
Definition e_and__oi := mkLE "and"%string [tOp [0; 8; 16; 32; 64]] (f_oi i_and__oi) (alu_rows 4).
Lemma l_and__oi : limplements e_and__oi.
Proof. eapply alu_entry; [intros; reflexivity|lia|reflexivity|chk|chk|chk]. Qed.
Definition e_sub_oo := mkLE "sub"%string [tO; tE] (f_oo i_sub_oo) (mr_rows 0x28).
Lemma l_sub_oo : limplements e_sub_oo.
Proof. eapply romr_entry; [intros; reflexivity|chk|chk]. Qed.
Definition e_sub_oi := mkLE "sub"%string [tOp [0; 8; 16; 32; 64]] (f_oi i_sub_oi) (alu_rows 5).
Lemma l_sub_oi : limplements e_sub_oi.
Proof. eapply alu_entry; [intros; reflexivity|lia|reflexivity|chk|chk|chk]. Qed.
Definition e_xor__oo := mkLE "xor"%string [tO; tE] (f_oo i_xor__oo) (mr_rows 0x30).
Lemma l_xor__oo : limplements e_xor__oo.
Proof. eapply romr_entry; [intros; reflexivity|chk|chk]. Qed.
Definition e_xor__oi := mkLE "xor"%string [tOp [0; 8; 16; 32; 64]] (f_oi i_xor__oi) (alu_rows 6).
Lemma l_xor__oi : limplements e_xor__oi.
Proof. eapply alu_entry; [intros; reflexivity|lia|reflexivity|chk|chk|chk]. Qed.
Definition e_cmp_oo := mkLE "cmp"%string [tO; tE] (f_oo i_cmp_oo) (mr_rows 0x38).
Lemma l_cmp_oo : limplements e_cmp_oo.
Proof. eapply romr_entry; [intros; reflexivity|chk|chk]. Qed.
Definition e_cmp_oi := mkLE "cmp"%string [tOp [0; 8; 16; 32; 64]] (f_oi i_cmp_oi) (alu_rows 7).
Lemma l_cmp_oi : limplements e_cmp_oi.
Proof. eapply alu_entry; [intros; reflexivity|lia|reflexivity|chk|chk|chk]. Qed.
Definition e_mov_oo := mkLE "mov"%string [tO; tE] (f_oo mov_oo) (mr_rows 0x88).
Lemma l_mov_oo : limplements e_mov_oo.
Proof. eapply mov_entry; intros; reflexivity. Qed.
Definition e_lea := mkLE "lea"%string [tG; tA] (ra i_lea) [mkL NP 0 0x8D true None [r_ KG Sv; rm_ KG true Sany] OsV I_none].
Lemma l_lea : limplements e_lea.
Proof. eapply lea_entry; intros; reflexivity. Qed.
Definition e_movnti := mkLE "movnti"%string [tAl; tEe] (ar i_movnti) [mkL NP 1 0xC3 true None [rm_ KG true Sv; r_ KG Sv] OsY I_none].
Lemma l_movnti : limplements e_movnti.
Proof. eapply are_entry; [intros; reflexivity|reflexivity|chk]. Qed.
Definition e_aadd := mkLE "aadd"%string [tAl; tEe] (ar i_aadd) [mkL NP 2 0xFC true None [rm_ KG true Sv; r_ KG Sv] OsY I_none].
Lemma l_aadd : limplements e_aadd.
Proof. eapply are_entry; [intros; reflexivity|reflexivity|chk]. Qed.
Definition e_aand := mkLE "aand"%string [tAl; tEe] (ar i_aand) [mkL P66 2 0xFC true None [rm_ KG true Sv; r_ KG Sv] OsY I_none].
Lemma l_aand : limplements e_aand.
Proof. eapply are_entry; [intros; reflexivity|reflexivity|chk]. Qed.
Definition e_aor := mkLE "aor"%string [tAl; tEe] (ar i_aor) [mkL PF2 2 0xFC true None [rm_ KG true Sv; r_ KG Sv] OsY I_none].
Lemma l_aor : limplements e_aor.
Proof. eapply are_entry; [intros; reflexivity|reflexivity|chk]. Qed.
Definition e_axor := mkLE "axor"%string [tAl; tEe] (ar i_axor) [mkL PF3 2 0xFC true None [rm_ KG true Sv; r_ KG Sv] OsY I_none].
Lemma l_axor : limplements e_axor.
Proof. eapply are_entry; [intros; reflexivity|reflexivity|chk]. Qed.
Definition e_movdiri := mkLE "movdiri"%string [tAl; tEe] (ar i_movdiri) [mkL NP 2 0xF9 true None [rm_ KG true Sv; r_ KG Sv] OsY I_none].
Lemma l_movdiri : limplements e_movdiri.
Proof. eapply are_entry; [intros; reflexivity|reflexivity|chk]. Qed.
Definition e_movbe_ra := mkLE "movbe"%string [tGl; tAl] (ra i_movbe_ra) [rorow NP 2 0xF0 Sv Sv OsV I_none].
Lemma l_movbe_ra : limplements e_movbe_ra.
Proof. eapply movbe_entry; [intros; reflexivity|reflexivity|chk]. Qed.
Definition e_movbe_ar := mkLE "movbe"%string [tAl; tGl] (ar i_movbe_ar) [mkL NP 2 0xF1 true None [rm_ KG true Sv; r_ KG Sv] OsV I_none].
Lemma l_movbe_ar : limplements e_movbe_ar.
Proof. eapply ar_entry; [intros; reflexivity|reflexivity|chk|exact tGl_v]. Qed.
Definition e_adcx_eo := mkLE "adcx"%string [tEe; tEl] (ro i_adcx_eo) [rorow P66 2 0xF6 Sv Sv OsY I_none].
Lemma l_adcx_eo : limplements e_adcx_eo.
Proof. eapply adx_entry; [intros; reflexivity|reflexivity|chk]. Qed.
Definition e_adox_eo := mkLE "adox"%string [tEe; tEl] (ro i_adox_eo) [rorow PF3 2 0xF6 Sv Sv OsY I_none].
Lemma l_adox_eo : limplements e_adox_eo.
Proof. eapply adx_entry; [intros; reflexivity|reflexivity|chk]. Qed.
Definition e_crc32 := mkLE "crc32"%string [tEe; tEl] (ro i_crc32) crc_rows.
Lemma l_crc32 : limplements e_crc32.
Proof. eapply crc_entry; [intros; reflexivity|intros []; reflexivity]. Qed.
Definition e_not__o := mkLE "not"%string [tOl [8; 16; 32; 64]] (f_o i_not__o) [rmrow NP 0 0xF6 2 OsB I_none].
Lemma l_not__o : limplements e_not__o.
Proof. eapply (ext1_entry _ _ _ _ _ _ _ _ (fun _ b => w_in OsB b) (fun _ b => b)); [intros; reflexivity|lia|reflexivity|reflexivity|reflexivity|chk|sizes|sizes]. Qed.
Definition e_neg_o := mkLE "neg"%string [tOl [8; 16; 32; 64]] (f_o i_neg_o) [rmrow NP 0 0xF6 3 OsB I_none].
Lemma l_neg_o : limplements e_neg_o.
Proof. eapply (ext1_entry _ _ _ _ _ _ _ _ (fun _ b => w_in OsB b) (fun _ b => b)); [intros; reflexivity|lia|reflexivity|reflexivity|reflexivity|chk|sizes|sizes]. Qed.
Definition e_mul := mkLE "mul"%string [tOl [8; 16; 32; 64]] (f_o i_mul) [rmrow NP 0 0xF6 4 OsB I_none].
Lemma l_mul : limplements e_mul.
Proof. eapply (ext1_entry _ _ _ _ _ _ _ _ (fun _ b => w_in OsB b) (fun _ b => b)); [intros; reflexivity|lia|reflexivity|reflexivity|reflexivity|chk|sizes|sizes]. Qed.
Definition e_imul_o := mkLE "imul"%string [tOl [8; 16; 32; 64]] (f_o i_imul_o) [rmrow NP 0 0xF6 5 OsB I_none].
Lemma l_imul_o : limplements e_imul_o.
Proof. eapply (ext1_entry _ _ _ _ _ _ _ _ (fun _ b => w_in OsB b) (fun _ b => b)); [intros; reflexivity|lia|reflexivity|reflexivity|reflexivity|chk|sizes|sizes]. Qed.
Definition e_div := mkLE "div"%string [tOl [8; 16; 32; 64]] (f_o i_div) [rmrow NP 0 0xF6 6 OsB I_none].
Lemma l_div : limplements e_div.
Proof. eapply (ext1_entry _ _ _ _ _ _ _ _ (fun _ b => w_in OsB b) (fun _ b => b)); [intros; reflexivity|lia|reflexivity|reflexivity|reflexivity|chk|sizes|sizes]. Qed.
Definition e_idiv := mkLE "idiv"%string [tOl [8; 16; 32; 64]] (f_o i_idiv) [rmrow NP 0 0xF6 7 OsB I_none].
Lemma l_idiv : limplements e_idiv.
Proof. eapply (ext1_entry _ _ _ _ _ _ _ _ (fun _ b => w_in OsB b) (fun _ b => b)); [intros; reflexivity|lia|reflexivity|reflexivity|reflexivity|chk|sizes|sizes]. Qed.
Definition e_inc_o := mkLE "inc"%string [tOp [0; 8; 16; 32; 64]] (f_o i_inc_o) [rmrow NP 0 0xFE 0 OsB I_none].
Lemma l_inc_o : limplements e_inc_o.
Proof. eapply inc_entry; [intros; reflexivity|lia|chk]. Qed.
Definition e_dec_o := mkLE "dec"%string [tOp [0; 8; 16; 32; 64]] (f_o i_dec_o) [rmrow NP 0 0xFE 1 OsB I_none].
Lemma l_dec_o : limplements e_dec_o.
Proof. eapply inc_entry; [intros; reflexivity|lia|chk]. Qed.
Definition e_rol_oi := mkLE "rol"%string [tOl [0; 8; 16; 32; 64]] (f_oi i_rol_oi) (shift_rows 0).
Lemma l_rol_oi : limplements e_rol_oi.
Proof. eapply shift_entry; [intros; reflexivity|lia|reflexivity|reflexivity|chk|chk]. Qed.
Definition e_rol_ob := mkLE "rol"%string [tOl [8; 16; 32; 64]; tR 8] (or_ i_rol_ob) [clrow 0].
Lemma l_rol_ob : limplements e_rol_ob.
Proof. eapply shiftcl_entry; [intros; reflexivity|lia|reflexivity|reflexivity|chk]. Qed.
Definition e_ror_oi := mkLE "ror"%string [tOl [0; 8; 16; 32; 64]] (f_oi i_ror_oi) (shift_rows 1).
Lemma l_ror_oi : limplements e_ror_oi.
Proof. eapply shift_entry; [intros; reflexivity|lia|reflexivity|reflexivity|chk|chk]. Qed.
Definition e_ror_ob := mkLE "ror"%string [tOl [8; 16; 32; 64]; tR 8] (or_ i_ror_ob) [clrow 1].
Lemma l_ror_ob : limplements e_ror_ob.
Proof. eapply shiftcl_entry; [intros; reflexivity|lia|reflexivity|reflexivity|chk]. Qed.
Definition e_rcl_oi := mkLE "rcl"%string [tOl [0; 8; 16; 32; 64]] (f_oi i_rcl_oi) (shift_rows 2).
Lemma l_rcl_oi : limplements e_rcl_oi.
Proof. eapply shift_entry; [intros; reflexivity|lia|reflexivity|reflexivity|chk|chk]. Qed.
Definition e_rcl_ob := mkLE "rcl"%string [tOl [8; 16; 32; 64]; tR 8] (or_ i_rcl_ob) [clrow 2].
Lemma l_rcl_ob : limplements e_rcl_ob.
Proof. eapply shiftcl_entry; [intros; reflexivity|lia|reflexivity|reflexivity|chk]. Qed.
Definition e_rcr_oi := mkLE "rcr"%string [tOl [0; 8; 16; 32; 64]] (f_oi i_rcr_oi) (shift_rows 3).
Lemma l_rcr_oi : limplements e_rcr_oi.
Proof. eapply shift_entry; [intros; reflexivity|lia|reflexivity|reflexivity|chk|chk]. Qed.
Definition e_rcr_ob := mkLE "rcr"%string [tOl [8; 16; 32; 64]; tR 8] (or_ i_rcr_ob) [clrow 3].
Lemma l_rcr_ob : limplements e_rcr_ob.
Proof. eapply shiftcl_entry; [intros; reflexivity|lia|reflexivity|reflexivity|chk]. Qed.
Definition e_shl_oi := mkLE "shl"%string [tOl [0; 8; 16; 32; 64]] (f_oi i_shl_oi) (shift_rows 4).
Lemma l_shl_oi : limplements e_shl_oi.
Proof. eapply shift_entry; [intros; reflexivity|lia|reflexivity|reflexivity|chk|chk]. Qed.
Definition e_shl_ob := mkLE "shl"%string [tOl [8; 16; 32; 64]; tR 8] (or_ i_shl_ob) [clrow 4].
Lemma l_shl_ob : limplements e_shl_ob.
Proof. eapply shiftcl_entry; [intros; reflexivity|lia|reflexivity|reflexivity|chk]. Qed.
Definition e_sal_oi := mkLE "sal"%string [tOl [0; 8; 16; 32; 64]] (f_oi i_sal_oi) (shift_rows 4).
Lemma l_sal_oi : limplements e_sal_oi.
Proof. eapply shift_entry; [intros; reflexivity|lia|reflexivity|reflexivity|chk|chk]. Qed.
Definition e_sal_ob := mkLE "sal"%string [tOl [8; 16; 32; 64]; tR 8] (or_ i_sal_ob) [clrow 4].
Lemma l_sal_ob : limplements e_sal_ob.
Proof. eapply shiftcl_entry; [intros; reflexivity|lia|reflexivity|reflexivity|chk]. Qed.
Definition e_shr_oi := mkLE "shr"%string [tOl [0; 8; 16; 32; 64]] (f_oi i_shr_oi) (shift_rows 5).
Lemma l_shr_oi : limplements e_shr_oi.
Proof. eapply shift_entry; [intros; reflexivity|lia|reflexivity|reflexivity|chk|chk]. Qed.
Definition e_shr_ob := mkLE "shr"%string [tOl [8; 16; 32; 64]; tR 8] (or_ i_shr_ob) [clrow 5].
Lemma l_shr_ob : limplements e_shr_ob.
Proof. eapply shiftcl_entry; [intros; reflexivity|lia|reflexivity|reflexivity|chk]. Qed.
Definition e_sar_oi := mkLE "sar"%string [tOl [0; 8; 16; 32; 64]] (f_oi i_sar_oi) (shift_rows 7).
Lemma l_sar_oi : limplements e_sar_oi.
Proof. eapply shift_entry; [intros; reflexivity|lia|reflexivity|reflexivity|chk|chk]. Qed.
Definition e_sar_ob := mkLE "sar"%string [tOl [8; 16; 32; 64]; tR 8] (or_ i_sar_ob) [clrow 7].
Lemma l_sar_ob : limplements e_sar_ob.
Proof. eapply shiftcl_entry; [intros; reflexivity|lia|reflexivity|reflexivity|chk]. Qed.
Definition gpr_table : list lentry := [
  e_cmovo_ro; e_seto; e_cmovno_ro; e_setno; e_cmovb_ro; e_setb; e_cmovc_ro; e_setc;
  e_cmovnae_ro; e_setnae; e_cmovae_ro; e_setae; e_cmovnb_ro; e_setnb; e_cmovnc_ro; e_setnc;
  e_cmove_ro; e_sete; e_cmovz_ro; e_setz; e_cmovne_ro; e_setne; e_cmovnz_ro; e_setnz;
  e_cmovbe_ro; e_setbe; e_cmovna_ro; e_setna; e_cmova_ro; e_seta; e_cmovnbe_ro; e_setnbe;
  e_cmovs_ro; e_sets; e_cmovns_ro; e_setns; e_cmovp_ro; e_setp; e_cmovpe_ro; e_setpe;
  e_cmovnp_ro; e_setnp; e_cmovpo_ro; e_setpo; e_cmovl_ro; e_setl; e_cmovnge_ro; e_setnge;
  e_cmovge_ro; e_setge; e_cmovnl_ro; e_setnl; e_cmovle_ro; e_setle; e_cmovng_ro; e_setng;
  e_cmovg_ro; e_setg; e_cmovnle_ro; e_setnle; e_bsf; e_bsr; e_imul_ro; e_bt_or;
  e_bts_or; e_btr_or; e_btc_or; e_popcnt; e_lzcnt; e_tzcnt; e_movzx; e_movsx;
  e_movsxd; e_xadd; e_cmpxchg; e_test_or; e_add_oo; e_add_oi; e_or__oo; e_or__oi;
  e_adc_oo; e_adc_oi; e_sbb_oo; e_sbb_oi; e_and__oo; e_and__oi; e_sub_oo; e_sub_oi;
  e_xor__oo; e_xor__oi; e_cmp_oo; e_cmp_oi; e_mov_oo; e_lea; e_movnti; e_aadd;
  e_aand; e_aor; e_axor; e_movdiri; e_movbe_ra; e_movbe_ar; e_adcx_eo; e_adox_eo;
  e_crc32; e_not__o; e_neg_o; e_mul; e_imul_o; e_div; e_idiv; e_inc_o;
  e_dec_o; e_rol_oi; e_rol_ob; e_ror_oi; e_ror_ob; e_rcl_oi; e_rcl_ob; e_rcr_oi;
  e_rcr_ob; e_shl_oi; e_shl_ob; e_sal_oi; e_sal_ob; e_shr_oi; e_shr_ob; e_sar_oi;
  e_sar_ob].
Lemma gpr_table_ok : Forall limplements gpr_table.
Proof.
  unfold gpr_table.
  apply Forall_cons; [exact l_cmovo_ro|].
  apply Forall_cons; [exact l_seto|].
  apply Forall_cons; [exact l_cmovno_ro|].
  apply Forall_cons; [exact l_setno|].
  apply Forall_cons; [exact l_cmovb_ro|].
  apply Forall_cons; [exact l_setb|].
  apply Forall_cons; [exact l_cmovc_ro|].
  apply Forall_cons; [exact l_setc|].
  apply Forall_cons; [exact l_cmovnae_ro|].
  apply Forall_cons; [exact l_setnae|].
  apply Forall_cons; [exact l_cmovae_ro|].
  apply Forall_cons; [exact l_setae|].
  apply Forall_cons; [exact l_cmovnb_ro|].
  apply Forall_cons; [exact l_setnb|].
  apply Forall_cons; [exact l_cmovnc_ro|].
  apply Forall_cons; [exact l_setnc|].
  apply Forall_cons; [exact l_cmove_ro|].
  apply Forall_cons; [exact l_sete|].
  apply Forall_cons; [exact l_cmovz_ro|].
  apply Forall_cons; [exact l_setz|].
  apply Forall_cons; [exact l_cmovne_ro|].
  apply Forall_cons; [exact l_setne|].
  apply Forall_cons; [exact l_cmovnz_ro|].
  apply Forall_cons; [exact l_setnz|].
  apply Forall_cons; [exact l_cmovbe_ro|].
  apply Forall_cons; [exact l_setbe|].
  apply Forall_cons; [exact l_cmovna_ro|].
  apply Forall_cons; [exact l_setna|].
  apply Forall_cons; [exact l_cmova_ro|].
  apply Forall_cons; [exact l_seta|].
  apply Forall_cons; [exact l_cmovnbe_ro|].
  apply Forall_cons; [exact l_setnbe|].
  apply Forall_cons; [exact l_cmovs_ro|].
  apply Forall_cons; [exact l_sets|].
  apply Forall_cons; [exact l_cmovns_ro|].
  apply Forall_cons; [exact l_setns|].
  apply Forall_cons; [exact l_cmovp_ro|].
  apply Forall_cons; [exact l_setp|].
  apply Forall_cons; [exact l_cmovpe_ro|].
  apply Forall_cons; [exact l_setpe|].
  apply Forall_cons; [exact l_cmovnp_ro|].
  apply Forall_cons; [exact l_setnp|].
  apply Forall_cons; [exact l_cmovpo_ro|].
  apply Forall_cons; [exact l_setpo|].
  apply Forall_cons; [exact l_cmovl_ro|].
  apply Forall_cons; [exact l_setl|].
  apply Forall_cons; [exact l_cmovnge_ro|].
  apply Forall_cons; [exact l_setnge|].
  apply Forall_cons; [exact l_cmovge_ro|].
  apply Forall_cons; [exact l_setge|].
  apply Forall_cons; [exact l_cmovnl_ro|].
  apply Forall_cons; [exact l_setnl|].
  apply Forall_cons; [exact l_cmovle_ro|].
  apply Forall_cons; [exact l_setle|].
  apply Forall_cons; [exact l_cmovng_ro|].
  apply Forall_cons; [exact l_setng|].
  apply Forall_cons; [exact l_cmovg_ro|].
  apply Forall_cons; [exact l_setg|].
  apply Forall_cons; [exact l_cmovnle_ro|].
  apply Forall_cons; [exact l_setnle|].
  apply Forall_cons; [exact l_bsf|].
  apply Forall_cons; [exact l_bsr|].
  apply Forall_cons; [exact l_imul_ro|].
  apply Forall_cons; [exact l_bt_or|].
  apply Forall_cons; [exact l_bts_or|].
  apply Forall_cons; [exact l_btr_or|].
  apply Forall_cons; [exact l_btc_or|].
  apply Forall_cons; [exact l_popcnt|].
  apply Forall_cons; [exact l_lzcnt|].
  apply Forall_cons; [exact l_tzcnt|].
  apply Forall_cons; [exact l_movzx|].
  apply Forall_cons; [exact l_movsx|].
  apply Forall_cons; [exact l_movsxd|].
  apply Forall_cons; [exact l_xadd|].
  apply Forall_cons; [exact l_cmpxchg|].
  apply Forall_cons; [exact l_test_or|].
  apply Forall_cons; [exact l_add_oo|].
  apply Forall_cons; [exact l_add_oi|].
  apply Forall_cons; [exact l_or__oo|].
  apply Forall_cons; [exact l_or__oi|].
  apply Forall_cons; [exact l_adc_oo|].
  apply Forall_cons; [exact l_adc_oi|].
  apply Forall_cons; [exact l_sbb_oo|].
  apply Forall_cons; [exact l_sbb_oi|].
  apply Forall_cons; [exact l_and__oo|].
  apply Forall_cons; [exact l_and__oi|].
  apply Forall_cons; [exact l_sub_oo|].
  apply Forall_cons; [exact l_sub_oi|].
  apply Forall_cons; [exact l_xor__oo|].
  apply Forall_cons; [exact l_xor__oi|].
  apply Forall_cons; [exact l_cmp_oo|].
  apply Forall_cons; [exact l_cmp_oi|].
  apply Forall_cons; [exact l_mov_oo|].
  apply Forall_cons; [exact l_lea|].
  apply Forall_cons; [exact l_movnti|].
  apply Forall_cons; [exact l_aadd|].
  apply Forall_cons; [exact l_aand|].
  apply Forall_cons; [exact l_aor|].
  apply Forall_cons; [exact l_axor|].
  apply Forall_cons; [exact l_movdiri|].
  apply Forall_cons; [exact l_movbe_ra|].
  apply Forall_cons; [exact l_movbe_ar|].
  apply Forall_cons; [exact l_adcx_eo|].
  apply Forall_cons; [exact l_adox_eo|].
  apply Forall_cons; [exact l_crc32|].
  apply Forall_cons; [exact l_not__o|].
  apply Forall_cons; [exact l_neg_o|].
  apply Forall_cons; [exact l_mul|].
  apply Forall_cons; [exact l_imul_o|].
  apply Forall_cons; [exact l_div|].
  apply Forall_cons; [exact l_idiv|].
  apply Forall_cons; [exact l_inc_o|].
  apply Forall_cons; [exact l_dec_o|].
  apply Forall_cons; [exact l_rol_oi|].
  apply Forall_cons; [exact l_rol_ob|].
  apply Forall_cons; [exact l_ror_oi|].
  apply Forall_cons; [exact l_ror_ob|].
  apply Forall_cons; [exact l_rcl_oi|].
  apply Forall_cons; [exact l_rcl_ob|].
  apply Forall_cons; [exact l_rcr_oi|].
  apply Forall_cons; [exact l_rcr_ob|].
  apply Forall_cons; [exact l_shl_oi|].
  apply Forall_cons; [exact l_shl_ob|].
  apply Forall_cons; [exact l_sal_oi|].
  apply Forall_cons; [exact l_sal_ob|].
  apply Forall_cons; [exact l_shr_oi|].
  apply Forall_cons; [exact l_shr_ob|].
  apply Forall_cons; [exact l_sar_oi|].
  apply Forall_cons; [exact l_sar_ob|].
  apply Forall_nil.
Qed.
