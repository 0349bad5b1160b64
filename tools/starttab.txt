adc_roi adc_roo adcx_eeo add_roi add_roo adox_eeo and__roi and__roo ccmpa_oii ccmpa_ooi ccmpae_oii ccmpae_ooi ccmpb_oii ccmpb_ooi ccmpbe_oii ccmpbe_ooi ccmpc_oii ccmpc_ooi ccmpe_oii ccmpe_ooi ccmpf_oii ccmpf_ooi ccmpg_oii ccmpg_ooi ccmpge_oii ccmpge_ooi ccmpl_oii ccmpl_ooi ccmple_oii ccmple_ooi ccmpna_oii ccmpna_ooi ccmpnae_oii ccmpnae_ooi ccmpnb_oii ccmpnb_ooi ccmpnbe_oii ccmpnbe_ooi ccmpnc_oii ccmpnc_ooi ccmpne_oii ccmpne_ooi ccmpng_oii ccmpng_ooi ccmpnge_oii ccmpnge_ooi ccmpnl_oii ccmpnl_ooi ccmpnle_oii ccmpnle_ooi ccmpno_oii ccmpno_ooi ccmpns_oii ccmpns_ooi ccmpnz_oii ccmpnz_ooi ccmpo_oii ccmpo_ooi ccmps_oii ccmps_ooi ccmpt_oii ccmpt_ooi ccmpz_oii ccmpz_ooi cfcmovb_oo cfcmovb_rro cfcmovbe_oo cfcmovbe_rro cfcmovl_oo cfcmovl_rro cfcmovle_oo cfcmovle_rro cfcmovnb_oo cfcmovnb_rro cfcmovnbe_oo cfcmovnbe_rro cfcmovnl_oo cfcmovnl_rro cfcmovnle_oo cfcmovnle_rro cfcmovno_oo cfcmovno_rro cfcmovnp_oo cfcmovnp_rro cfcmovns_oo cfcmovns_rro cfcmovnz_oo cfcmovnz_rro cfcmovo_oo cfcmovo_rro cfcmovp_oo cfcmovp_rro cfcmovs_oo cfcmovs_rro cfcmovz_oo cfcmovz_rro cmova_rro cmovae_rro cmovb_rro cmovbe_rro cmovc_rro cmove_rro cmovg_rro cmovge_rro cmovl_rro cmovle_rro cmovna_rro cmovnae_rro cmovnb_rro cmovnbe_rro cmovnc_rro cmovne_rro cmovng_rro cmovnge_rro cmovnl_rro cmovnle_rro cmovno_rro cmovnp_rro cmovns_rro cmovnz_rro cmovo_rro cmovp_rro cmovpe_rro cmovpo_rro cmovs_rro cmovz_rro ctesta_ori ctesta_oii ctestae_ori ctestae_oii ctestb_ori ctestb_oii ctestbe_ori ctestbe_oii ctestc_ori ctestc_oii cteste_ori cteste_oii ctestf_ori ctestf_oii ctestg_ori ctestg_oii ctestge_ori ctestge_oii ctestl_ori ctestl_oii ctestle_ori ctestle_oii ctestna_ori ctestna_oii ctestnae_ori ctestnae_oii ctestnb_ori ctestnb_oii ctestnbe_ori ctestnbe_oii ctestnc_ori ctestnc_oii ctestne_ori ctestne_oii ctestng_ori ctestng_oii ctestnge_ori ctestnge_oii ctestnl_ori ctestnl_oii ctestnle_ori ctestnle_oii ctestno_ori ctestno_oii ctestns_ori ctestns_oii ctestnz_ori ctestnz_oii ctesto_ori ctesto_oii ctests_ori ctests_oii ctestt_ori ctestt_oii ctestz_ori ctestz_oii imul_rro neg_ro not__ro or__roi or__roo rcl_rob rcl_roi rcr_rob rcr_roi rol_rob rol_roi ror_rob ror_roi sal_rob sal_roi sar_rob sar_roi sbb_roi sbb_roo shl_rob shl_roi shld_rorb shld_rori shr_rob shr_roi shrd_rorb shrd_rori sub_roi sub_roo xor__roi xor__roo
adc_oi add_oi and__oi bt_oi btc_oi btr_oi bts_oi cmp_oi div idiv imul_o mul neg_o not__o or__oi rcl_ob rcl_oi rcr_ob rcr_oi rol_ob rol_oi ror_ob ror_oi sal_ob sal_oi sar_ob sar_oi sbb_oi seta setae setb setbe setc sete setg setge setl setle setna setnae setnb setnbe setnc setne setng setnge setnl setnle setno setnp setns setnz seto setp setpe setpo sets setz shl_ob shl_oi shr_ob shr_oi sub_oi xor__oi and_oi or_oi xor_oi not test_imm mov_oi bndcl bndcn bndcu rdrand rdseed
