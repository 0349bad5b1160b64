(* The methods of the 32-bit build paired with the rows of the 64-bit instruction tables: whatever they emit is, in 32-bit mode,
   the instruction of the row.  The flag says that the method is proved for operands without 64-bit ones only.
   Produced by tools/say32tab.py. *)
From Coq Require Import ZArith List Bool String Lia.
From Verif Require Import Base Types Emit Encode Encode32 SpecX86 SpecAddr SpecIsa SpecInsn SpecLeg SpecMix IsaRows Mnemonic MnemonicAvx
  LegShapes LegTables LegGpr LegGpr2 LegGpr3 LegTables2 MixShapes MixTables MixTables2 VexTables
  Spec32 SpecB32 SpecStart32 SpecSays32 Sim32Tables Start32Tables Says32.
From Verif Require Mnemonic32 MnemonicAvx32 MnemonicOmit32.
Import ListNotations.
Open Scope string_scope.
Open Scope Z_scope.

Ltac fin := let ops := fresh in let imm := fresh in let act := fresh in let H := fresh in
  intros ops imm act H; cbv beta delta [f_0 f_i f_o f_oi f_oo f_orr f_a f_r f_ri f_rr f_rri f_ra f_ar f_ro f_or f_roi f_ori rro roo rroi rror rra arr rar rrr ro roi or_ ori ra ar rr rri a1 r1] in H;
  repeat match type of H with match ?x with _ => _ end = _ => destruct x; try discriminate H end; injection H as <-; split; reflexivity.
Ltac cov S T n e := eapply (covers_of apx_methods small_methods sized_methods _ e);
  [eapply (nth_Forall _ _ n); [exact S|reflexivity]|eapply (nth_Forall _ _ n); [exact T|reflexivity]|vm_compute; reflexivity|vm_compute; reflexivity|fin].
Ltac lrow_ L S T n := apply Forall_cons; [apply lift_leg; [reflexivity|exact L|cov S T n DefaultEncoding]|].
Ltac mrow_ L S T n := apply Forall_cons; [apply lift_mix; [reflexivity|exact L|cov S T n DefaultEncoding]|].
Ltac verow L k S T n e := apply Forall_cons; [eapply lift_vex; [eapply (nth_Forall _ _ k); [exact L|reflexivity]|cov S T n e]|].
Ltac vrow_ L k S T n := verow L k S T n DefaultEncoding.

Definition leg32_0 : list (bool * lentry) := [
  (false, le32 e_addps (ro Mnemonic32.i_addps));
  (false, le32 e_addpd (ro Mnemonic32.i_addpd));
  (false, le32 e_addss (ro Mnemonic32.i_addss));
  (false, le32 e_addsd (ro Mnemonic32.i_addsd));
  (false, le32 e_mulps (ro Mnemonic32.i_mulps));
  (false, le32 e_mulpd (ro Mnemonic32.i_mulpd));
  (false, le32 e_mulss (ro Mnemonic32.i_mulss));
  (false, le32 e_mulsd (ro Mnemonic32.i_mulsd));
  (false, le32 e_subps (ro Mnemonic32.i_subps));
  (false, le32 e_subpd (ro Mnemonic32.i_subpd));
  (false, le32 e_subss (ro Mnemonic32.i_subss));
  (false, le32 e_subsd (ro Mnemonic32.i_subsd));
  (false, le32 e_minps (ro Mnemonic32.i_minps));
  (false, le32 e_minpd (ro Mnemonic32.i_minpd));
  (false, le32 e_minss (ro Mnemonic32.i_minss));
  (false, le32 e_minsd (ro Mnemonic32.i_minsd));
  (false, le32 e_divps (ro Mnemonic32.i_divps));
  (false, le32 e_divpd (ro Mnemonic32.i_divpd));
  (false, le32 e_divss (ro Mnemonic32.i_divss));
  (false, le32 e_divsd (ro Mnemonic32.i_divsd));
  (false, le32 e_maxps (ro Mnemonic32.i_maxps));
  (false, le32 e_maxpd (ro Mnemonic32.i_maxpd));
  (false, le32 e_maxss (ro Mnemonic32.i_maxss));
  (false, le32 e_maxsd (ro Mnemonic32.i_maxsd));
  (false, le32 e_sqrtps (ro Mnemonic32.i_sqrtps));
  (false, le32 e_sqrtpd (ro Mnemonic32.i_sqrtpd));
  (false, le32 e_sqrtss (ro Mnemonic32.i_sqrtss));
  (false, le32 e_sqrtsd (ro Mnemonic32.i_sqrtsd));
  (false, le32 e_rsqrtps (ro Mnemonic32.i_rsqrtps));
  (false, le32 e_rsqrtss (ro Mnemonic32.i_rsqrtss))].
Lemma leg32_0_ok : Forall (fun p => limplements32 (fst p) (snd p)) (leg32_0).
Proof. unfold leg32_0.
lrow_ l_addps sims0_ok start0 13%nat.
lrow_ l_addpd sims0_ok start0 12%nat.
lrow_ l_addss sims0_ok start0 15%nat.
lrow_ l_addsd sims0_ok start0 14%nat.
lrow_ l_mulps sims18_ok start18 6%nat.
lrow_ l_mulpd sims18_ok start18 5%nat.
lrow_ l_mulss sims18_ok start18 8%nat.
lrow_ l_mulsd sims18_ok start18 7%nat.
lrow_ l_subps sims28_ok start28 20%nat.
lrow_ l_subpd sims28_ok start28 19%nat.
lrow_ l_subss sims28_ok start28 22%nat.
lrow_ l_subsd sims28_ok start28 21%nat.
lrow_ l_minps sims16_ok start16 5%nat.
lrow_ l_minpd sims16_ok start16 4%nat.
lrow_ l_minss sims16_ok start16 7%nat.
lrow_ l_minsd sims16_ok start16 6%nat.
lrow_ l_divps sims13_ok start13 12%nat.
lrow_ l_divpd sims13_ok start13 11%nat.
lrow_ l_divss sims13_ok start13 14%nat.
lrow_ l_divsd sims13_ok start13 13%nat.
lrow_ l_maxps sims16_ok start16 1%nat.
lrow_ l_maxpd sims16_ok start16 0%nat.
lrow_ l_maxss sims16_ok start16 3%nat.
lrow_ l_maxsd sims16_ok start16 2%nat.
lrow_ l_sqrtps sims28_ok start28 11%nat.
lrow_ l_sqrtpd sims28_ok start28 10%nat.
lrow_ l_sqrtss sims28_ok start28 13%nat.
lrow_ l_sqrtsd sims28_ok start28 12%nat.
lrow_ l_rsqrtps sims25_ok start25 13%nat.
lrow_ l_rsqrtss sims25_ok start25 14%nat.
apply Forall_nil. Qed.
Definition leg32_1 : list (bool * lentry) := [
  (false, le32 e_rcpps (ro Mnemonic32.i_rcpps));
  (false, le32 e_rcpss (ro Mnemonic32.i_rcpss));
  (false, le32 e_andps (ro Mnemonic32.i_andps));
  (false, le32 e_andpd (ro Mnemonic32.i_andpd));
  (false, le32 e_andnps (ro Mnemonic32.i_andnps));
  (false, le32 e_andnpd (ro Mnemonic32.i_andnpd));
  (false, le32 e_orps (ro Mnemonic32.i_orps));
  (false, le32 e_orpd (ro Mnemonic32.i_orpd));
  (false, le32 e_xorps (ro Mnemonic32.i_xorps));
  (false, le32 e_xorpd (ro Mnemonic32.i_xorpd));
  (false, le32 e_unpcklps (ro Mnemonic32.i_unpcklps));
  (false, le32 e_unpcklpd (ro Mnemonic32.i_unpcklpd));
  (false, le32 e_unpckhps (ro Mnemonic32.i_unpckhps));
  (false, le32 e_unpckhpd (ro Mnemonic32.i_unpckhpd));
  (false, le32 e_ucomiss (ro Mnemonic32.i_ucomiss));
  (false, le32 e_ucomisd (ro Mnemonic32.i_ucomisd));
  (false, le32 e_comiss (ro Mnemonic32.i_comiss));
  (false, le32 e_comisd (ro Mnemonic32.i_comisd));
  (false, le32 e_cvtps2pd (ro Mnemonic32.i_cvtps2pd));
  (false, le32 e_cvtpd2ps (ro Mnemonic32.i_cvtpd2ps));
  (false, le32 e_cvtss2sd (ro Mnemonic32.i_cvtss2sd));
  (false, le32 e_cvtsd2ss (ro Mnemonic32.i_cvtsd2ss));
  (false, le32 e_cvtdq2ps (ro Mnemonic32.i_cvtdq2ps));
  (false, le32 e_cvtps2dq (ro Mnemonic32.i_cvtps2dq));
  (false, le32 e_cvttps2dq (ro Mnemonic32.i_cvttps2dq));
  (false, le32 e_cvttpd2dq (ro Mnemonic32.i_cvttpd2dq));
  (false, le32 e_cvtdq2pd (ro Mnemonic32.i_cvtdq2pd));
  (false, le32 e_cvtpd2dq (ro Mnemonic32.i_cvtpd2dq));
  (false, le32 e_haddpd (ro Mnemonic32.i_haddpd));
  (false, le32 e_haddps (ro Mnemonic32.i_haddps))].
Lemma leg32_1_ok : Forall (fun p => limplements32 (fst p) (snd p)) (leg32_1).
Proof. unfold leg32_1.
lrow_ l_rcpps sims24_ok start24 17%nat.
lrow_ l_rcpss sims24_ok start24 18%nat.
lrow_ l_andps sims1_ok start1 9%nat.
lrow_ l_andpd sims1_ok start1 8%nat.
lrow_ l_andnps sims1_ok start1 7%nat.
lrow_ l_andnpd sims1_ok start1 6%nat.
lrow_ l_orps sims18_ok start18 19%nat.
lrow_ l_orpd sims18_ok start18 18%nat.
lrow_ l_xorps sims50_ok start50 15%nat.
lrow_ l_xorpd sims50_ok start50 14%nat.
lrow_ l_unpcklps sims29_ok start29 4%nat.
lrow_ l_unpcklpd sims29_ok start29 3%nat.
lrow_ l_unpckhps sims29_ok start29 2%nat.
lrow_ l_unpckhpd sims29_ok start29 1%nat.
lrow_ l_ucomiss sims29_ok start29 0%nat.
lrow_ l_ucomisd sims28_ok start28 24%nat.
lrow_ l_comiss sims10_ok start10 5%nat.
lrow_ l_comisd sims10_ok start10 4%nat.
lrow_ l_cvtps2pd sims12_ok start12 21%nat.
lrow_ l_cvtpd2ps sims12_ok start12 17%nat.
lrow_ l_cvtss2sd sims13_ok start13 2%nat.
lrow_ l_cvtsd2ss sims12_ok start12 24%nat.
lrow_ l_cvtdq2ps sims12_ok start12 14%nat.
lrow_ l_cvtps2dq sims12_ok start12 20%nat.
lrow_ l_cvttps2dq sims13_ok start13 6%nat.
lrow_ l_cvttpd2dq sims13_ok start13 4%nat.
lrow_ l_cvtdq2pd sims12_ok start12 13%nat.
lrow_ l_cvtpd2dq sims12_ok start12 15%nat.
lrow_ l_haddpd sims15_ok start15 8%nat.
lrow_ l_haddps sims15_ok start15 9%nat.
apply Forall_nil. Qed.
Definition leg32_2 : list (bool * lentry) := [
  (false, le32 e_hsubpd (ro Mnemonic32.i_hsubpd));
  (false, le32 e_hsubps (ro Mnemonic32.i_hsubps));
  (false, le32 e_addsubpd (ro Mnemonic32.i_addsubpd));
  (false, le32 e_addsubps (ro Mnemonic32.i_addsubps));
  (false, le32 e_punpcklqdq (ro Mnemonic32.i_punpcklqdq));
  (false, le32 e_punpckhqdq (ro Mnemonic32.i_punpckhqdq));
  (false, le32 e_movddup (ro Mnemonic32.i_movddup));
  (false, le32 e_movsldup (ro Mnemonic32.i_movsldup));
  (false, le32 e_movshdup (ro Mnemonic32.i_movshdup));
  (false, le32 e_packusdw (ro Mnemonic32.i_packusdw));
  (false, le32 e_pcmpeqq (ro Mnemonic32.i_pcmpeqq));
  (false, le32 e_pcmpgtq (ro Mnemonic32.i_pcmpgtq));
  (false, le32 e_pmuldq (ro Mnemonic32.i_pmuldq));
  (false, le32 e_pmulld (ro Mnemonic32.i_pmulld));
  (false, le32 e_pminsb (ro Mnemonic32.i_pminsb));
  (false, le32 e_pminsd (ro Mnemonic32.i_pminsd));
  (false, le32 e_pminuw (ro Mnemonic32.i_pminuw));
  (false, le32 e_pminud (ro Mnemonic32.i_pminud));
  (false, le32 e_pmaxsb (ro Mnemonic32.i_pmaxsb));
  (false, le32 e_pmaxsd (ro Mnemonic32.i_pmaxsd));
  (false, le32 e_pmaxuw (ro Mnemonic32.i_pmaxuw));
  (false, le32 e_pmaxud (ro Mnemonic32.i_pmaxud));
  (false, le32 e_phminposuw (ro Mnemonic32.i_phminposuw));
  (false, le32 e_pblendvb (ro Mnemonic32.i_pblendvb));
  (false, le32 e_blendvps (ro Mnemonic32.i_blendvps));
  (false, le32 e_blendvpd (ro Mnemonic32.i_blendvpd));
  (false, le32 e_ptest (ro Mnemonic32.i_ptest));
  (false, le32 e_pmovsxbw (ro Mnemonic32.i_pmovsxbw));
  (false, le32 e_pmovsxbd (ro Mnemonic32.i_pmovsxbd));
  (false, le32 e_pmovsxbq (ro Mnemonic32.i_pmovsxbq))].
Lemma leg32_2_ok : Forall (fun p => limplements32 (fst p) (snd p)) (leg32_2).
Proof. unfold leg32_2.
lrow_ l_hsubpd sims15_ok start15 10%nat.
lrow_ l_hsubps sims15_ok start15 11%nat.
lrow_ l_addsubpd sims0_ok start0 16%nat.
lrow_ l_addsubps sims0_ok start0 17%nat.
lrow_ l_punpcklqdq sims24_ok start24 10%nat.
lrow_ l_punpckhqdq sims24_ok start24 6%nat.
lrow_ l_movddup sims16_ok start16 16%nat.
lrow_ l_movsldup sims17_ok start17 19%nat.
lrow_ l_movshdup sims17_ok start17 18%nat.
lrow_ l_packusdw sims19_ok start19 0%nat.
lrow_ l_pcmpeqq sims19_ok start19 24%nat.
lrow_ l_pcmpgtq sims20_ok start20 5%nat.
lrow_ l_pmuldq sims22_ok start22 1%nat.
lrow_ l_pmulld sims22_ok start22 5%nat.
lrow_ l_pminsb sims21_ok start21 7%nat.
lrow_ l_pminsd sims21_ok start21 8%nat.
lrow_ l_pminuw sims21_ok start21 12%nat.
lrow_ l_pminud sims21_ok start21 11%nat.
lrow_ l_pmaxsb sims21_ok start21 1%nat.
lrow_ l_pmaxsd sims21_ok start21 2%nat.
lrow_ l_pmaxuw sims21_ok start21 6%nat.
lrow_ l_pmaxud sims21_ok start21 5%nat.
lrow_ l_phminposuw sims20_ok start20 17%nat.
lrow_ l_pblendvb sims19_ok start19 15%nat.
lrow_ l_blendvps sims1_ok start1 16%nat.
lrow_ l_blendvpd sims1_ok start1 15%nat.
lrow_ l_ptest sims24_ok start24 3%nat.
lrow_ l_pmovsxbw sims21_ok start21 16%nat.
lrow_ l_pmovsxbd sims21_ok start21 14%nat.
lrow_ l_pmovsxbq sims21_ok start21 15%nat.
apply Forall_nil. Qed.
Definition leg32_3 : list (bool * lentry) := [
  (false, le32 e_pmovsxwd (ro Mnemonic32.i_pmovsxwd));
  (false, le32 e_pmovsxwq (ro Mnemonic32.i_pmovsxwq));
  (false, le32 e_pmovsxdq (ro Mnemonic32.i_pmovsxdq));
  (false, le32 e_pmovzxbw (ro Mnemonic32.i_pmovzxbw));
  (false, le32 e_pmovzxbd (ro Mnemonic32.i_pmovzxbd));
  (false, le32 e_pmovzxbq (ro Mnemonic32.i_pmovzxbq));
  (false, le32 e_pmovzxwd (ro Mnemonic32.i_pmovzxwd));
  (false, le32 e_pmovzxwq (ro Mnemonic32.i_pmovzxwq));
  (false, le32 e_pmovzxdq (ro Mnemonic32.i_pmovzxdq));
  (false, le32 e_aesimc (ro Mnemonic32.i_aesimc));
  (false, le32 e_aesenc (ro Mnemonic32.i_aesenc));
  (false, le32 e_aesenclast (ro Mnemonic32.i_aesenclast));
  (false, le32 e_aesdec (ro Mnemonic32.i_aesdec));
  (false, le32 e_aesdeclast (ro Mnemonic32.i_aesdeclast));
  (false, le32 e_gf2p8mulb (ro Mnemonic32.i_gf2p8mulb));
  (false, le32 e_cmpps (roi Mnemonic32.i_cmpps));
  (false, le32 e_cmppd (roi Mnemonic32.i_cmppd));
  (false, le32 e_cmpss (roi Mnemonic32.i_cmpss));
  (false, le32 e_cmpsd_xoi (roi Mnemonic32.i_cmpsd_xoi));
  (false, le32 e_shufps (roi Mnemonic32.i_shufps));
  (false, le32 e_shufpd (roi Mnemonic32.i_shufpd));
  (false, le32 e_roundps (roi Mnemonic32.i_roundps));
  (false, le32 e_roundpd (roi Mnemonic32.i_roundpd));
  (false, le32 e_roundss (roi Mnemonic32.i_roundss));
  (false, le32 e_roundsd (roi Mnemonic32.i_roundsd));
  (false, le32 e_blendps (roi Mnemonic32.i_blendps));
  (false, le32 e_blendpd (roi Mnemonic32.i_blendpd));
  (false, le32 e_pblendw (roi Mnemonic32.i_pblendw));
  (false, le32 e_insertps (roi Mnemonic32.i_insertps));
  (false, le32 e_dpps (roi Mnemonic32.i_dpps))].
Lemma leg32_3_ok : Forall (fun p => limplements32 (fst p) (snd p)) (leg32_3).
Proof. unfold leg32_3.
lrow_ l_pmovsxwd sims21_ok start21 18%nat.
lrow_ l_pmovsxwq sims21_ok start21 19%nat.
lrow_ l_pmovsxdq sims21_ok start21 17%nat.
lrow_ l_pmovzxbw sims21_ok start21 22%nat.
lrow_ l_pmovzxbd sims21_ok start21 20%nat.
lrow_ l_pmovzxbq sims21_ok start21 21%nat.
lrow_ l_pmovzxwd sims21_ok start21 24%nat.
lrow_ l_pmovzxwq sims22_ok start22 0%nat.
lrow_ l_pmovzxdq sims21_ok start21 23%nat.
lrow_ l_aesimc sims0_ok start0 24%nat.
lrow_ l_aesenc sims0_ok start0 22%nat.
lrow_ l_aesenclast sims0_ok start0 23%nat.
lrow_ l_aesdec sims0_ok start0 20%nat.
lrow_ l_aesdeclast sims0_ok start0 21%nat.
lrow_ l_gf2p8mulb sims15_ok start15 7%nat.
lrow_ l_cmpps sims8_ok start8 18%nat.
lrow_ l_cmppd sims8_ok start8 16%nat.
lrow_ l_cmpss sims8_ok start8 22%nat.
lrow_ l_cmpsd_xoi sims8_ok start8 20%nat.
lrow_ l_shufps sims28_ok start28 9%nat.
lrow_ l_shufpd sims28_ok start28 8%nat.
lrow_ l_roundps sims25_ok start25 10%nat.
lrow_ l_roundpd sims25_ok start25 9%nat.
lrow_ l_roundss sims25_ok start25 12%nat.
lrow_ l_roundsd sims25_ok start25 11%nat.
lrow_ l_blendps sims1_ok start1 14%nat.
lrow_ l_blendpd sims1_ok start1 13%nat.
lrow_ l_pblendw sims19_ok start19 16%nat.
lrow_ l_insertps sims15_ok start15 16%nat.
lrow_ l_dpps sims13_ok start13 16%nat.
apply Forall_nil. Qed.
Definition leg32_4 : list (bool * lentry) := [
  (false, le32 e_dppd (roi Mnemonic32.i_dppd));
  (false, le32 e_mpsadbw (roi Mnemonic32.i_mpsadbw));
  (false, le32 e_pclmulqdq (roi Mnemonic32.i_pclmulqdq));
  (false, le32 e_pcmpestrm (roi Mnemonic32.i_pcmpestrm));
  (false, le32 e_pcmpestri (roi Mnemonic32.i_pcmpestri));
  (false, le32 e_pcmpistrm (roi Mnemonic32.i_pcmpistrm));
  (false, le32 e_pcmpistri (roi Mnemonic32.i_pcmpistri));
  (false, le32 e_aeskeygenassist (roi Mnemonic32.i_aeskeygenassist));
  (false, le32 e_gf2p8affineqb (roi Mnemonic32.i_gf2p8affineqb));
  (false, le32 e_gf2p8affineinvqb (roi Mnemonic32.i_gf2p8affineinvqb));
  (false, le32 e_punpcklbw (ro Mnemonic32.i_punpcklbw));
  (false, le32 e_punpcklwd (ro Mnemonic32.i_punpcklwd));
  (false, le32 e_punpckldq (ro Mnemonic32.i_punpckldq));
  (false, le32 e_packsswb (ro Mnemonic32.i_packsswb));
  (false, le32 e_pcmpgtb (ro Mnemonic32.i_pcmpgtb));
  (false, le32 e_pcmpgtw (ro Mnemonic32.i_pcmpgtw));
  (false, le32 e_pcmpgtd (ro Mnemonic32.i_pcmpgtd));
  (false, le32 e_packuswb (ro Mnemonic32.i_packuswb));
  (false, le32 e_punpckhbw (ro Mnemonic32.i_punpckhbw));
  (false, le32 e_punpckhwd (ro Mnemonic32.i_punpckhwd));
  (false, le32 e_punpckhdq (ro Mnemonic32.i_punpckhdq));
  (false, le32 e_packssdw (ro Mnemonic32.i_packssdw));
  (false, le32 e_pcmpeqb (ro Mnemonic32.i_pcmpeqb));
  (false, le32 e_pcmpeqw (ro Mnemonic32.i_pcmpeqw));
  (false, le32 e_pcmpeqd (ro Mnemonic32.i_pcmpeqd));
  (false, le32 e_psrlw_mo (ro Mnemonic32.i_psrlw_mo));
  (false, le32 e_psrld_mo (ro Mnemonic32.i_psrld_mo));
  (false, le32 e_psrlq_mo (ro Mnemonic32.i_psrlq_mo));
  (false, le32 e_paddq (ro Mnemonic32.i_paddq));
  (false, le32 e_pmullw (ro Mnemonic32.i_pmullw))].
Lemma leg32_4_ok : Forall (fun p => limplements32 (fst p) (snd p)) (leg32_4).
Proof. unfold leg32_4.
lrow_ l_dppd sims13_ok start13 15%nat.
lrow_ l_mpsadbw sims18_ok start18 3%nat.
lrow_ l_pclmulqdq sims19_ok start19 17%nat.
lrow_ l_pcmpestrm sims20_ok start20 2%nat.
lrow_ l_pcmpestri sims20_ok start20 1%nat.
lrow_ l_pcmpistrm sims20_ok start20 8%nat.
lrow_ l_pcmpistri sims20_ok start20 7%nat.
lrow_ l_aeskeygenassist sims1_ok start1 0%nat.
lrow_ l_gf2p8affineqb sims15_ok start15 6%nat.
lrow_ l_gf2p8affineinvqb sims15_ok start15 5%nat.
lrow_ l_punpcklbw sims24_ok start24 8%nat.
lrow_ l_punpcklwd sims24_ok start24 11%nat.
lrow_ l_punpckldq sims24_ok start24 9%nat.
lrow_ l_packsswb sims18_ok start18 24%nat.
lrow_ l_pcmpgtb sims20_ok start20 3%nat.
lrow_ l_pcmpgtw sims20_ok start20 6%nat.
lrow_ l_pcmpgtd sims20_ok start20 4%nat.
lrow_ l_packuswb sims19_ok start19 1%nat.
lrow_ l_punpckhbw sims24_ok start24 4%nat.
lrow_ l_punpckhwd sims24_ok start24 7%nat.
lrow_ l_punpckhdq sims24_ok start24 5%nat.
lrow_ l_packssdw sims18_ok start18 23%nat.
lrow_ l_pcmpeqb sims19_ok start19 22%nat.
lrow_ l_pcmpeqw sims20_ok start20 0%nat.
lrow_ l_pcmpeqd sims19_ok start19 23%nat.
lrow_ l_psrlw_mo sims23_ok start23 18%nat.
lrow_ l_psrld_mo sims23_ok start23 13%nat.
lrow_ l_psrlq_mo sims23_ok start23 16%nat.
lrow_ l_paddq sims19_ok start19 4%nat.
lrow_ l_pmullw sims22_ok start22 6%nat.
apply Forall_nil. Qed.
Definition leg32_5 : list (bool * lentry) := [
  (false, le32 e_psubusb (ro Mnemonic32.i_psubusb));
  (false, le32 e_psubusw (ro Mnemonic32.i_psubusw));
  (false, le32 e_pminub (ro Mnemonic32.i_pminub));
  (false, le32 e_pand (ro Mnemonic32.i_pand));
  (false, le32 e_paddusb (ro Mnemonic32.i_paddusb));
  (false, le32 e_paddusw (ro Mnemonic32.i_paddusw));
  (false, le32 e_pmaxub (ro Mnemonic32.i_pmaxub));
  (false, le32 e_pandn (ro Mnemonic32.i_pandn));
  (false, le32 e_pavgb (ro Mnemonic32.i_pavgb));
  (false, le32 e_psraw_mo (ro Mnemonic32.i_psraw_mo));
  (false, le32 e_psrad_mo (ro Mnemonic32.i_psrad_mo));
  (false, le32 e_pavgw (ro Mnemonic32.i_pavgw));
  (false, le32 e_pmulhuw (ro Mnemonic32.i_pmulhuw));
  (false, le32 e_pmulhw (ro Mnemonic32.i_pmulhw));
  (false, le32 e_psubsb (ro Mnemonic32.i_psubsb));
  (false, le32 e_psubsw (ro Mnemonic32.i_psubsw));
  (false, le32 e_pminsw (ro Mnemonic32.i_pminsw));
  (false, le32 e_por (ro Mnemonic32.i_por));
  (false, le32 e_paddsb (ro Mnemonic32.i_paddsb));
  (false, le32 e_paddsw (ro Mnemonic32.i_paddsw));
  (false, le32 e_pmaxsw (ro Mnemonic32.i_pmaxsw));
  (false, le32 e_pxor (ro Mnemonic32.i_pxor));
  (false, le32 e_psllw_mo (ro Mnemonic32.i_psllw_mo));
  (false, le32 e_pslld_mo (ro Mnemonic32.i_pslld_mo));
  (false, le32 e_psllq_mo (ro Mnemonic32.i_psllq_mo));
  (false, le32 e_pmuludq (ro Mnemonic32.i_pmuludq));
  (false, le32 e_pmaddwd (ro Mnemonic32.i_pmaddwd));
  (false, le32 e_psadbw (ro Mnemonic32.i_psadbw));
  (false, le32 e_psubb (ro Mnemonic32.i_psubb));
  (false, le32 e_psubw (ro Mnemonic32.i_psubw))].
Lemma leg32_5_ok : Forall (fun p => limplements32 (fst p) (snd p)) (leg32_5).
Proof. unfold leg32_5.
lrow_ l_psubusb sims24_ok start24 0%nat.
lrow_ l_psubusw sims24_ok start24 1%nat.
lrow_ l_pminub sims21_ok start21 10%nat.
lrow_ l_pand sims19_ok start19 11%nat.
lrow_ l_paddusb sims19_ok start19 7%nat.
lrow_ l_paddusw sims19_ok start19 8%nat.
lrow_ l_pmaxub sims21_ok start21 4%nat.
lrow_ l_pandn sims19_ok start19 12%nat.
lrow_ l_pavgb sims19_ok start19 13%nat.
lrow_ l_psraw_mo sims23_ok start23 11%nat.
lrow_ l_psrad_mo sims23_ok start23 9%nat.
lrow_ l_pavgw sims19_ok start19 14%nat.
lrow_ l_pmulhuw sims22_ok start22 3%nat.
lrow_ l_pmulhw sims22_ok start22 4%nat.
lrow_ l_psubsb sims23_ok start23 23%nat.
lrow_ l_psubsw sims23_ok start23 24%nat.
lrow_ l_pminsw sims21_ok start21 9%nat.
lrow_ l_por sims22_ok start22 9%nat.
lrow_ l_paddsb sims19_ok start19 5%nat.
lrow_ l_paddsw sims19_ok start19 6%nat.
lrow_ l_pmaxsw sims21_ok start21 3%nat.
lrow_ l_pxor sims24_ok start24 12%nat.
lrow_ l_psllw_mo sims23_ok start23 7%nat.
lrow_ l_pslld_mo sims23_ok start23 2%nat.
lrow_ l_psllq_mo sims23_ok start23 5%nat.
lrow_ l_pmuludq sims22_ok start22 7%nat.
lrow_ l_pmaddwd sims21_ok start21 0%nat.
lrow_ l_psadbw sims22_ok start22 18%nat.
lrow_ l_psubb sims23_ok start23 20%nat.
lrow_ l_psubw sims24_ok start24 2%nat.
apply Forall_nil. Qed.
Definition leg32_6 : list (bool * lentry) := [
  (false, le32 e_psubd (ro Mnemonic32.i_psubd));
  (false, le32 e_psubq (ro Mnemonic32.i_psubq));
  (false, le32 e_paddb (ro Mnemonic32.i_paddb));
  (false, le32 e_paddw (ro Mnemonic32.i_paddw));
  (false, le32 e_paddd (ro Mnemonic32.i_paddd));
  (false, le32 e_pshufb (ro Mnemonic32.i_pshufb));
  (false, le32 e_phaddw (ro Mnemonic32.i_phaddw));
  (false, le32 e_phaddd (ro Mnemonic32.i_phaddd));
  (false, le32 e_phaddsw (ro Mnemonic32.i_phaddsw));
  (false, le32 e_pmaddubsw (ro Mnemonic32.i_pmaddubsw));
  (false, le32 e_phsubw (ro Mnemonic32.i_phsubw));
  (false, le32 e_phsubd (ro Mnemonic32.i_phsubd));
  (false, le32 e_phsubsw (ro Mnemonic32.i_phsubsw));
  (false, le32 e_psignb (ro Mnemonic32.i_psignb));
  (false, le32 e_psignw (ro Mnemonic32.i_psignw));
  (false, le32 e_psignd (ro Mnemonic32.i_psignd));
  (false, le32 e_pmulhrsw (ro Mnemonic32.i_pmulhrsw));
  (false, le32 e_pabsb (ro Mnemonic32.i_pabsb));
  (false, le32 e_pabsw (ro Mnemonic32.i_pabsw));
  (false, le32 e_pabsd (ro Mnemonic32.i_pabsd));
  (false, le32 e_palignr (roi Mnemonic32.i_palignr));
  (false, le32 e_movups_xo (ro Mnemonic32.i_movups_xo));
  (false, le32 e_movupd_xo (ro Mnemonic32.i_movupd_xo));
  (false, le32 e_movss_xo (ro Mnemonic32.i_movss_xo));
  (false, le32 e_movsd_xo (ro Mnemonic32.i_movsd_xo));
  (false, le32 e_movaps_xo (ro Mnemonic32.i_movaps_xo));
  (false, le32 e_movapd_xo (ro Mnemonic32.i_movapd_xo));
  (false, le32 e_movdqa_xo (ro Mnemonic32.i_movdqa_xo));
  (false, le32 e_movdqu_xo (ro Mnemonic32.i_movdqu_xo));
  (false, le32 e_pshufd (roi Mnemonic32.i_pshufd))].
Lemma leg32_6_ok : Forall (fun p => limplements32 (fst p) (snd p)) (leg32_6).
Proof. unfold leg32_6.
lrow_ l_psubd sims23_ok start23 21%nat.
lrow_ l_psubq sims23_ok start23 22%nat.
lrow_ l_paddb sims19_ok start19 2%nat.
lrow_ l_paddw sims19_ok start19 9%nat.
lrow_ l_paddd sims19_ok start19 3%nat.
lrow_ l_pshufb sims22_ok start22 19%nat.
lrow_ l_phaddw sims20_ok start20 16%nat.
lrow_ l_phaddd sims20_ok start20 14%nat.
lrow_ l_phaddsw sims20_ok start20 15%nat.
lrow_ l_pmaddubsw sims20_ok start20 24%nat.
lrow_ l_phsubw sims20_ok start20 20%nat.
lrow_ l_phsubd sims20_ok start20 18%nat.
lrow_ l_phsubsw sims20_ok start20 19%nat.
lrow_ l_psignb sims22_ok start22 24%nat.
lrow_ l_psignw sims23_ok start23 1%nat.
lrow_ l_psignd sims23_ok start23 0%nat.
lrow_ l_pmulhrsw sims22_ok start22 2%nat.
lrow_ l_pabsb sims18_ok start18 20%nat.
lrow_ l_pabsw sims18_ok start18 22%nat.
lrow_ l_pabsd sims18_ok start18 21%nat.
lrow_ l_palignr sims19_ok start19 10%nat.
lrow_ l_movups_xo sims18_ok start18 1%nat.
lrow_ l_movupd_xo sims17_ok start17 24%nat.
lrow_ l_movss_xo sims17_ok start17 21%nat.
lrow_ l_movsd_xo sims17_ok start17 17%nat.
lrow_ l_movaps_xo sims16_ok start16 11%nat.
lrow_ l_movapd_xo sims16_ok start16 9%nat.
lrow_ l_movdqa_xo sims16_ok start16 21%nat.
lrow_ l_movdqu_xo sims16_ok start16 23%nat.
lrow_ l_pshufd sims22_ok start22 20%nat.
apply Forall_nil. Qed.
Definition leg32_7 : list (bool * lentry) := [
  (false, le32 e_pshufhw (roi Mnemonic32.i_pshufhw));
  (false, le32 e_pshuflw (roi Mnemonic32.i_pshuflw));
  (false, le32 e_pshufw (roi Mnemonic32.i_pshufw));
  (false, le32 e_cmovo_ro (ro Mnemonic32.i_cmovo_ro));
  (true, le32 e_seto (f_o Mnemonic32.i_seto));
  (false, le32 e_cmovno_ro (ro Mnemonic32.i_cmovno_ro));
  (true, le32 e_setno (f_o Mnemonic32.i_setno));
  (false, le32 e_cmovb_ro (ro Mnemonic32.i_cmovb_ro));
  (true, le32 e_setb (f_o Mnemonic32.i_setb));
  (false, le32 e_cmovc_ro (ro Mnemonic32.i_cmovc_ro));
  (true, le32 e_setc (f_o Mnemonic32.i_setc));
  (false, le32 e_cmovnae_ro (ro Mnemonic32.i_cmovnae_ro));
  (true, le32 e_setnae (f_o Mnemonic32.i_setnae));
  (false, le32 e_cmovae_ro (ro Mnemonic32.i_cmovae_ro));
  (true, le32 e_setae (f_o Mnemonic32.i_setae));
  (false, le32 e_cmovnb_ro (ro Mnemonic32.i_cmovnb_ro));
  (true, le32 e_setnb (f_o Mnemonic32.i_setnb));
  (false, le32 e_cmovnc_ro (ro Mnemonic32.i_cmovnc_ro));
  (true, le32 e_setnc (f_o Mnemonic32.i_setnc));
  (false, le32 e_cmove_ro (ro Mnemonic32.i_cmove_ro));
  (true, le32 e_sete (f_o Mnemonic32.i_sete));
  (false, le32 e_cmovz_ro (ro Mnemonic32.i_cmovz_ro));
  (true, le32 e_setz (f_o Mnemonic32.i_setz));
  (false, le32 e_cmovne_ro (ro Mnemonic32.i_cmovne_ro));
  (true, le32 e_setne (f_o Mnemonic32.i_setne));
  (false, le32 e_cmovnz_ro (ro Mnemonic32.i_cmovnz_ro));
  (true, le32 e_setnz (f_o Mnemonic32.i_setnz));
  (false, le32 e_cmovbe_ro (ro Mnemonic32.i_cmovbe_ro));
  (true, le32 e_setbe (f_o Mnemonic32.i_setbe));
  (false, le32 e_cmovna_ro (ro Mnemonic32.i_cmovna_ro))].
Lemma leg32_7_ok : Forall (fun p => limplements32 (fst p) (snd p)) (leg32_7).
Proof. unfold leg32_7.
lrow_ l_pshufhw sims22_ok start22 21%nat.
lrow_ l_pshuflw sims22_ok start22 22%nat.
lrow_ l_pshufw sims22_ok start22 23%nat.
lrow_ l_cmovo_ro sims8_ok start8 3%nat.
lrow_ l_seto sims27_ok start27 2%nat.
lrow_ l_cmovno_ro sims7_ok start7 20%nat.
lrow_ l_setno sims26_ok start26 23%nat.
lrow_ l_cmovb_ro sims6_ok start6 9%nat.
lrow_ l_setb sims26_ok start26 5%nat.
lrow_ l_cmovc_ro sims6_ok start6 13%nat.
lrow_ l_setc sims26_ok start26 7%nat.
lrow_ l_cmovnae_ro sims7_ok start7 2%nat.
lrow_ l_setnae sims26_ok start26 14%nat.
lrow_ l_cmovae_ro sims6_ok start6 7%nat.
lrow_ l_setae sims26_ok start26 4%nat.
lrow_ l_cmovnb_ro sims7_ok start7 4%nat.
lrow_ l_setnb sims26_ok start26 15%nat.
lrow_ l_cmovnc_ro sims7_ok start7 8%nat.
lrow_ l_setnc sims26_ok start26 17%nat.
lrow_ l_cmove_ro sims6_ok start6 15%nat.
lrow_ l_sete sims26_ok start26 8%nat.
lrow_ l_cmovz_ro sims8_ok start8 13%nat.
lrow_ l_setz sims27_ok start27 7%nat.
lrow_ l_cmovne_ro sims7_ok start7 10%nat.
lrow_ l_setne sims26_ok start26 18%nat.
lrow_ l_cmovnz_ro sims8_ok start8 1%nat.
lrow_ l_setnz sims27_ok start27 1%nat.
lrow_ l_cmovbe_ro sims6_ok start6 11%nat.
lrow_ l_setbe sims26_ok start26 6%nat.
lrow_ l_cmovna_ro sims7_ok start7 0%nat.
apply Forall_nil. Qed.
Definition leg32_8 : list (bool * lentry) := [
  (true, le32 e_setna (f_o Mnemonic32.i_setna));
  (false, le32 e_cmova_ro (ro Mnemonic32.i_cmova_ro));
  (true, le32 e_seta (f_o Mnemonic32.i_seta));
  (false, le32 e_cmovnbe_ro (ro Mnemonic32.i_cmovnbe_ro));
  (true, le32 e_setnbe (f_o Mnemonic32.i_setnbe));
  (false, le32 e_cmovs_ro (ro Mnemonic32.i_cmovs_ro));
  (true, le32 e_sets (f_o Mnemonic32.i_sets));
  (false, le32 e_cmovns_ro (ro Mnemonic32.i_cmovns_ro));
  (true, le32 e_setns (f_o Mnemonic32.i_setns));
  (false, le32 e_cmovp_ro (ro Mnemonic32.i_cmovp_ro));
  (true, le32 e_setp (f_o Mnemonic32.i_setp));
  (false, le32 e_cmovpe_ro (ro Mnemonic32.i_cmovpe_ro));
  (true, le32 e_setpe (f_o Mnemonic32.i_setpe));
  (false, le32 e_cmovnp_ro (ro Mnemonic32.i_cmovnp_ro));
  (true, le32 e_setnp (f_o Mnemonic32.i_setnp));
  (false, le32 e_cmovpo_ro (ro Mnemonic32.i_cmovpo_ro));
  (true, le32 e_setpo (f_o Mnemonic32.i_setpo));
  (false, le32 e_cmovl_ro (ro Mnemonic32.i_cmovl_ro));
  (true, le32 e_setl (f_o Mnemonic32.i_setl));
  (false, le32 e_cmovnge_ro (ro Mnemonic32.i_cmovnge_ro));
  (true, le32 e_setnge (f_o Mnemonic32.i_setnge));
  (false, le32 e_cmovge_ro (ro Mnemonic32.i_cmovge_ro));
  (true, le32 e_setge (f_o Mnemonic32.i_setge));
  (false, le32 e_cmovnl_ro (ro Mnemonic32.i_cmovnl_ro));
  (true, le32 e_setnl (f_o Mnemonic32.i_setnl));
  (false, le32 e_cmovle_ro (ro Mnemonic32.i_cmovle_ro));
  (true, le32 e_setle (f_o Mnemonic32.i_setle));
  (false, le32 e_cmovng_ro (ro Mnemonic32.i_cmovng_ro));
  (true, le32 e_setng (f_o Mnemonic32.i_setng));
  (false, le32 e_cmovg_ro (ro Mnemonic32.i_cmovg_ro))].
Lemma leg32_8_ok : Forall (fun p => limplements32 (fst p) (snd p)) (leg32_8).
Proof. unfold leg32_8.
lrow_ l_setna sims26_ok start26 13%nat.
lrow_ l_cmova_ro sims6_ok start6 5%nat.
lrow_ l_seta sims26_ok start26 3%nat.
lrow_ l_cmovnbe_ro sims7_ok start7 6%nat.
lrow_ l_setnbe sims26_ok start26 16%nat.
lrow_ l_cmovs_ro sims8_ok start8 11%nat.
lrow_ l_sets sims27_ok start27 6%nat.
lrow_ l_cmovns_ro sims7_ok start7 24%nat.
lrow_ l_setns sims27_ok start27 0%nat.
lrow_ l_cmovp_ro sims8_ok start8 5%nat.
lrow_ l_setp sims27_ok start27 3%nat.
lrow_ l_cmovpe_ro sims8_ok start8 7%nat.
lrow_ l_setpe sims27_ok start27 4%nat.
lrow_ l_cmovnp_ro sims7_ok start7 22%nat.
lrow_ l_setnp sims26_ok start26 24%nat.
lrow_ l_cmovpo_ro sims8_ok start8 9%nat.
lrow_ l_setpo sims27_ok start27 5%nat.
lrow_ l_cmovl_ro sims6_ok start6 21%nat.
lrow_ l_setl sims26_ok start26 11%nat.
lrow_ l_cmovnge_ro sims7_ok start7 14%nat.
lrow_ l_setnge sims26_ok start26 20%nat.
lrow_ l_cmovge_ro sims6_ok start6 19%nat.
lrow_ l_setge sims26_ok start26 10%nat.
lrow_ l_cmovnl_ro sims7_ok start7 16%nat.
lrow_ l_setnl sims26_ok start26 21%nat.
lrow_ l_cmovle_ro sims6_ok start6 23%nat.
lrow_ l_setle sims26_ok start26 12%nat.
lrow_ l_cmovng_ro sims7_ok start7 12%nat.
lrow_ l_setng sims26_ok start26 19%nat.
lrow_ l_cmovg_ro sims6_ok start6 17%nat.
apply Forall_nil. Qed.
Definition leg32_9 : list (bool * lentry) := [
  (true, le32 e_setg (f_o Mnemonic32.i_setg));
  (false, le32 e_cmovnle_ro (ro Mnemonic32.i_cmovnle_ro));
  (true, le32 e_setnle (f_o Mnemonic32.i_setnle));
  (false, le32 e_bsf (ro Mnemonic32.i_bsf));
  (false, le32 e_bsr (ro Mnemonic32.i_bsr));
  (false, le32 e_imul_ro (ro Mnemonic32.i_imul_ro));
  (false, le32 e_bt_or (or_ Mnemonic32.i_bt_or));
  (false, le32 e_bts_or (or_ Mnemonic32.i_bts_or));
  (false, le32 e_btr_or (or_ Mnemonic32.i_btr_or));
  (false, le32 e_btc_or (or_ Mnemonic32.i_btc_or));
  (false, le32 e_popcnt (ro Mnemonic32.i_popcnt));
  (false, le32 e_lzcnt (ro Mnemonic32.i_lzcnt));
  (false, le32 e_tzcnt (ro Mnemonic32.i_tzcnt));
  (false, le32 e_movzx (ro Mnemonic32.i_movzx));
  (false, le32 e_movsx (ro Mnemonic32.i_movsx));
  (false, le32 e_xadd (or_ Mnemonic32.i_xadd));
  (false, le32 e_cmpxchg (or_ Mnemonic32.i_cmpxchg));
  (false, le32 e_test_or (or_ Encode32.test_));
  (false, le32 e_add_oo (f_oo Mnemonic32.i_add_oo));
  (true, le32 e_add_oi (f_oi Mnemonic32.i_add_oi));
  (false, le32 e_or__oo (f_oo Mnemonic32.i_or__oo));
  (true, le32 e_or__oi (f_oi Mnemonic32.i_or__oi));
  (false, le32 e_adc_oo (f_oo Mnemonic32.i_adc_oo));
  (true, le32 e_adc_oi (f_oi Mnemonic32.i_adc_oi));
  (false, le32 e_sbb_oo (f_oo Mnemonic32.i_sbb_oo));
  (true, le32 e_sbb_oi (f_oi Mnemonic32.i_sbb_oi));
  (false, le32 e_and__oo (f_oo Mnemonic32.i_and__oo));
  (true, le32 e_and__oi (f_oi Mnemonic32.i_and__oi));
  (false, le32 e_sub_oo (f_oo Mnemonic32.i_sub_oo));
  (true, le32 e_sub_oi (f_oi Mnemonic32.i_sub_oi))].
Lemma leg32_9_ok : Forall (fun p => limplements32 (fst p) (snd p)) (leg32_9).
Proof. unfold leg32_9.
lrow_ l_setg sims26_ok start26 9%nat.
lrow_ l_cmovnle_ro sims7_ok start7 18%nat.
lrow_ l_setnle sims26_ok start26 22%nat.
lrow_ l_bsf sims2_ok start2 1%nat.
lrow_ l_bsr sims2_ok start2 2%nat.
lrow_ l_imul_ro sims15_ok start15 15%nat.
lrow_ l_bt_or sims2_ok start2 3%nat.
lrow_ l_bts_or sims2_ok start2 9%nat.
lrow_ l_btr_or sims2_ok start2 7%nat.
lrow_ l_btc_or sims2_ok start2 5%nat.
lrow_ l_popcnt sims22_ok start22 8%nat.
lrow_ l_lzcnt sims15_ok start15 22%nat.
lrow_ l_tzcnt sims28_ok start28 23%nat.
lrow_ l_movzx sims18_ok start18 2%nat.
lrow_ l_movsx sims17_ok start17 22%nat.
lrow_ l_xadd sims50_ok start50 9%nat.
lrow_ l_cmpxchg sims10_ok start10 2%nat.
lrow_ l_test_or sims88_ok start88 18%nat.
lrow_ l_add_oo sims0_ok start0 9%nat.
lrow_ l_add_oi sims0_ok start0 8%nat.
lrow_ l_or__oo sims18_ok start18 15%nat.
lrow_ l_or__oi sims18_ok start18 14%nat.
lrow_ l_adc_oo sims0_ok start0 3%nat.
lrow_ l_adc_oi sims0_ok start0 2%nat.
lrow_ l_sbb_oo sims26_ok start26 0%nat.
lrow_ l_sbb_oi sims25_ok start25 24%nat.
lrow_ l_and__oo sims1_ok start1 2%nat.
lrow_ l_and__oi sims1_ok start1 1%nat.
lrow_ l_sub_oo sims28_ok start28 16%nat.
lrow_ l_sub_oi sims28_ok start28 15%nat.
apply Forall_nil. Qed.
Definition leg32_10 : list (bool * lentry) := [
  (false, le32 e_xor__oo (f_oo Mnemonic32.i_xor__oo));
  (true, le32 e_xor__oi (f_oi Mnemonic32.i_xor__oi));
  (false, le32 e_cmp_oo (f_oo Mnemonic32.i_cmp_oo));
  (true, le32 e_cmp_oi (f_oi Mnemonic32.i_cmp_oi));
  (false, le32 e_movnti (ar Mnemonic32.i_movnti));
  (false, le32 e_aadd (ar Mnemonic32.i_aadd));
  (false, le32 e_aand (ar Mnemonic32.i_aand));
  (false, le32 e_aor (ar Mnemonic32.i_aor));
  (false, le32 e_axor (ar Mnemonic32.i_axor));
  (false, le32 e_movdiri (ar Mnemonic32.i_movdiri));
  (false, le32 e_movbe_ra (ra Mnemonic32.i_movbe_ra));
  (false, le32 e_movbe_ar (ar Mnemonic32.i_movbe_ar));
  (false, le32 e_adcx_eo (ro Mnemonic32.i_adcx_eo));
  (false, le32 e_adox_eo (ro Mnemonic32.i_adox_eo));
  (false, le32 e_crc32 (ro Mnemonic32.i_crc32));
  (true, le32 e_not__o (f_o Mnemonic32.i_not__o));
  (true, le32 e_neg_o (f_o Mnemonic32.i_neg_o));
  (true, le32 e_mul (f_o Mnemonic32.i_mul));
  (true, le32 e_imul_o (f_o Mnemonic32.i_imul_o));
  (true, le32 e_div (f_o Mnemonic32.i_div));
  (true, le32 e_idiv (f_o Mnemonic32.i_idiv));
  (true, le32 e_rol_oi (f_oi Mnemonic32.i_rol_oi));
  (true, le32 e_rol_ob (or_ Mnemonic32.i_rol_ob));
  (true, le32 e_ror_oi (f_oi Mnemonic32.i_ror_oi));
  (true, le32 e_ror_ob (or_ Mnemonic32.i_ror_ob));
  (true, le32 e_rcl_oi (f_oi Mnemonic32.i_rcl_oi));
  (true, le32 e_rcl_ob (or_ Mnemonic32.i_rcl_ob));
  (true, le32 e_rcr_oi (f_oi Mnemonic32.i_rcr_oi));
  (true, le32 e_rcr_ob (or_ Mnemonic32.i_rcr_ob));
  (true, le32 e_shl_oi (f_oi Mnemonic32.i_shl_oi))].
Lemma leg32_10_ok : Forall (fun p => limplements32 (fst p) (snd p)) (leg32_10).
Proof. unfold leg32_10.
lrow_ l_xor__oo sims50_ok start50 11%nat.
lrow_ l_xor__oi sims50_ok start50 10%nat.
lrow_ l_cmp_oo sims8_ok start8 15%nat.
lrow_ l_cmp_oi sims8_ok start8 14%nat.
lrow_ l_movnti sims17_ok start17 9%nat.
lrow_ l_aadd sims0_ok start0 0%nat.
lrow_ l_aand sims0_ok start0 1%nat.
lrow_ l_aor sims1_ok start1 10%nat.
lrow_ l_axor sims1_ok start1 11%nat.
lrow_ l_movdiri sims16_ok start16 18%nat.
lrow_ l_movbe_ra sims16_ok start16 13%nat.
lrow_ l_movbe_ar sims16_ok start16 12%nat.
lrow_ l_adcx_eo sims0_ok start0 7%nat.
lrow_ l_adox_eo sims0_ok start0 19%nat.
lrow_ l_crc32 sims10_ok start10 6%nat.
lrow_ l_not__o sims18_ok start18 12%nat.
lrow_ l_neg_o sims18_ok start18 10%nat.
lrow_ l_mul sims18_ok start18 4%nat.
lrow_ l_imul_o sims15_ok start15 13%nat.
lrow_ l_div sims13_ok start13 10%nat.
lrow_ l_idiv sims15_ok start15 12%nat.
lrow_ l_rol_oi sims25_ok start25 1%nat.
lrow_ l_rol_ob sims25_ok start25 0%nat.
lrow_ l_ror_oi sims25_ok start25 5%nat.
lrow_ l_ror_ob sims25_ok start25 4%nat.
lrow_ l_rcl_oi sims24_ok start24 14%nat.
lrow_ l_rcl_ob sims24_ok start24 13%nat.
lrow_ l_rcr_oi sims24_ok start24 20%nat.
lrow_ l_rcr_ob sims24_ok start24 19%nat.
lrow_ l_shl_oi sims27_ok start27 16%nat.
apply Forall_nil. Qed.
Definition leg32_11 : list (bool * lentry) := [
  (true, le32 e_shl_ob (or_ Mnemonic32.i_shl_ob));
  (true, le32 e_sal_oi (f_oi Mnemonic32.i_sal_oi));
  (true, le32 e_sal_ob (or_ Mnemonic32.i_sal_ob));
  (true, le32 e_shr_oi (f_oi Mnemonic32.i_shr_oi));
  (true, le32 e_shr_ob (or_ Mnemonic32.i_shr_ob));
  (true, le32 e_sar_oi (f_oi Mnemonic32.i_sar_oi));
  (true, le32 e_sar_ob (or_ Mnemonic32.i_sar_ob))].
Lemma leg32_11_ok : Forall (fun p => limplements32 (fst p) (snd p)) (leg32_11).
Proof. unfold leg32_11.
lrow_ l_shl_ob sims27_ok start27 15%nat.
lrow_ l_sal_oi sims25_ok start25 16%nat.
lrow_ l_sal_ob sims25_ok start25 15%nat.
lrow_ l_shr_oi sims28_ok start28 0%nat.
lrow_ l_shr_ob sims27_ok start27 24%nat.
lrow_ l_sar_oi sims25_ok start25 20%nat.
lrow_ l_sar_ob sims25_ok start25 19%nat.
apply Forall_nil. Qed.
Definition leg32_table : list (bool * lentry) := leg32_0 ++ leg32_1 ++ leg32_2 ++ leg32_3 ++ leg32_4 ++ leg32_5 ++ leg32_6 ++ leg32_7 ++ leg32_8 ++ leg32_9 ++ leg32_10 ++ leg32_11.
Lemma leg32_ok : Forall (fun p => limplements32 (fst p) (snd p)) (leg32_table).
Proof. unfold leg32_table. repeat (apply Forall_app; split); auto using leg32_0_ok, leg32_1_ok, leg32_2_ok, leg32_3_ok, leg32_4_ok, leg32_5_ok, leg32_6_ok, leg32_7_ok, leg32_8_ok, leg32_9_ok, leg32_10_ok, leg32_11_ok. Qed.
Definition mix32_0 : list (bool * mentry) := [
  (false, me32 me_0 (f_a Mnemonic32.i_cldemote));
  (false, me32 me_1 (f_a Mnemonic32.i_clflush));
  (false, me32 me_2 (f_a Mnemonic32.i_clflushopt));
  (false, me32 me_3 (f_a Mnemonic32.i_clwb));
  (false, me32 me_4 (f_a Mnemonic32.i_cmpxchg8b));
  (false, me32 me_6 (f_a Mnemonic32.i_fxrstor));
  (false, me32 me_8 (f_a Mnemonic32.i_ldmxcsr));
  (false, me32 me_9 (f_a Mnemonic32.i_stmxcsr));
  (false, me32 me_10 (f_a Mnemonic32.i_prefetchnta));
  (false, me32 me_11 (f_a Mnemonic32.i_prefetcht0));
  (false, me32 me_12 (f_a Mnemonic32.i_prefetcht1));
  (false, me32 me_13 (f_a Mnemonic32.i_prefetcht2));
  (false, me32 me_14 (f_a Mnemonic32.i_prefetchit1));
  (false, me32 me_15 (f_a Mnemonic32.i_prefetchit0));
  (false, me32 me_16 (f_a Mnemonic32.i_prefetchw));
  (false, me32 me_17 (f_a Mnemonic32.i_prefetchwt1));
  (false, me32 me_18 (f_a Mnemonic32.i_fbld));
  (false, me32 me_19 (f_a Mnemonic32.i_fbstp));
  (false, me32 me_20 (f_a Mnemonic32.i_fldcw));
  (false, me32 me_21 (f_a Mnemonic32.i_fldenv));
  (false, me32 me_22 (f_a Mnemonic32.i_fnsave));
  (false, me32 me_23 (f_a Mnemonic32.i_fnstcw));
  (false, me32 me_24 (f_a Mnemonic32.i_fnstenv));
  (false, me32 me_25 (f_a Mnemonic32.i_fnstsw_a));
  (false, me32 me_26 (f_a Mnemonic32.i_frstor));
  (false, me32 me_27 (f_ro Mnemonic32.i_cvtpd2pi));
  (false, me32 me_28 (f_ro Mnemonic32.i_cvttpd2pi));
  (false, me32 me_29 (f_ro Mnemonic32.i_cvtps2pi));
  (false, me32 me_30 (f_ro Mnemonic32.i_cvttps2pi));
  (false, me32 me_31 (f_ro Mnemonic32.i_cvtpi2pd))].
Lemma mix32_0_ok : Forall (fun p => mimplements32 (fst p) (snd p)) (mix32_0).
Proof. unfold mix32_0.
mrow_ m_0 sims6_ok start6 0%nat.
mrow_ m_1 sims6_ok start6 1%nat.
mrow_ m_2 sims6_ok start6 2%nat.
mrow_ m_3 sims6_ok start6 3%nat.
mrow_ m_4 sims10_ok start10 3%nat.
mrow_ m_6 sims15_ok start15 4%nat.
mrow_ m_8 sims15_ok start15 18%nat.
mrow_ m_9 sims28_ok start28 14%nat.
mrow_ m_10 sims22_ok start22 12%nat.
mrow_ m_11 sims22_ok start22 13%nat.
mrow_ m_12 sims22_ok start22 14%nat.
mrow_ m_13 sims22_ok start22 15%nat.
mrow_ m_14 sims22_ok start22 11%nat.
mrow_ m_15 sims22_ok start22 10%nat.
mrow_ m_16 sims22_ok start22 16%nat.
mrow_ m_17 sims22_ok start22 17%nat.
mrow_ m_18 sims13_ok start13 19%nat.
mrow_ m_19 sims13_ok start13 20%nat.
mrow_ m_20 sims14_ok start14 13%nat.
mrow_ m_21 sims14_ok start14 14%nat.
mrow_ m_22 sims14_ok start14 16%nat.
mrow_ m_23 sims14_ok start14 17%nat.
mrow_ m_24 sims14_ok start14 18%nat.
mrow_ m_25 sims14_ok start14 19%nat.
mrow_ m_26 sims14_ok start14 20%nat.
mrow_ m_27 sims12_ok start12 16%nat.
mrow_ m_28 sims13_ok start13 5%nat.
mrow_ m_29 sims12_ok start12 22%nat.
mrow_ m_30 sims13_ok start13 7%nat.
mrow_ m_31 sims12_ok start12 18%nat.
apply Forall_nil. Qed.
Definition mix32_1 : list (bool * mentry) := [
  (false, me32 me_32 (f_ro Mnemonic32.i_cvtpi2ps));
  (false, me32 me_33 (f_ro Mnemonic32.i_cvtsd2si));
  (false, me32 me_34 (f_ro Mnemonic32.i_cvttsd2si));
  (false, me32 me_35 (f_ro Mnemonic32.i_cvtss2si));
  (false, me32 me_36 (f_ro Mnemonic32.i_cvttss2si));
  (false, me32 me_37 (f_ro Mnemonic32.i_cvtsi2sd));
  (false, me32 me_38 (f_ro Mnemonic32.i_cvtsi2ss));
  (false, me32 me_39 (f_rr Mnemonic32.i_maskmovdqu));
  (false, me32 me_40 (f_rr Mnemonic32.i_maskmovq));
  (false, me32 me_41 (f_rr Mnemonic32.i_movdq2q));
  (false, me32 me_42 (f_rr Mnemonic32.i_movq2dq));
  (false, me32 me_43 (f_rr Mnemonic32.i_movhlps));
  (false, me32 me_44 (f_rr Mnemonic32.i_movlhps));
  (false, me32 me_45 (f_rr Mnemonic32.i_movmskps));
  (false, me32 me_46 (f_ra Mnemonic32.i_lddqu));
  (false, me32 me_47 (f_ra Mnemonic32.i_movntdqa));
  (false, me32 me_48 (f_ar Mnemonic32.i_movaps_ax));
  (false, me32 me_49 (f_ar Mnemonic32.i_movapd_ax));
  (false, me32 me_50 (f_ar Mnemonic32.i_movups_ax));
  (false, me32 me_51 (f_ar Mnemonic32.i_movupd_ax));
  (false, me32 me_52 (f_ar Mnemonic32.i_movdqa_ax));
  (false, me32 me_53 (f_ar Mnemonic32.i_movdqu_ax));
  (false, me32 me_54 (f_ar Mnemonic32.i_movss_ax));
  (false, me32 me_55 (f_ar Mnemonic32.i_movsd_ax));
  (false, me32 me_56 (f_ar Mnemonic32.i_movntdq));
  (false, me32 me_57 (f_ar Mnemonic32.i_movntpd));
  (false, me32 me_58 (f_ar Mnemonic32.i_movntps));
  (false, me32 me_59 (f_ar Mnemonic32.i_movntq));
  (false, me32 me_60 (f_ro Mnemonic32.i_movd_mo));
  (false, me32 me_61 (f_or Mnemonic32.i_movd_om))].
Lemma mix32_1_ok : Forall (fun p => mimplements32 (fst p) (snd p)) (mix32_1).
Proof. unfold mix32_1.
mrow_ m_32 sims12_ok start12 19%nat.
mrow_ m_33 sims12_ok start12 23%nat.
mrow_ m_34 sims13_ok start13 8%nat.
mrow_ m_35 sims13_ok start13 3%nat.
mrow_ m_36 sims13_ok start13 9%nat.
mrow_ m_37 sims13_ok start13 0%nat.
mrow_ m_38 sims13_ok start13 1%nat.
mrow_ m_39 sims15_ok start15 23%nat.
mrow_ m_40 sims15_ok start15 24%nat.
mrow_ m_41 sims16_ok start16 19%nat.
mrow_ m_42 sims17_ok start17 15%nat.
mrow_ m_43 sims16_ok start16 24%nat.
mrow_ m_44 sims17_ok start17 2%nat.
mrow_ m_45 sims17_ok start17 5%nat.
mrow_ m_46 sims15_ok start15 17%nat.
mrow_ m_47 sims17_ok start17 8%nat.
mrow_ m_48 sims16_ok start16 10%nat.
mrow_ m_49 sims16_ok start16 8%nat.
mrow_ m_50 sims18_ok start18 0%nat.
mrow_ m_51 sims17_ok start17 23%nat.
mrow_ m_52 sims16_ok start16 20%nat.
mrow_ m_53 sims16_ok start16 22%nat.
mrow_ m_54 sims17_ok start17 20%nat.
mrow_ m_55 sims17_ok start17 16%nat.
mrow_ m_56 sims17_ok start17 7%nat.
mrow_ m_57 sims17_ok start17 10%nat.
mrow_ m_58 sims17_ok start17 11%nat.
mrow_ m_59 sims17_ok start17 12%nat.
mrow_ m_60 sims16_ok start16 14%nat.
mrow_ m_61 sims16_ok start16 15%nat.
apply Forall_nil. Qed.
Definition mix32_2 : list (bool * mentry) := [
  (false, me32 me_64 (f_ro Mnemonic32.i_movq_mo));
  (false, me32 me_65 (f_ar Mnemonic32.i_movq_am));
  (false, me32 me_66 (f_rr Mnemonic32.i_pmovmskb));
  (false, me32 me_67 (f_rr Mnemonic32.i_movmskpd));
  (false, me32 me_68 (f_roi Mnemonic32.i_pinsrb));
  (false, me32 me_69 (f_roi Mnemonic32.i_pinsrd));
  (false, me32 me_70 (f_roi Mnemonic32.i_pinsrw));
  (false, me32 me_71 (f_roi Mnemonic32.i_pinsrw));
  (false, me32 me_74 (f_ori Mnemonic32.i_pextrb));
  (false, me32 me_75 (f_ori Mnemonic32.i_extractps));
  (false, me32 me_76 (f_ori Mnemonic32.i_pextrd));
  (false, me32 ne_0 (f_oo Mnemonic32.i_movhps));
  (false, me32 ne_1 (f_oo Mnemonic32.i_movhps));
  (false, me32 ne_2 (f_oo Mnemonic32.i_movhpd));
  (false, me32 ne_3 (f_oo Mnemonic32.i_movhpd));
  (false, me32 ne_4 (f_oo Mnemonic32.i_movlps));
  (false, me32 ne_5 (f_oo Mnemonic32.i_movlps));
  (false, me32 ne_6 (f_oo Mnemonic32.i_movlpd));
  (false, me32 ne_7 (f_oo Mnemonic32.i_movlpd));
  (false, me32 ne_8 (f_ri Mnemonic32.i_psllw_mi));
  (false, me32 ne_9 (f_ri Mnemonic32.i_pslld_mi));
  (false, me32 ne_10 (f_ri Mnemonic32.i_psllq_mi));
  (false, me32 ne_11 (f_ri Mnemonic32.i_psraw_mi));
  (false, me32 ne_12 (f_ri Mnemonic32.i_psrad_mi));
  (false, me32 ne_13 (f_ri Mnemonic32.i_psrlw_mi));
  (false, me32 ne_14 (f_ri Mnemonic32.i_psrld_mi));
  (false, me32 ne_15 (f_ri Mnemonic32.i_psrlq_mi));
  (false, me32 ne_16 (f_ri Mnemonic32.i_pslldq));
  (false, me32 ne_17 (f_ri Mnemonic32.i_psrldq));
  (true, me32 ne_18 (f_r Mnemonic32.i_rdrand))].
Lemma mix32_2_ok : Forall (fun p => mimplements32 (fst p) (snd p)) (mix32_2).
Proof. unfold mix32_2.
mrow_ m_64 sims17_ok start17 14%nat.
mrow_ m_65 sims17_ok start17 13%nat.
mrow_ m_66 sims21_ok start21 13%nat.
mrow_ m_67 sims17_ok start17 6%nat.
mrow_ m_68 sims20_ok start20 21%nat.
mrow_ m_69 sims20_ok start20 22%nat.
mrow_ m_70 sims20_ok start20 23%nat.
mrow_ m_71 sims20_ok start20 23%nat.
mrow_ m_74 sims20_ok start20 11%nat.
mrow_ m_75 sims13_ok start13 17%nat.
mrow_ m_76 sims20_ok start20 12%nat.
mrow_ n_0 sims17_ok start17 1%nat.
mrow_ n_1 sims17_ok start17 1%nat.
mrow_ n_2 sims17_ok start17 0%nat.
mrow_ n_3 sims17_ok start17 0%nat.
mrow_ n_4 sims17_ok start17 4%nat.
mrow_ n_5 sims17_ok start17 4%nat.
mrow_ n_6 sims17_ok start17 3%nat.
mrow_ n_7 sims17_ok start17 3%nat.
mrow_ n_8 sims23_ok start23 8%nat.
mrow_ n_9 sims23_ok start23 3%nat.
mrow_ n_10 sims23_ok start23 6%nat.
mrow_ n_11 sims23_ok start23 12%nat.
mrow_ n_12 sims23_ok start23 10%nat.
mrow_ n_13 sims23_ok start23 19%nat.
mrow_ n_14 sims23_ok start23 14%nat.
mrow_ n_15 sims23_ok start23 17%nat.
mrow_ n_16 sims23_ok start23 4%nat.
mrow_ n_17 sims23_ok start23 15%nat.
mrow_ n_18 sims24_ok start24 23%nat.
apply Forall_nil. Qed.
Definition mix32_3 : list (bool * mentry) := [
  (true, me32 ne_19 (f_r Mnemonic32.i_rdseed));
  (false, me32 ne_25 (f_a Mnemonic32.i_fadd_a));
  (false, me32 ne_26 (f_a Mnemonic32.i_fcom_a));
  (false, me32 ne_27 (f_a Mnemonic32.i_fcomp_a));
  (false, me32 ne_28 (f_a Mnemonic32.i_fdiv_a));
  (false, me32 ne_29 (f_a Mnemonic32.i_fdivr_a));
  (false, me32 ne_30 (f_a Mnemonic32.i_fmul_a));
  (false, me32 ne_31 (f_a Mnemonic32.i_fsub_a));
  (false, me32 ne_32 (f_a Mnemonic32.i_fsubr_a));
  (false, me32 ne_33 (f_a Mnemonic32.i_fiadd));
  (false, me32 ne_34 (f_a Mnemonic32.i_ficom));
  (false, me32 ne_35 (f_a Mnemonic32.i_ficomp));
  (false, me32 ne_36 (f_a Mnemonic32.i_fidiv));
  (false, me32 ne_37 (f_a Mnemonic32.i_fidivr));
  (false, me32 ne_38 (f_a Mnemonic32.i_fimul));
  (false, me32 ne_39 (f_a Mnemonic32.i_fisub));
  (false, me32 ne_40 (f_a Mnemonic32.i_fisubr));
  (false, me32 ne_41 (f_a Mnemonic32.i_fild));
  (false, me32 ne_42 (f_a Mnemonic32.i_fist));
  (false, me32 ne_43 (f_a Mnemonic32.i_fistp));
  (false, me32 ne_44 (f_a Mnemonic32.i_fisttp));
  (false, me32 ne_45 (f_a Mnemonic32.i_fld_a));
  (false, me32 ne_46 (f_a Mnemonic32.i_fst_a));
  (false, me32 ne_47 (f_a Mnemonic32.i_fstp_a));
  (true, me32 ne_48 (f_ro Mnemonic32.i_bndcl));
  (true, me32 ne_49 (f_ro Mnemonic32.i_bndcu));
  (true, me32 ne_50 (f_ro Mnemonic32.i_bndcn));
  (false, me32 ne_51 (f_ra Mnemonic32.i_bndmk));
  (false, me32 ne_52 (f_ar Mnemonic32.i_bndmov_an));
  (false, me32 ne_53 (f_ro Mnemonic32.i_bndmov_no))].
Lemma mix32_3_ok : Forall (fun p => mimplements32 (fst p) (snd p)) (mix32_3).
Proof. unfold mix32_3.
mrow_ n_19 sims24_ok start24 24%nat.
mrow_ n_25 sims13_ok start13 18%nat.
mrow_ n_26 sims13_ok start13 21%nat.
mrow_ n_27 sims13_ok start13 22%nat.
mrow_ n_28 sims13_ok start13 23%nat.
mrow_ n_29 sims13_ok start13 24%nat.
mrow_ n_30 sims14_ok start14 15%nat.
mrow_ n_31 sims15_ok start15 2%nat.
mrow_ n_32 sims15_ok start15 3%nat.
mrow_ n_33 sims14_ok start14 0%nat.
mrow_ n_34 sims14_ok start14 1%nat.
mrow_ n_35 sims14_ok start14 2%nat.
mrow_ n_36 sims14_ok start14 3%nat.
mrow_ n_37 sims14_ok start14 4%nat.
mrow_ n_38 sims14_ok start14 6%nat.
mrow_ n_39 sims14_ok start14 10%nat.
mrow_ n_40 sims14_ok start14 11%nat.
mrow_ n_41 sims14_ok start14 5%nat.
mrow_ n_42 sims14_ok start14 7%nat.
mrow_ n_43 sims14_ok start14 8%nat.
mrow_ n_44 sims14_ok start14 9%nat.
mrow_ n_45 sims14_ok start14 12%nat.
mrow_ n_46 sims14_ok start14 22%nat.
mrow_ n_47 sims15_ok start15 0%nat.
mrow_ n_48 sims1_ok start1 20%nat.
mrow_ n_49 sims1_ok start1 22%nat.
mrow_ n_50 sims1_ok start1 21%nat.
mrow_ n_51 sims1_ok start1 23%nat.
mrow_ n_52 sims1_ok start1 24%nat.
mrow_ n_53 sims2_ok start2 0%nat.
apply Forall_nil. Qed.
Definition mix32_4 : list (bool * mentry) := [
  (false, me32 ne_56 (f_ra Mnemonic32.i_lss));
  (false, me32 ne_57 (f_ra Mnemonic32.i_lfs));
  (false, me32 ne_58 (f_ra Mnemonic32.i_lgs));
  (false, me32 ne_59 (f_ro Mnemonic32.i_sha1nexte));
  (false, me32 ne_60 (f_ro Mnemonic32.i_sha1msg1));
  (false, me32 ne_61 (f_ro Mnemonic32.i_sha1msg2));
  (false, me32 ne_62 (f_ro Mnemonic32.i_sha256rnds2));
  (false, me32 ne_63 (f_ro Mnemonic32.i_sha256msg1));
  (false, me32 ne_64 (f_ro Mnemonic32.i_sha256msg2));
  (false, me32 ne_65 (f_roi Mnemonic32.i_sha1rnds4));
  (true, me32 ne_74 (f_oi Mnemonic32.i_bt_oi));
  (true, me32 ne_75 (f_oi Mnemonic32.i_bts_oi));
  (true, me32 ne_76 (f_oi Mnemonic32.i_btr_oi));
  (true, me32 ne_77 (f_oi Mnemonic32.i_btc_oi));
  (false, me32 ne_78 (f_ra Mnemonic32.i_movdir64b));
  (false, me32 ne_79 (f_ori Mnemonic32.i_pextrw));
  (false, me32 ne_80 (f_ori Mnemonic32.i_pextrw))].
Lemma mix32_4_ok : Forall (fun p => mimplements32 (fst p) (snd p)) (mix32_4).
Proof. unfold mix32_4.
mrow_ n_56 sims15_ok start15 21%nat.
mrow_ n_57 sims15_ok start15 19%nat.
mrow_ n_58 sims15_ok start15 20%nat.
mrow_ n_59 sims27_ok start27 10%nat.
mrow_ n_60 sims27_ok start27 8%nat.
mrow_ n_61 sims27_ok start27 9%nat.
mrow_ n_62 sims27_ok start27 14%nat.
mrow_ n_63 sims27_ok start27 12%nat.
mrow_ n_64 sims27_ok start27 13%nat.
mrow_ n_65 sims27_ok start27 11%nat.
mrow_ n_74 sims2_ok start2 4%nat.
mrow_ n_75 sims2_ok start2 10%nat.
mrow_ n_76 sims2_ok start2 8%nat.
mrow_ n_77 sims2_ok start2 6%nat.
mrow_ n_78 sims16_ok start16 17%nat.
mrow_ n_79 sims20_ok start20 13%nat.
mrow_ n_80 sims20_ok start20 13%nat.
apply Forall_nil. Qed.
Definition mix32_table : list (bool * mentry) := mix32_0 ++ mix32_1 ++ mix32_2 ++ mix32_3 ++ mix32_4.
Lemma mix32_ok : Forall (fun p => mimplements32 (fst p) (snd p)) (mix32_table).
Proof. unfold mix32_table. repeat (apply Forall_app; split); auto using mix32_0_ok, mix32_1_ok, mix32_2_ok, mix32_3_ok, mix32_4_ok. Qed.
Definition vex32_0 : list (bool * entry) := [
  (false, en32 (mkEntry "vaddps/xoo" [cX; cX; cO] (roo i_vaddps) r_vaddps_xoo VlRegs) (roo Mnemonic32.i_vaddps));
  (false, en32 (mkEntry "vaddpd/xoo" [cX; cX; cO] (roo i_vaddpd) r_vaddpd_xoo VlRegs) (roo Mnemonic32.i_vaddpd));
  (false, en32 (mkEntry "vaddss/xoo" [cX; cX; cO] (roo i_vaddss) r_vaddss_xoo VlRegs) (roo Mnemonic32.i_vaddss));
  (false, en32 (mkEntry "vaddsd/xoo" [cX; cX; cO] (roo i_vaddsd) r_vaddsd_xoo VlRegs) (roo Mnemonic32.i_vaddsd));
  (false, en32 (mkEntry "vaddph/xoo" [cX; cX; cO] (roo i_vaddph) r_vaddph_xoo VlRegs) (roo MnemonicAvx32.i_vaddph));
  (false, en32 (mkEntry "vaddsh/xoo" [cX; cX; cO] (roo i_vaddsh) r_vaddsh_xoo VlRegs) (roo MnemonicAvx32.i_vaddsh));
  (false, en32 (mkEntry "vmulps/xoo" [cX; cX; cO] (roo i_vmulps) r_vmulps_xoo VlRegs) (roo Mnemonic32.i_vmulps));
  (false, en32 (mkEntry "vmulpd/xoo" [cX; cX; cO] (roo i_vmulpd) r_vmulpd_xoo VlRegs) (roo Mnemonic32.i_vmulpd));
  (false, en32 (mkEntry "vmulss/xoo" [cX; cX; cO] (roo i_vmulss) r_vmulss_xoo VlRegs) (roo Mnemonic32.i_vmulss));
  (false, en32 (mkEntry "vmulsd/xoo" [cX; cX; cO] (roo i_vmulsd) r_vmulsd_xoo VlRegs) (roo Mnemonic32.i_vmulsd));
  (false, en32 (mkEntry "vmulph/xoo" [cX; cX; cO] (roo i_vmulph) r_vmulph_xoo VlRegs) (roo MnemonicAvx32.i_vmulph));
  (false, en32 (mkEntry "vmulsh/xoo" [cX; cX; cO] (roo i_vmulsh) r_vmulsh_xoo VlRegs) (roo MnemonicAvx32.i_vmulsh));
  (false, en32 (mkEntry "vsubps/xoo" [cX; cX; cO] (roo i_vsubps) r_vsubps_xoo VlRegs) (roo Mnemonic32.i_vsubps));
  (false, en32 (mkEntry "vsubpd/xoo" [cX; cX; cO] (roo i_vsubpd) r_vsubpd_xoo VlRegs) (roo Mnemonic32.i_vsubpd));
  (false, en32 (mkEntry "vsubss/xoo" [cX; cX; cO] (roo i_vsubss) r_vsubss_xoo VlRegs) (roo Mnemonic32.i_vsubss));
  (false, en32 (mkEntry "vsubsd/xoo" [cX; cX; cO] (roo i_vsubsd) r_vsubsd_xoo VlRegs) (roo Mnemonic32.i_vsubsd));
  (false, en32 (mkEntry "vsubph/xoo" [cX; cX; cO] (roo i_vsubph) r_vsubph_xoo VlRegs) (roo MnemonicAvx32.i_vsubph));
  (false, en32 (mkEntry "vsubsh/xoo" [cX; cX; cO] (roo i_vsubsh) r_vsubsh_xoo VlRegs) (roo MnemonicAvx32.i_vsubsh));
  (false, en32 (mkEntry "vminps/xoo" [cX; cX; cO] (roo i_vminps) r_vminps_xoo VlRegs) (roo Mnemonic32.i_vminps));
  (false, en32 (mkEntry "vminpd/xoo" [cX; cX; cO] (roo i_vminpd) r_vminpd_xoo VlRegs) (roo Mnemonic32.i_vminpd));
  (false, en32 (mkEntry "vminss/xoo" [cX; cX; cO] (roo i_vminss) r_vminss_xoo VlRegs) (roo Mnemonic32.i_vminss));
  (false, en32 (mkEntry "vminsd/xoo" [cX; cX; cO] (roo i_vminsd) r_vminsd_xoo VlRegs) (roo Mnemonic32.i_vminsd));
  (false, en32 (mkEntry "vminph/xoo" [cX; cX; cO] (roo i_vminph) r_vminph_xoo VlRegs) (roo MnemonicAvx32.i_vminph));
  (false, en32 (mkEntry "vminsh/xoo" [cX; cX; cO] (roo i_vminsh) r_vminsh_xoo VlRegs) (roo MnemonicAvx32.i_vminsh));
  (false, en32 (mkEntry "vdivps/xoo" [cX; cX; cO] (roo i_vdivps) r_vdivps_xoo VlRegs) (roo Mnemonic32.i_vdivps));
  (false, en32 (mkEntry "vdivpd/xoo" [cX; cX; cO] (roo i_vdivpd) r_vdivpd_xoo VlRegs) (roo Mnemonic32.i_vdivpd));
  (false, en32 (mkEntry "vdivss/xoo" [cX; cX; cO] (roo i_vdivss) r_vdivss_xoo VlRegs) (roo Mnemonic32.i_vdivss));
  (false, en32 (mkEntry "vdivsd/xoo" [cX; cX; cO] (roo i_vdivsd) r_vdivsd_xoo VlRegs) (roo Mnemonic32.i_vdivsd));
  (false, en32 (mkEntry "vdivph/xoo" [cX; cX; cO] (roo i_vdivph) r_vdivph_xoo VlRegs) (roo MnemonicAvx32.i_vdivph));
  (false, en32 (mkEntry "vdivsh/xoo" [cX; cX; cO] (roo i_vdivsh) r_vdivsh_xoo VlRegs) (roo MnemonicAvx32.i_vdivsh))].
Lemma vex32_0_ok : Forall (fun p => implements32 (fst p) (snd p)) (vex32_0).
Proof. unfold vex32_0.
vrow_ tab0_ok 0%nat sims29_ok start29 6%nat.
vrow_ tab0_ok 1%nat sims29_ok start29 5%nat.
vrow_ tab0_ok 2%nat sims29_ok start29 8%nat.
vrow_ tab0_ok 3%nat sims29_ok start29 7%nat.
vrow_ tab0_ok 4%nat sims53_ok start53 12%nat.
vrow_ tab0_ok 5%nat sims53_ok start53 13%nat.
vrow_ tab0_ok 6%nat sims42_ok start42 0%nat.
vrow_ tab0_ok 7%nat sims41_ok start41 24%nat.
vrow_ tab0_ok 8%nat sims42_ok start42 2%nat.
vrow_ tab0_ok 9%nat sims42_ok start42 1%nat.
vrow_ tab0_ok 10%nat sims69_ok start69 2%nat.
vrow_ tab0_ok 11%nat sims69_ok start69 3%nat.
vrow_ tab0_ok 12%nat sims49_ok start49 21%nat.
vrow_ tab0_ok 13%nat sims49_ok start49 20%nat.
vrow_ tab0_ok 14%nat sims49_ok start49 23%nat.
vrow_ tab0_ok 15%nat sims49_ok start49 22%nat.
vrow_ tab0_ok 16%nat sims78_ok start78 6%nat.
vrow_ tab0_ok 17%nat sims78_ok start78 7%nat.
vrow_ tab0_ok 18%nat sims40_ok start40 8%nat.
vrow_ tab0_ok 19%nat sims40_ok start40 7%nat.
vrow_ tab0_ok 20%nat sims40_ok start40 10%nat.
vrow_ tab0_ok 21%nat sims40_ok start40 9%nat.
vrow_ tab0_ok 22%nat sims68_ok start68 9%nat.
vrow_ tab0_ok 23%nat sims68_ok start68 10%nat.
vrow_ tab0_ok 24%nat sims36_ok start36 14%nat.
vrow_ tab0_ok 25%nat sims36_ok start36 13%nat.
vrow_ tab0_ok 26%nat sims36_ok start36 16%nat.
vrow_ tab0_ok 27%nat sims36_ok start36 15%nat.
vrow_ tab0_ok 28%nat sims63_ok start63 17%nat.
vrow_ tab0_ok 29%nat sims63_ok start63 18%nat.
apply Forall_nil. Qed.
Definition vex32_1 : list (bool * entry) := [
  (false, en32 (mkEntry "vmaxps/xoo" [cX; cX; cO] (roo i_vmaxps) r_vmaxps_xoo VlRegs) (roo Mnemonic32.i_vmaxps));
  (false, en32 (mkEntry "vmaxpd/xoo" [cX; cX; cO] (roo i_vmaxpd) r_vmaxpd_xoo VlRegs) (roo Mnemonic32.i_vmaxpd));
  (false, en32 (mkEntry "vmaxss/xoo" [cX; cX; cO] (roo i_vmaxss) r_vmaxss_xoo VlRegs) (roo Mnemonic32.i_vmaxss));
  (false, en32 (mkEntry "vmaxsd/xoo" [cX; cX; cO] (roo i_vmaxsd) r_vmaxsd_xoo VlRegs) (roo Mnemonic32.i_vmaxsd));
  (false, en32 (mkEntry "vmaxph/xoo" [cX; cX; cO] (roo i_vmaxph) r_vmaxph_xoo VlRegs) (roo MnemonicAvx32.i_vmaxph));
  (false, en32 (mkEntry "vmaxsh/xoo" [cX; cX; cO] (roo i_vmaxsh) r_vmaxsh_xoo VlRegs) (roo MnemonicAvx32.i_vmaxsh));
  (false, en32 (mkEntry "vaddsubpd/xoo" [cX; cX; cO] (roo i_vaddsubpd) r_vaddsubpd_xoo VlRegs) (roo Mnemonic32.i_vaddsubpd));
  (false, en32 (mkEntry "vaddsubps/xoo" [cX; cX; cO] (roo i_vaddsubps) r_vaddsubps_xoo VlRegs) (roo Mnemonic32.i_vaddsubps));
  (false, en32 (mkEntry "vhaddpd/xoo" [cX; cX; cO] (roo i_vhaddpd) r_vhaddpd_xoo VlRegs) (roo Mnemonic32.i_vhaddpd));
  (false, en32 (mkEntry "vhaddps/xoo" [cX; cX; cO] (roo i_vhaddps) r_vhaddps_xoo VlRegs) (roo Mnemonic32.i_vhaddps));
  (false, en32 (mkEntry "vhsubpd/xoo" [cX; cX; cO] (roo i_vhsubpd) r_vhsubpd_xoo VlRegs) (roo Mnemonic32.i_vhsubpd));
  (false, en32 (mkEntry "vhsubps/xoo" [cX; cX; cO] (roo i_vhsubps) r_vhsubps_xoo VlRegs) (roo Mnemonic32.i_vhsubps));
  (false, en32 (mkEntry "vandps/xoo" [cX; cX; cO] (roo i_vandps) r_vandps_xoo VlRegs) (roo Mnemonic32.i_vandps));
  (false, en32 (mkEntry "vandpd/xoo" [cX; cX; cO] (roo i_vandpd) r_vandpd_xoo VlRegs) (roo Mnemonic32.i_vandpd));
  (false, en32 (mkEntry "vandnps/xoo" [cX; cX; cO] (roo i_vandnps) r_vandnps_xoo VlRegs) (roo Mnemonic32.i_vandnps));
  (false, en32 (mkEntry "vandnpd/xoo" [cX; cX; cO] (roo i_vandnpd) r_vandnpd_xoo VlRegs) (roo Mnemonic32.i_vandnpd));
  (false, en32 (mkEntry "vorps/xoo" [cX; cX; cO] (roo i_vorps) r_vorps_xoo VlRegs) (roo Mnemonic32.i_vorps));
  (false, en32 (mkEntry "vorpd/xoo" [cX; cX; cO] (roo i_vorpd) r_vorpd_xoo VlRegs) (roo Mnemonic32.i_vorpd));
  (false, en32 (mkEntry "vxorps/xoo" [cX; cX; cO] (roo i_vxorps) r_vxorps_xoo VlRegs) (roo Mnemonic32.i_vxorps));
  (false, en32 (mkEntry "vxorpd/xoo" [cX; cX; cO] (roo i_vxorpd) r_vxorpd_xoo VlRegs) (roo Mnemonic32.i_vxorpd));
  (false, en32 (mkEntry "vaesenc/xoo" [cX; cX; cO] (roo i_vaesenc) r_vaesenc_xoo VlRegs) (roo Mnemonic32.i_vaesenc));
  (false, en32 (mkEntry "vaesenclast/xoo" [cX; cX; cO] (roo i_vaesenclast) r_vaesenclast_xoo VlRegs) (roo Mnemonic32.i_vaesenclast));
  (false, en32 (mkEntry "vaesdec/xoo" [cX; cX; cO] (roo i_vaesdec) r_vaesdec_xoo VlRegs) (roo Mnemonic32.i_vaesdec));
  (false, en32 (mkEntry "vaesdeclast/xoo" [cX; cX; cO] (roo i_vaesdeclast) r_vaesdeclast_xoo VlRegs) (roo Mnemonic32.i_vaesdeclast));
  (false, en32 (mkEntry "vaddnepbf16/xxo" [cX; cX; cO] (rro i_vaddnepbf16) r_vaddnepbf16_xxo VlRegs) (rro MnemonicAvx32.i_vaddnepbf16));
  (false, en32 (mkEntry "vmulnepbf16/xxo" [cX; cX; cO] (rro i_vmulnepbf16) r_vmulnepbf16_xxo VlRegs) (rro MnemonicAvx32.i_vmulnepbf16));
  (false, en32 (mkEntry "vsubnepbf16/xxo" [cX; cX; cO] (rro i_vsubnepbf16) r_vsubnepbf16_xxo VlRegs) (rro MnemonicAvx32.i_vsubnepbf16));
  (false, en32 (mkEntry "vminpbf16/xxo" [cX; cX; cO] (rro i_vminpbf16) r_vminpbf16_xxo VlRegs) (rro MnemonicAvx32.i_vminpbf16));
  (false, en32 (mkEntry "vdivnepbf16/xxo" [cX; cX; cO] (rro i_vdivnepbf16) r_vdivnepbf16_xxo VlRegs) (rro MnemonicAvx32.i_vdivnepbf16));
  (false, en32 (mkEntry "vmaxpbf16/xxo" [cX; cX; cO] (rro i_vmaxpbf16) r_vmaxpbf16_xxo VlRegs) (rro MnemonicAvx32.i_vmaxpbf16))].
Lemma vex32_1_ok : Forall (fun p => implements32 (fst p) (snd p)) (vex32_1).
Proof. unfold vex32_1.
vrow_ tab0_ok 30%nat sims40_ok start40 4%nat.
vrow_ tab0_ok 31%nat sims40_ok start40 3%nat.
vrow_ tab0_ok 32%nat sims40_ok start40 6%nat.
vrow_ tab0_ok 33%nat sims40_ok start40 5%nat.
vrow_ tab0_ok 34%nat sims67_ok start67 24%nat.
vrow_ tab0_ok 35%nat sims68_ok start68 0%nat.
vrow_ tab0_ok 36%nat sims29_ok start29 9%nat.
vrow_ tab0_ok 37%nat sims29_ok start29 10%nat.
vrow_ tab0_ok 38%nat sims39_ok start39 14%nat.
vrow_ tab0_ok 39%nat sims39_ok start39 15%nat.
vrow_ tab0_ok 40%nat sims39_ok start39 16%nat.
vrow_ tab0_ok 41%nat sims39_ok start39 17%nat.
vrow_ tab0_ok 42%nat sims29_ok start29 20%nat.
vrow_ tab0_ok 43%nat sims29_ok start29 19%nat.
vrow_ tab0_ok 44%nat sims29_ok start29 18%nat.
vrow_ tab0_ok 45%nat sims29_ok start29 17%nat.
vrow_ tab0_ok 46%nat sims42_ok start42 4%nat.
vrow_ tab0_ok 47%nat sims42_ok start42 3%nat.
vrow_ tab0_ok 48%nat sims50_ok start50 8%nat.
vrow_ tab0_ok 49%nat sims50_ok start50 7%nat.
vrow_ tab0_ok 50%nat sims29_ok start29 13%nat.
vrow_ tab0_ok 51%nat sims29_ok start29 14%nat.
vrow_ tab0_ok 52%nat sims29_ok start29 11%nat.
vrow_ tab0_ok 53%nat sims29_ok start29 12%nat.
vrow_ tab1_ok 0%nat sims53_ok start53 11%nat.
vrow_ tab1_ok 1%nat sims69_ok start69 1%nat.
vrow_ tab1_ok 2%nat sims78_ok start78 5%nat.
vrow_ tab1_ok 3%nat sims68_ok start68 8%nat.
vrow_ tab1_ok 4%nat sims63_ok start63 16%nat.
vrow_ tab1_ok 5%nat sims67_ok start67 23%nat.
apply Forall_nil. Qed.
Definition vex32_2 : list (bool * entry) := [
  (false, en32 (mkEntry "vcvtsd2ss/xxo" [cX; cX; cO] (rro i_vcvtsd2ss_xxo) r_vcvtsd2ss_xxo VlRegs) (rro Mnemonic32.i_vcvtsd2ss_xxo));
  (false, en32 (mkEntry "vcvtss2sd/xxo" [cX; cX; cO] (rro i_vcvtss2sd_xxo) r_vcvtss2sd_xxo VlRegs) (rro Mnemonic32.i_vcvtss2sd_xxo));
  (false, en32 (mkEntry "vfmaddsub132ps/xxo" [cX; cX; cO] (rro i_vfmaddsub132ps) r_vfmaddsub132ps_xxo VlRegs) (rro Mnemonic32.i_vfmaddsub132ps));
  (false, en32 (mkEntry "vfmaddsub132pd/xxo" [cX; cX; cO] (rro i_vfmaddsub132pd) r_vfmaddsub132pd_xxo VlRegs) (rro Mnemonic32.i_vfmaddsub132pd));
  (false, en32 (mkEntry "vfmaddsub132ph/xxo" [cX; cX; cO] (rro i_vfmaddsub132ph) r_vfmaddsub132ph_xxo VlRegs) (rro MnemonicAvx32.i_vfmaddsub132ph));
  (false, en32 (mkEntry "vfmsubadd132ps/xxo" [cX; cX; cO] (rro i_vfmsubadd132ps) r_vfmsubadd132ps_xxo VlRegs) (rro Mnemonic32.i_vfmsubadd132ps));
  (false, en32 (mkEntry "vfmsubadd132pd/xxo" [cX; cX; cO] (rro i_vfmsubadd132pd) r_vfmsubadd132pd_xxo VlRegs) (rro Mnemonic32.i_vfmsubadd132pd));
  (false, en32 (mkEntry "vfmsubadd132ph/xxo" [cX; cX; cO] (rro i_vfmsubadd132ph) r_vfmsubadd132ph_xxo VlRegs) (rro MnemonicAvx32.i_vfmsubadd132ph));
  (false, en32 (mkEntry "vfmadd132ps/xxo" [cX; cX; cO] (rro i_vfmadd132ps) r_vfmadd132ps_xxo VlRegs) (rro Mnemonic32.i_vfmadd132ps));
  (false, en32 (mkEntry "vfmadd132pd/xxo" [cX; cX; cO] (rro i_vfmadd132pd) r_vfmadd132pd_xxo VlRegs) (rro Mnemonic32.i_vfmadd132pd));
  (false, en32 (mkEntry "vfmadd132ph/xxo" [cX; cX; cO] (rro i_vfmadd132ph) r_vfmadd132ph_xxo VlRegs) (rro MnemonicAvx32.i_vfmadd132ph));
  (false, en32 (mkEntry "vfmadd132nepbf16/xxo" [cX; cX; cO] (rro i_vfmadd132nepbf16) r_vfmadd132nepbf16_xxo VlRegs) (rro MnemonicAvx32.i_vfmadd132nepbf16));
  (false, en32 (mkEntry "vfmadd132ss/xxo" [cX; cX; cO] (rro i_vfmadd132ss) r_vfmadd132ss_xxo VlRegs) (rro Mnemonic32.i_vfmadd132ss));
  (false, en32 (mkEntry "vfmadd132sd/xxo" [cX; cX; cO] (rro i_vfmadd132sd) r_vfmadd132sd_xxo VlRegs) (rro Mnemonic32.i_vfmadd132sd));
  (false, en32 (mkEntry "vfmadd132sh/xxo" [cX; cX; cO] (rro i_vfmadd132sh) r_vfmadd132sh_xxo VlRegs) (rro MnemonicAvx32.i_vfmadd132sh));
  (false, en32 (mkEntry "vfmsub132ps/xxo" [cX; cX; cO] (rro i_vfmsub132ps) r_vfmsub132ps_xxo VlRegs) (rro Mnemonic32.i_vfmsub132ps));
  (false, en32 (mkEntry "vfmsub132pd/xxo" [cX; cX; cO] (rro i_vfmsub132pd) r_vfmsub132pd_xxo VlRegs) (rro Mnemonic32.i_vfmsub132pd));
  (false, en32 (mkEntry "vfmsub132ph/xxo" [cX; cX; cO] (rro i_vfmsub132ph) r_vfmsub132ph_xxo VlRegs) (rro MnemonicAvx32.i_vfmsub132ph));
  (false, en32 (mkEntry "vfmsub132nepbf16/xxo" [cX; cX; cO] (rro i_vfmsub132nepbf16) r_vfmsub132nepbf16_xxo VlRegs) (rro MnemonicAvx32.i_vfmsub132nepbf16));
  (false, en32 (mkEntry "vfmsub132ss/xxo" [cX; cX; cO] (rro i_vfmsub132ss) r_vfmsub132ss_xxo VlRegs) (rro Mnemonic32.i_vfmsub132ss));
  (false, en32 (mkEntry "vfmsub132sd/xxo" [cX; cX; cO] (rro i_vfmsub132sd) r_vfmsub132sd_xxo VlRegs) (rro Mnemonic32.i_vfmsub132sd));
  (false, en32 (mkEntry "vfmsub132sh/xxo" [cX; cX; cO] (rro i_vfmsub132sh) r_vfmsub132sh_xxo VlRegs) (rro MnemonicAvx32.i_vfmsub132sh));
  (false, en32 (mkEntry "vfnmadd132ps/xxo" [cX; cX; cO] (rro i_vfnmadd132ps) r_vfnmadd132ps_xxo VlRegs) (rro Mnemonic32.i_vfnmadd132ps));
  (false, en32 (mkEntry "vfnmadd132pd/xxo" [cX; cX; cO] (rro i_vfnmadd132pd) r_vfnmadd132pd_xxo VlRegs) (rro Mnemonic32.i_vfnmadd132pd));
  (false, en32 (mkEntry "vfnmadd132ph/xxo" [cX; cX; cO] (rro i_vfnmadd132ph) r_vfnmadd132ph_xxo VlRegs) (rro MnemonicAvx32.i_vfnmadd132ph));
  (false, en32 (mkEntry "vfnmadd132nepbf16/xxo" [cX; cX; cO] (rro i_vfnmadd132nepbf16) r_vfnmadd132nepbf16_xxo VlRegs) (rro MnemonicAvx32.i_vfnmadd132nepbf16));
  (false, en32 (mkEntry "vfnmadd132ss/xxo" [cX; cX; cO] (rro i_vfnmadd132ss) r_vfnmadd132ss_xxo VlRegs) (rro Mnemonic32.i_vfnmadd132ss));
  (false, en32 (mkEntry "vfnmadd132sd/xxo" [cX; cX; cO] (rro i_vfnmadd132sd) r_vfnmadd132sd_xxo VlRegs) (rro Mnemonic32.i_vfnmadd132sd));
  (false, en32 (mkEntry "vfnmadd132sh/xxo" [cX; cX; cO] (rro i_vfnmadd132sh) r_vfnmadd132sh_xxo VlRegs) (rro MnemonicAvx32.i_vfnmadd132sh));
  (false, en32 (mkEntry "vfnmsub132ps/xxo" [cX; cX; cO] (rro i_vfnmsub132ps) r_vfnmsub132ps_xxo VlRegs) (rro Mnemonic32.i_vfnmsub132ps))].
Lemma vex32_2_ok : Forall (fun p => implements32 (fst p) (snd p)) (vex32_2).
Proof. unfold vex32_2.
vrow_ tab1_ok 6%nat sims36_ok start36 4%nat.
vrow_ tab1_ok 7%nat sims36_ok start36 7%nat.
vrow_ tab1_ok 8%nat sims37_ok start37 10%nat.
vrow_ tab1_ok 9%nat sims37_ok start37 9%nat.
vrow_ tab1_ok 10%nat sims64_ok start64 24%nat.
vrow_ tab1_ok 11%nat sims38_ok start38 3%nat.
vrow_ tab1_ok 12%nat sims38_ok start38 2%nat.
vrow_ tab1_ok 13%nat sims65_ok start65 11%nat.
vrow_ tab1_ok 14%nat sims36_ok start36 23%nat.
vrow_ tab1_ok 15%nat sims36_ok start36 22%nat.
vrow_ tab1_ok 16%nat sims64_ok start64 15%nat.
vrow_ tab1_ok 17%nat sims64_ok start64 14%nat.
vrow_ tab1_ok 18%nat sims37_ok start37 0%nat.
vrow_ tab1_ok 19%nat sims36_ok start36 24%nat.
vrow_ tab1_ok 20%nat sims64_ok start64 16%nat.
vrow_ tab1_ok 21%nat sims37_ok start37 16%nat.
vrow_ tab1_ok 22%nat sims37_ok start37 15%nat.
vrow_ tab1_ok 23%nat sims65_ok start65 3%nat.
vrow_ tab1_ok 24%nat sims65_ok start65 2%nat.
vrow_ tab1_ok 25%nat sims37_ok start37 18%nat.
vrow_ tab1_ok 26%nat sims37_ok start37 17%nat.
vrow_ tab1_ok 27%nat sims65_ok start65 4%nat.
vrow_ tab1_ok 28%nat sims38_ok start38 9%nat.
vrow_ tab1_ok 29%nat sims38_ok start38 8%nat.
vrow_ tab1_ok 30%nat sims65_ok start65 16%nat.
vrow_ tab1_ok 31%nat sims65_ok start65 15%nat.
vrow_ tab1_ok 32%nat sims38_ok start38 11%nat.
vrow_ tab1_ok 33%nat sims38_ok start38 10%nat.
vrow_ tab1_ok 34%nat sims65_ok start65 17%nat.
vrow_ tab1_ok 35%nat sims38_ok start38 21%nat.
apply Forall_nil. Qed.
Definition vex32_3 : list (bool * entry) := [
  (false, en32 (mkEntry "vfnmsub132pd/xxo" [cX; cX; cO] (rro i_vfnmsub132pd) r_vfnmsub132pd_xxo VlRegs) (rro Mnemonic32.i_vfnmsub132pd));
  (false, en32 (mkEntry "vfnmsub132ph/xxo" [cX; cX; cO] (rro i_vfnmsub132ph) r_vfnmsub132ph_xxo VlRegs) (rro MnemonicAvx32.i_vfnmsub132ph));
  (false, en32 (mkEntry "vfnmsub132nepbf16/xxo" [cX; cX; cO] (rro i_vfnmsub132nepbf16) r_vfnmsub132nepbf16_xxo VlRegs) (rro MnemonicAvx32.i_vfnmsub132nepbf16));
  (false, en32 (mkEntry "vfnmsub132ss/xxo" [cX; cX; cO] (rro i_vfnmsub132ss) r_vfnmsub132ss_xxo VlRegs) (rro Mnemonic32.i_vfnmsub132ss));
  (false, en32 (mkEntry "vfnmsub132sd/xxo" [cX; cX; cO] (rro i_vfnmsub132sd) r_vfnmsub132sd_xxo VlRegs) (rro Mnemonic32.i_vfnmsub132sd));
  (false, en32 (mkEntry "vfnmsub132sh/xxo" [cX; cX; cO] (rro i_vfnmsub132sh) r_vfnmsub132sh_xxo VlRegs) (rro MnemonicAvx32.i_vfnmsub132sh));
  (false, en32 (mkEntry "vfmaddsub213ps/xxo" [cX; cX; cO] (rro i_vfmaddsub213ps) r_vfmaddsub213ps_xxo VlRegs) (rro Mnemonic32.i_vfmaddsub213ps));
  (false, en32 (mkEntry "vfmaddsub213pd/xxo" [cX; cX; cO] (rro i_vfmaddsub213pd) r_vfmaddsub213pd_xxo VlRegs) (rro Mnemonic32.i_vfmaddsub213pd));
  (false, en32 (mkEntry "vfmaddsub213ph/xxo" [cX; cX; cO] (rro i_vfmaddsub213ph) r_vfmaddsub213ph_xxo VlRegs) (rro MnemonicAvx32.i_vfmaddsub213ph));
  (false, en32 (mkEntry "vfmsubadd213ps/xxo" [cX; cX; cO] (rro i_vfmsubadd213ps) r_vfmsubadd213ps_xxo VlRegs) (rro Mnemonic32.i_vfmsubadd213ps));
  (false, en32 (mkEntry "vfmsubadd213pd/xxo" [cX; cX; cO] (rro i_vfmsubadd213pd) r_vfmsubadd213pd_xxo VlRegs) (rro Mnemonic32.i_vfmsubadd213pd));
  (false, en32 (mkEntry "vfmsubadd213ph/xxo" [cX; cX; cO] (rro i_vfmsubadd213ph) r_vfmsubadd213ph_xxo VlRegs) (rro MnemonicAvx32.i_vfmsubadd213ph));
  (false, en32 (mkEntry "vfmadd213ps/xxo" [cX; cX; cO] (rro i_vfmadd213ps) r_vfmadd213ps_xxo VlRegs) (rro Mnemonic32.i_vfmadd213ps));
  (false, en32 (mkEntry "vfmadd213pd/xxo" [cX; cX; cO] (rro i_vfmadd213pd) r_vfmadd213pd_xxo VlRegs) (rro Mnemonic32.i_vfmadd213pd));
  (false, en32 (mkEntry "vfmadd213ph/xxo" [cX; cX; cO] (rro i_vfmadd213ph) r_vfmadd213ph_xxo VlRegs) (rro MnemonicAvx32.i_vfmadd213ph));
  (false, en32 (mkEntry "vfmadd213nepbf16/xxo" [cX; cX; cO] (rro i_vfmadd213nepbf16) r_vfmadd213nepbf16_xxo VlRegs) (rro MnemonicAvx32.i_vfmadd213nepbf16));
  (false, en32 (mkEntry "vfmadd213ss/xxo" [cX; cX; cO] (rro i_vfmadd213ss) r_vfmadd213ss_xxo VlRegs) (rro Mnemonic32.i_vfmadd213ss));
  (false, en32 (mkEntry "vfmadd213sd/xxo" [cX; cX; cO] (rro i_vfmadd213sd) r_vfmadd213sd_xxo VlRegs) (rro Mnemonic32.i_vfmadd213sd));
  (false, en32 (mkEntry "vfmadd213sh/xxo" [cX; cX; cO] (rro i_vfmadd213sh) r_vfmadd213sh_xxo VlRegs) (rro MnemonicAvx32.i_vfmadd213sh));
  (false, en32 (mkEntry "vfmsub213ps/xxo" [cX; cX; cO] (rro i_vfmsub213ps) r_vfmsub213ps_xxo VlRegs) (rro Mnemonic32.i_vfmsub213ps));
  (false, en32 (mkEntry "vfmsub213pd/xxo" [cX; cX; cO] (rro i_vfmsub213pd) r_vfmsub213pd_xxo VlRegs) (rro Mnemonic32.i_vfmsub213pd));
  (false, en32 (mkEntry "vfmsub213ph/xxo" [cX; cX; cO] (rro i_vfmsub213ph) r_vfmsub213ph_xxo VlRegs) (rro MnemonicAvx32.i_vfmsub213ph));
  (false, en32 (mkEntry "vfmsub213nepbf16/xxo" [cX; cX; cO] (rro i_vfmsub213nepbf16) r_vfmsub213nepbf16_xxo VlRegs) (rro MnemonicAvx32.i_vfmsub213nepbf16));
  (false, en32 (mkEntry "vfmsub213ss/xxo" [cX; cX; cO] (rro i_vfmsub213ss) r_vfmsub213ss_xxo VlRegs) (rro Mnemonic32.i_vfmsub213ss));
  (false, en32 (mkEntry "vfmsub213sd/xxo" [cX; cX; cO] (rro i_vfmsub213sd) r_vfmsub213sd_xxo VlRegs) (rro Mnemonic32.i_vfmsub213sd));
  (false, en32 (mkEntry "vfmsub213sh/xxo" [cX; cX; cO] (rro i_vfmsub213sh) r_vfmsub213sh_xxo VlRegs) (rro MnemonicAvx32.i_vfmsub213sh));
  (false, en32 (mkEntry "vfnmadd213ps/xxo" [cX; cX; cO] (rro i_vfnmadd213ps) r_vfnmadd213ps_xxo VlRegs) (rro Mnemonic32.i_vfnmadd213ps));
  (false, en32 (mkEntry "vfnmadd213pd/xxo" [cX; cX; cO] (rro i_vfnmadd213pd) r_vfnmadd213pd_xxo VlRegs) (rro Mnemonic32.i_vfnmadd213pd));
  (false, en32 (mkEntry "vfnmadd213ph/xxo" [cX; cX; cO] (rro i_vfnmadd213ph) r_vfnmadd213ph_xxo VlRegs) (rro MnemonicAvx32.i_vfnmadd213ph));
  (false, en32 (mkEntry "vfnmadd213nepbf16/xxo" [cX; cX; cO] (rro i_vfnmadd213nepbf16) r_vfnmadd213nepbf16_xxo VlRegs) (rro MnemonicAvx32.i_vfnmadd213nepbf16))].
Lemma vex32_3_ok : Forall (fun p => implements32 (fst p) (snd p)) (vex32_3).
Proof. unfold vex32_3.
vrow_ tab1_ok 36%nat sims38_ok start38 20%nat.
vrow_ tab1_ok 37%nat sims66_ok start66 0%nat.
vrow_ tab1_ok 38%nat sims65_ok start65 24%nat.
vrow_ tab1_ok 39%nat sims38_ok start38 23%nat.
vrow_ tab1_ok 40%nat sims38_ok start38 22%nat.
vrow_ tab1_ok 41%nat sims66_ok start66 1%nat.
vrow_ tab1_ok 42%nat sims37_ok start37 12%nat.
vrow_ tab1_ok 43%nat sims37_ok start37 11%nat.
vrow_ tab1_ok 44%nat sims65_ok start65 0%nat.
vrow_ tab1_ok 45%nat sims38_ok start38 5%nat.
vrow_ tab1_ok 46%nat sims38_ok start38 4%nat.
vrow_ tab1_ok 47%nat sims65_ok start65 12%nat.
vrow_ tab1_ok 48%nat sims37_ok start37 2%nat.
vrow_ tab1_ok 49%nat sims37_ok start37 1%nat.
vrow_ tab1_ok 50%nat sims64_ok start64 18%nat.
vrow_ tab1_ok 51%nat sims64_ok start64 17%nat.
vrow_ tab1_ok 52%nat sims37_ok start37 4%nat.
vrow_ tab1_ok 53%nat sims37_ok start37 3%nat.
vrow_ tab1_ok 54%nat sims64_ok start64 19%nat.
vrow_ tab1_ok 55%nat sims37_ok start37 20%nat.
vrow_ tab1_ok 56%nat sims37_ok start37 19%nat.
vrow_ tab1_ok 57%nat sims65_ok start65 6%nat.
vrow_ tab1_ok 58%nat sims65_ok start65 5%nat.
vrow_ tab1_ok 59%nat sims37_ok start37 22%nat.
vrow_ tab1_ok 60%nat sims37_ok start37 21%nat.
vrow_ tab1_ok 61%nat sims65_ok start65 7%nat.
vrow_ tab1_ok 62%nat sims38_ok start38 13%nat.
vrow_ tab1_ok 63%nat sims38_ok start38 12%nat.
vrow_ tab1_ok 64%nat sims65_ok start65 19%nat.
vrow_ tab1_ok 65%nat sims65_ok start65 18%nat.
apply Forall_nil. Qed.
Definition vex32_4 : list (bool * entry) := [
  (false, en32 (mkEntry "vfnmadd213ss/xxo" [cX; cX; cO] (rro i_vfnmadd213ss) r_vfnmadd213ss_xxo VlRegs) (rro Mnemonic32.i_vfnmadd213ss));
  (false, en32 (mkEntry "vfnmadd213sd/xxo" [cX; cX; cO] (rro i_vfnmadd213sd) r_vfnmadd213sd_xxo VlRegs) (rro Mnemonic32.i_vfnmadd213sd));
  (false, en32 (mkEntry "vfnmadd213sh/xxo" [cX; cX; cO] (rro i_vfnmadd213sh) r_vfnmadd213sh_xxo VlRegs) (rro MnemonicAvx32.i_vfnmadd213sh));
  (false, en32 (mkEntry "vfnmsub213ps/xxo" [cX; cX; cO] (rro i_vfnmsub213ps) r_vfnmsub213ps_xxo VlRegs) (rro Mnemonic32.i_vfnmsub213ps));
  (false, en32 (mkEntry "vfnmsub213pd/xxo" [cX; cX; cO] (rro i_vfnmsub213pd) r_vfnmsub213pd_xxo VlRegs) (rro Mnemonic32.i_vfnmsub213pd));
  (false, en32 (mkEntry "vfnmsub213ph/xxo" [cX; cX; cO] (rro i_vfnmsub213ph) r_vfnmsub213ph_xxo VlRegs) (rro MnemonicAvx32.i_vfnmsub213ph));
  (false, en32 (mkEntry "vfnmsub213nepbf16/xxo" [cX; cX; cO] (rro i_vfnmsub213nepbf16) r_vfnmsub213nepbf16_xxo VlRegs) (rro MnemonicAvx32.i_vfnmsub213nepbf16));
  (false, en32 (mkEntry "vfnmsub213ss/xxo" [cX; cX; cO] (rro i_vfnmsub213ss) r_vfnmsub213ss_xxo VlRegs) (rro Mnemonic32.i_vfnmsub213ss));
  (false, en32 (mkEntry "vfnmsub213sd/xxo" [cX; cX; cO] (rro i_vfnmsub213sd) r_vfnmsub213sd_xxo VlRegs) (rro Mnemonic32.i_vfnmsub213sd));
  (false, en32 (mkEntry "vfnmsub213sh/xxo" [cX; cX; cO] (rro i_vfnmsub213sh) r_vfnmsub213sh_xxo VlRegs) (rro MnemonicAvx32.i_vfnmsub213sh));
  (false, en32 (mkEntry "vfmaddsub231ps/xxo" [cX; cX; cO] (rro i_vfmaddsub231ps) r_vfmaddsub231ps_xxo VlRegs) (rro Mnemonic32.i_vfmaddsub231ps));
  (false, en32 (mkEntry "vfmaddsub231pd/xxo" [cX; cX; cO] (rro i_vfmaddsub231pd) r_vfmaddsub231pd_xxo VlRegs) (rro Mnemonic32.i_vfmaddsub231pd));
  (false, en32 (mkEntry "vfmaddsub231ph/xxo" [cX; cX; cO] (rro i_vfmaddsub231ph) r_vfmaddsub231ph_xxo VlRegs) (rro MnemonicAvx32.i_vfmaddsub231ph));
  (false, en32 (mkEntry "vfmsubadd231ps/xxo" [cX; cX; cO] (rro i_vfmsubadd231ps) r_vfmsubadd231ps_xxo VlRegs) (rro Mnemonic32.i_vfmsubadd231ps));
  (false, en32 (mkEntry "vfmsubadd231pd/xxo" [cX; cX; cO] (rro i_vfmsubadd231pd) r_vfmsubadd231pd_xxo VlRegs) (rro Mnemonic32.i_vfmsubadd231pd));
  (false, en32 (mkEntry "vfmsubadd231ph/xxo" [cX; cX; cO] (rro i_vfmsubadd231ph) r_vfmsubadd231ph_xxo VlRegs) (rro MnemonicAvx32.i_vfmsubadd231ph));
  (false, en32 (mkEntry "vfmadd231ps/xxo" [cX; cX; cO] (rro i_vfmadd231ps) r_vfmadd231ps_xxo VlRegs) (rro Mnemonic32.i_vfmadd231ps));
  (false, en32 (mkEntry "vfmadd231pd/xxo" [cX; cX; cO] (rro i_vfmadd231pd) r_vfmadd231pd_xxo VlRegs) (rro Mnemonic32.i_vfmadd231pd));
  (false, en32 (mkEntry "vfmadd231ph/xxo" [cX; cX; cO] (rro i_vfmadd231ph) r_vfmadd231ph_xxo VlRegs) (rro MnemonicAvx32.i_vfmadd231ph));
  (false, en32 (mkEntry "vfmadd231nepbf16/xxo" [cX; cX; cO] (rro i_vfmadd231nepbf16) r_vfmadd231nepbf16_xxo VlRegs) (rro MnemonicAvx32.i_vfmadd231nepbf16));
  (false, en32 (mkEntry "vfmadd231ss/xxo" [cX; cX; cO] (rro i_vfmadd231ss) r_vfmadd231ss_xxo VlRegs) (rro Mnemonic32.i_vfmadd231ss));
  (false, en32 (mkEntry "vfmadd231sd/xxo" [cX; cX; cO] (rro i_vfmadd231sd) r_vfmadd231sd_xxo VlRegs) (rro Mnemonic32.i_vfmadd231sd));
  (false, en32 (mkEntry "vfmadd231sh/xxo" [cX; cX; cO] (rro i_vfmadd231sh) r_vfmadd231sh_xxo VlRegs) (rro MnemonicAvx32.i_vfmadd231sh));
  (false, en32 (mkEntry "vfmsub231ps/xxo" [cX; cX; cO] (rro i_vfmsub231ps) r_vfmsub231ps_xxo VlRegs) (rro Mnemonic32.i_vfmsub231ps));
  (false, en32 (mkEntry "vfmsub231pd/xxo" [cX; cX; cO] (rro i_vfmsub231pd) r_vfmsub231pd_xxo VlRegs) (rro Mnemonic32.i_vfmsub231pd));
  (false, en32 (mkEntry "vfmsub231ph/xxo" [cX; cX; cO] (rro i_vfmsub231ph) r_vfmsub231ph_xxo VlRegs) (rro MnemonicAvx32.i_vfmsub231ph));
  (false, en32 (mkEntry "vfmsub231nepbf16/xxo" [cX; cX; cO] (rro i_vfmsub231nepbf16) r_vfmsub231nepbf16_xxo VlRegs) (rro MnemonicAvx32.i_vfmsub231nepbf16));
  (false, en32 (mkEntry "vfmsub231ss/xxo" [cX; cX; cO] (rro i_vfmsub231ss) r_vfmsub231ss_xxo VlRegs) (rro Mnemonic32.i_vfmsub231ss));
  (false, en32 (mkEntry "vfmsub231sd/xxo" [cX; cX; cO] (rro i_vfmsub231sd) r_vfmsub231sd_xxo VlRegs) (rro Mnemonic32.i_vfmsub231sd));
  (false, en32 (mkEntry "vfmsub231sh/xxo" [cX; cX; cO] (rro i_vfmsub231sh) r_vfmsub231sh_xxo VlRegs) (rro MnemonicAvx32.i_vfmsub231sh))].
Lemma vex32_4_ok : Forall (fun p => implements32 (fst p) (snd p)) (vex32_4).
Proof. unfold vex32_4.
vrow_ tab1_ok 66%nat sims38_ok start38 15%nat.
vrow_ tab1_ok 67%nat sims38_ok start38 14%nat.
vrow_ tab1_ok 68%nat sims65_ok start65 20%nat.
vrow_ tab1_ok 69%nat sims39_ok start39 0%nat.
vrow_ tab1_ok 70%nat sims38_ok start38 24%nat.
vrow_ tab1_ok 71%nat sims66_ok start66 3%nat.
vrow_ tab1_ok 72%nat sims66_ok start66 2%nat.
vrow_ tab1_ok 73%nat sims39_ok start39 2%nat.
vrow_ tab1_ok 74%nat sims39_ok start39 1%nat.
vrow_ tab1_ok 75%nat sims66_ok start66 4%nat.
vrow_ tab1_ok 76%nat sims37_ok start37 14%nat.
vrow_ tab1_ok 77%nat sims37_ok start37 13%nat.
vrow_ tab1_ok 78%nat sims65_ok start65 1%nat.
vrow_ tab1_ok 79%nat sims38_ok start38 7%nat.
vrow_ tab1_ok 80%nat sims38_ok start38 6%nat.
vrow_ tab1_ok 81%nat sims65_ok start65 13%nat.
vrow_ tab1_ok 82%nat sims37_ok start37 6%nat.
vrow_ tab1_ok 83%nat sims37_ok start37 5%nat.
vrow_ tab1_ok 84%nat sims64_ok start64 21%nat.
vrow_ tab1_ok 85%nat sims64_ok start64 20%nat.
vrow_ tab1_ok 86%nat sims37_ok start37 8%nat.
vrow_ tab1_ok 87%nat sims37_ok start37 7%nat.
vrow_ tab1_ok 88%nat sims64_ok start64 22%nat.
vrow_ tab1_ok 89%nat sims37_ok start37 24%nat.
vrow_ tab1_ok 90%nat sims37_ok start37 23%nat.
vrow_ tab1_ok 91%nat sims65_ok start65 9%nat.
vrow_ tab1_ok 92%nat sims65_ok start65 8%nat.
vrow_ tab1_ok 93%nat sims38_ok start38 1%nat.
vrow_ tab1_ok 94%nat sims38_ok start38 0%nat.
vrow_ tab1_ok 95%nat sims65_ok start65 10%nat.
apply Forall_nil. Qed.
Definition vex32_5 : list (bool * entry) := [
  (false, en32 (mkEntry "vfnmadd231ps/xxo" [cX; cX; cO] (rro i_vfnmadd231ps) r_vfnmadd231ps_xxo VlRegs) (rro Mnemonic32.i_vfnmadd231ps));
  (false, en32 (mkEntry "vfnmadd231pd/xxo" [cX; cX; cO] (rro i_vfnmadd231pd) r_vfnmadd231pd_xxo VlRegs) (rro Mnemonic32.i_vfnmadd231pd));
  (false, en32 (mkEntry "vfnmadd231ph/xxo" [cX; cX; cO] (rro i_vfnmadd231ph) r_vfnmadd231ph_xxo VlRegs) (rro MnemonicAvx32.i_vfnmadd231ph));
  (false, en32 (mkEntry "vfnmadd231nepbf16/xxo" [cX; cX; cO] (rro i_vfnmadd231nepbf16) r_vfnmadd231nepbf16_xxo VlRegs) (rro MnemonicAvx32.i_vfnmadd231nepbf16));
  (false, en32 (mkEntry "vfnmadd231ss/xxo" [cX; cX; cO] (rro i_vfnmadd231ss) r_vfnmadd231ss_xxo VlRegs) (rro Mnemonic32.i_vfnmadd231ss));
  (false, en32 (mkEntry "vfnmadd231sd/xxo" [cX; cX; cO] (rro i_vfnmadd231sd) r_vfnmadd231sd_xxo VlRegs) (rro Mnemonic32.i_vfnmadd231sd));
  (false, en32 (mkEntry "vfnmadd231sh/xxo" [cX; cX; cO] (rro i_vfnmadd231sh) r_vfnmadd231sh_xxo VlRegs) (rro MnemonicAvx32.i_vfnmadd231sh));
  (false, en32 (mkEntry "vfnmsub231ps/xxo" [cX; cX; cO] (rro i_vfnmsub231ps) r_vfnmsub231ps_xxo VlRegs) (rro Mnemonic32.i_vfnmsub231ps));
  (false, en32 (mkEntry "vfnmsub231pd/xxo" [cX; cX; cO] (rro i_vfnmsub231pd) r_vfnmsub231pd_xxo VlRegs) (rro Mnemonic32.i_vfnmsub231pd));
  (false, en32 (mkEntry "vfnmsub231ph/xxo" [cX; cX; cO] (rro i_vfnmsub231ph) r_vfnmsub231ph_xxo VlRegs) (rro MnemonicAvx32.i_vfnmsub231ph));
  (false, en32 (mkEntry "vfnmsub231nepbf16/xxo" [cX; cX; cO] (rro i_vfnmsub231nepbf16) r_vfnmsub231nepbf16_xxo VlRegs) (rro MnemonicAvx32.i_vfnmsub231nepbf16));
  (false, en32 (mkEntry "vfnmsub231ss/xxo" [cX; cX; cO] (rro i_vfnmsub231ss) r_vfnmsub231ss_xxo VlRegs) (rro Mnemonic32.i_vfnmsub231ss));
  (false, en32 (mkEntry "vfnmsub231sd/xxo" [cX; cX; cO] (rro i_vfnmsub231sd) r_vfnmsub231sd_xxo VlRegs) (rro Mnemonic32.i_vfnmsub231sd));
  (false, en32 (mkEntry "vfnmsub231sh/xxo" [cX; cX; cO] (rro i_vfnmsub231sh) r_vfnmsub231sh_xxo VlRegs) (rro MnemonicAvx32.i_vfnmsub231sh));
  (false, en32 (mkEntry "vpacksswb/xxo" [cX; cX; cO] (rro i_vpacksswb_xxo) r_vpacksswb_xxo VlRegs) (rro Mnemonic32.i_vpacksswb_xxo));
  (false, en32 (mkEntry "vpackuswb/xxo" [cX; cX; cO] (rro i_vpackuswb_xxo) r_vpackuswb_xxo VlRegs) (rro Mnemonic32.i_vpackuswb_xxo));
  (false, en32 (mkEntry "vpaddb/xxo" [cX; cX; cO] (rro i_vpaddb_xxo) r_vpaddb_xxo VlRegs) (rro Mnemonic32.i_vpaddb_xxo));
  (false, en32 (mkEntry "vpaddw/xxo" [cX; cX; cO] (rro i_vpaddw_xxo) r_vpaddw_xxo VlRegs) (rro Mnemonic32.i_vpaddw_xxo));
  (false, en32 (mkEntry "vpaddsb/xxo" [cX; cX; cO] (rro i_vpaddsb_xxo) r_vpaddsb_xxo VlRegs) (rro Mnemonic32.i_vpaddsb_xxo));
  (false, en32 (mkEntry "vpaddsw/xxo" [cX; cX; cO] (rro i_vpaddsw_xxo) r_vpaddsw_xxo VlRegs) (rro Mnemonic32.i_vpaddsw_xxo));
  (false, en32 (mkEntry "vpaddusb/xxo" [cX; cX; cO] (rro i_vpaddusb_xxo) r_vpaddusb_xxo VlRegs) (rro Mnemonic32.i_vpaddusb_xxo));
  (false, en32 (mkEntry "vpaddusw/xxo" [cX; cX; cO] (rro i_vpaddusw_xxo) r_vpaddusw_xxo VlRegs) (rro Mnemonic32.i_vpaddusw_xxo));
  (false, en32 (mkEntry "vpavgb/xxo" [cX; cX; cO] (rro i_vpavgb_xxo) r_vpavgb_xxo VlRegs) (rro Mnemonic32.i_vpavgb_xxo));
  (false, en32 (mkEntry "vpavgw/xxo" [cX; cX; cO] (rro i_vpavgw_xxo) r_vpavgw_xxo VlRegs) (rro Mnemonic32.i_vpavgw_xxo));
  (false, en32 (mkEntry "vpmaddubsw/xxo" [cX; cX; cO] (rro i_vpmaddubsw_xxo) r_vpmaddubsw_xxo VlRegs) (rro Mnemonic32.i_vpmaddubsw_xxo));
  (false, en32 (mkEntry "vpmaddwd/xxo" [cX; cX; cO] (rro i_vpmaddwd_xxo) r_vpmaddwd_xxo VlRegs) (rro Mnemonic32.i_vpmaddwd_xxo));
  (false, en32 (mkEntry "vpmaxsb/xxo" [cX; cX; cO] (rro i_vpmaxsb_xxo) r_vpmaxsb_xxo VlRegs) (rro Mnemonic32.i_vpmaxsb_xxo));
  (false, en32 (mkEntry "vpmaxsw/xxo" [cX; cX; cO] (rro i_vpmaxsw_xxo) r_vpmaxsw_xxo VlRegs) (rro Mnemonic32.i_vpmaxsw_xxo));
  (false, en32 (mkEntry "vpmaxub/xxo" [cX; cX; cO] (rro i_vpmaxub_xxo) r_vpmaxub_xxo VlRegs) (rro Mnemonic32.i_vpmaxub_xxo));
  (false, en32 (mkEntry "vpmaxuw/xxo" [cX; cX; cO] (rro i_vpmaxuw_xxo) r_vpmaxuw_xxo VlRegs) (rro Mnemonic32.i_vpmaxuw_xxo))].
Lemma vex32_5_ok : Forall (fun p => implements32 (fst p) (snd p)) (vex32_5).
Proof. unfold vex32_5.
vrow_ tab1_ok 96%nat sims38_ok start38 17%nat.
vrow_ tab1_ok 97%nat sims38_ok start38 16%nat.
vrow_ tab1_ok 98%nat sims65_ok start65 22%nat.
vrow_ tab1_ok 99%nat sims65_ok start65 21%nat.
vrow_ tab1_ok 100%nat sims38_ok start38 19%nat.
vrow_ tab1_ok 101%nat sims38_ok start38 18%nat.
vrow_ tab1_ok 102%nat sims65_ok start65 23%nat.
vrow_ tab1_ok 103%nat sims39_ok start39 4%nat.
vrow_ tab1_ok 104%nat sims39_ok start39 3%nat.
vrow_ tab1_ok 105%nat sims66_ok start66 6%nat.
vrow_ tab1_ok 106%nat sims66_ok start66 5%nat.
vrow_ tab1_ok 107%nat sims39_ok start39 6%nat.
vrow_ tab1_ok 108%nat sims39_ok start39 5%nat.
vrow_ tab1_ok 109%nat sims66_ok start66 7%nat.
vrow_ tab1_ok 110%nat sims42_ok start42 9%nat.
vrow_ tab1_ok 111%nat sims42_ok start42 11%nat.
vrow_ tab1_ok 112%nat sims42_ok start42 12%nat.
vrow_ tab1_ok 113%nat sims42_ok start42 19%nat.
vrow_ tab1_ok 114%nat sims42_ok start42 15%nat.
vrow_ tab1_ok 115%nat sims42_ok start42 16%nat.
vrow_ tab1_ok 116%nat sims42_ok start42 17%nat.
vrow_ tab1_ok 117%nat sims42_ok start42 18%nat.
vrow_ tab1_ok 118%nat sims42_ok start42 23%nat.
vrow_ tab1_ok 119%nat sims42_ok start42 24%nat.
vrow_ tab1_ok 120%nat sims45_ok start45 9%nat.
vrow_ tab1_ok 121%nat sims45_ok start45 10%nat.
vrow_ tab1_ok 122%nat sims45_ok start45 15%nat.
vrow_ tab1_ok 123%nat sims45_ok start45 17%nat.
vrow_ tab1_ok 124%nat sims45_ok start45 18%nat.
vrow_ tab1_ok 125%nat sims45_ok start45 20%nat.
apply Forall_nil. Qed.
Definition vex32_6 : list (bool * entry) := [
  (false, en32 (mkEntry "vpminsb/xxo" [cX; cX; cO] (rro i_vpminsb_xxo) r_vpminsb_xxo VlRegs) (rro Mnemonic32.i_vpminsb_xxo));
  (false, en32 (mkEntry "vpminsw/xxo" [cX; cX; cO] (rro i_vpminsw_xxo) r_vpminsw_xxo VlRegs) (rro Mnemonic32.i_vpminsw_xxo));
  (false, en32 (mkEntry "vpminub/xxo" [cX; cX; cO] (rro i_vpminub_xxo) r_vpminub_xxo VlRegs) (rro Mnemonic32.i_vpminub_xxo));
  (false, en32 (mkEntry "vpminuw/xxo" [cX; cX; cO] (rro i_vpminuw_xxo) r_vpminuw_xxo VlRegs) (rro Mnemonic32.i_vpminuw_xxo));
  (false, en32 (mkEntry "vpmulhrsw/xxo" [cX; cX; cO] (rro i_vpmulhrsw_xxo) r_vpmulhrsw_xxo VlRegs) (rro Mnemonic32.i_vpmulhrsw_xxo));
  (false, en32 (mkEntry "vpmulhuw/xxo" [cX; cX; cO] (rro i_vpmulhuw_xxo) r_vpmulhuw_xxo VlRegs) (rro Mnemonic32.i_vpmulhuw_xxo));
  (false, en32 (mkEntry "vpmulhw/xxo" [cX; cX; cO] (rro i_vpmulhw_xxo) r_vpmulhw_xxo VlRegs) (rro Mnemonic32.i_vpmulhw_xxo));
  (false, en32 (mkEntry "vpmullw/xxo" [cX; cX; cO] (rro i_vpmullw_xxo) r_vpmullw_xxo VlRegs) (rro Mnemonic32.i_vpmullw_xxo));
  (false, en32 (mkEntry "vpsadbw/xxo" [cX; cX; cO] (rro i_vpsadbw_xxo) r_vpsadbw_xxo VlRegs) (rro Mnemonic32.i_vpsadbw_xxo));
  (false, en32 (mkEntry "vpshufb/xxo" [cX; cX; cO] (rro i_vpshufb) r_vpshufb_xxo VlRegs) (rro Mnemonic32.i_vpshufb));
  (false, en32 (mkEntry "vpsubb/xxo" [cX; cX; cO] (rro i_vpsubb_xxo) r_vpsubb_xxo VlRegs) (rro Mnemonic32.i_vpsubb_xxo));
  (false, en32 (mkEntry "vpsubw/xxo" [cX; cX; cO] (rro i_vpsubw_xxo) r_vpsubw_xxo VlRegs) (rro Mnemonic32.i_vpsubw_xxo));
  (false, en32 (mkEntry "vpsubsb/xxo" [cX; cX; cO] (rro i_vpsubsb_xxo) r_vpsubsb_xxo VlRegs) (rro Mnemonic32.i_vpsubsb_xxo));
  (false, en32 (mkEntry "vpsubsw/xxo" [cX; cX; cO] (rro i_vpsubsw_xxo) r_vpsubsw_xxo VlRegs) (rro Mnemonic32.i_vpsubsw_xxo));
  (false, en32 (mkEntry "vpsubusb/xxo" [cX; cX; cO] (rro i_vpsubusb_xxo) r_vpsubusb_xxo VlRegs) (rro Mnemonic32.i_vpsubusb_xxo));
  (false, en32 (mkEntry "vpsubusw/xxo" [cX; cX; cO] (rro i_vpsubusw_xxo) r_vpsubusw_xxo VlRegs) (rro Mnemonic32.i_vpsubusw_xxo));
  (false, en32 (mkEntry "vpunpckhbw/xxo" [cX; cX; cO] (rro i_vpunpckhbw_xxo) r_vpunpckhbw_xxo VlRegs) (rro Mnemonic32.i_vpunpckhbw_xxo));
  (false, en32 (mkEntry "vpunpckhwd/xxo" [cX; cX; cO] (rro i_vpunpckhwd_xxo) r_vpunpckhwd_xxo VlRegs) (rro Mnemonic32.i_vpunpckhwd_xxo));
  (false, en32 (mkEntry "vpunpcklbw/xxo" [cX; cX; cO] (rro i_vpunpcklbw_xxo) r_vpunpcklbw_xxo VlRegs) (rro Mnemonic32.i_vpunpcklbw_xxo));
  (false, en32 (mkEntry "vpunpcklwd/xxo" [cX; cX; cO] (rro i_vpunpcklwd_xxo) r_vpunpcklwd_xxo VlRegs) (rro Mnemonic32.i_vpunpcklwd_xxo));
  (false, en32 (mkEntry "vpackssdw/xxo" [cX; cX; cO] (rro i_vpackssdw_xxo) r_vpackssdw_xxo VlRegs) (rro Mnemonic32.i_vpackssdw_xxo));
  (false, en32 (mkEntry "vpackusdw/xxo" [cX; cX; cO] (rro i_vpackusdw_xxo) r_vpackusdw_xxo VlRegs) (rro Mnemonic32.i_vpackusdw_xxo));
  (false, en32 (mkEntry "vpaddd/xxo" [cX; cX; cO] (rro i_vpaddd_xxo) r_vpaddd_xxo VlRegs) (rro Mnemonic32.i_vpaddd_xxo));
  (false, en32 (mkEntry "vpaddq/xxo" [cX; cX; cO] (rro i_vpaddq_xxo) r_vpaddq_xxo VlRegs) (rro Mnemonic32.i_vpaddq_xxo));
  (false, en32 (mkEntry "vpmaxsd/xxo" [cX; cX; cO] (rro i_vpmaxsd_xxo) r_vpmaxsd_xxo VlRegs) (rro Mnemonic32.i_vpmaxsd_xxo));
  (false, en32 (mkEntry "vpmaxud/xxo" [cX; cX; cO] (rro i_vpmaxud_xxo) r_vpmaxud_xxo VlRegs) (rro Mnemonic32.i_vpmaxud_xxo));
  (false, en32 (mkEntry "vpminsd/xxo" [cX; cX; cO] (rro i_vpminsd_xxo) r_vpminsd_xxo VlRegs) (rro Mnemonic32.i_vpminsd_xxo));
  (false, en32 (mkEntry "vpminud/xxo" [cX; cX; cO] (rro i_vpminud_xxo) r_vpminud_xxo VlRegs) (rro Mnemonic32.i_vpminud_xxo));
  (false, en32 (mkEntry "vpmuldq/xxo" [cX; cX; cO] (rro i_vpmuldq_xxo) r_vpmuldq_xxo VlRegs) (rro Mnemonic32.i_vpmuldq_xxo));
  (false, en32 (mkEntry "vpmulld/xxo" [cX; cX; cO] (rro i_vpmulld_xxo) r_vpmulld_xxo VlRegs) (rro Mnemonic32.i_vpmulld_xxo))].
Lemma vex32_6_ok : Forall (fun p => implements32 (fst p) (snd p)) (vex32_6).
Proof. unfold vex32_6.
vrow_ tab1_ok 126%nat sims45_ok start45 21%nat.
vrow_ tab1_ok 127%nat sims45_ok start45 23%nat.
vrow_ tab1_ok 128%nat sims45_ok start45 24%nat.
vrow_ tab1_ok 129%nat sims46_ok start46 1%nat.
vrow_ tab1_ok 130%nat sims46_ok start46 16%nat.
vrow_ tab1_ok 131%nat sims46_ok start46 17%nat.
vrow_ tab1_ok 132%nat sims46_ok start46 18%nat.
vrow_ tab1_ok 133%nat sims46_ok start46 20%nat.
vrow_ tab1_ok 134%nat sims46_ok start46 23%nat.
vrow_ tab1_ok 135%nat sims46_ok start46 24%nat.
vrow_ tab1_ok 136%nat sims48_ok start48 4%nat.
vrow_ tab1_ok 137%nat sims48_ok start48 11%nat.
vrow_ tab1_ok 138%nat sims48_ok start48 7%nat.
vrow_ tab1_ok 139%nat sims48_ok start48 8%nat.
vrow_ tab1_ok 140%nat sims48_ok start48 9%nat.
vrow_ tab1_ok 141%nat sims48_ok start48 10%nat.
vrow_ tab1_ok 142%nat sims48_ok start48 13%nat.
vrow_ tab1_ok 143%nat sims48_ok start48 16%nat.
vrow_ tab1_ok 144%nat sims48_ok start48 17%nat.
vrow_ tab1_ok 145%nat sims48_ok start48 20%nat.
vrow_ tab1_ok 146%nat sims42_ok start42 8%nat.
vrow_ tab1_ok 147%nat sims42_ok start42 10%nat.
vrow_ tab1_ok 148%nat sims42_ok start42 13%nat.
vrow_ tab1_ok 149%nat sims42_ok start42 14%nat.
vrow_ tab1_ok 150%nat sims45_ok start45 16%nat.
vrow_ tab1_ok 151%nat sims45_ok start45 19%nat.
vrow_ tab1_ok 152%nat sims45_ok start45 22%nat.
vrow_ tab1_ok 153%nat sims46_ok start46 0%nat.
vrow_ tab1_ok 154%nat sims46_ok start46 15%nat.
vrow_ tab1_ok 155%nat sims46_ok start46 19%nat.
apply Forall_nil. Qed.
Definition vex32_7 : list (bool * entry) := [
  (false, en32 (mkEntry "vpmuludq/xxo" [cX; cX; cO] (rro i_vpmuludq_xxo) r_vpmuludq_xxo VlRegs) (rro Mnemonic32.i_vpmuludq_xxo));
  (false, en32 (mkEntry "vpsubd/xxo" [cX; cX; cO] (rro i_vpsubd_xxo) r_vpsubd_xxo VlRegs) (rro Mnemonic32.i_vpsubd_xxo));
  (false, en32 (mkEntry "vpsubq/xxo" [cX; cX; cO] (rro i_vpsubq_xxo) r_vpsubq_xxo VlRegs) (rro Mnemonic32.i_vpsubq_xxo));
  (false, en32 (mkEntry "vpunpckhdq/xxo" [cX; cX; cO] (rro i_vpunpckhdq_xxo) r_vpunpckhdq_xxo VlRegs) (rro Mnemonic32.i_vpunpckhdq_xxo));
  (false, en32 (mkEntry "vpunpckhqdq/xxo" [cX; cX; cO] (rro i_vpunpckhqdq_xxo) r_vpunpckhqdq_xxo VlRegs) (rro Mnemonic32.i_vpunpckhqdq_xxo));
  (false, en32 (mkEntry "vpunpckldq/xxo" [cX; cX; cO] (rro i_vpunpckldq_xxo) r_vpunpckldq_xxo VlRegs) (rro Mnemonic32.i_vpunpckldq_xxo));
  (false, en32 (mkEntry "vpunpcklqdq/xxo" [cX; cX; cO] (rro i_vpunpcklqdq_xxo) r_vpunpcklqdq_xxo VlRegs) (rro Mnemonic32.i_vpunpcklqdq_xxo));
  (false, en32 (mkEntry "vpand/xxo" [cX; cX; cO] (rro i_vpand_xxo) r_vpand_xxo VlRegs) (rro Mnemonic32.i_vpand_xxo));
  (false, en32 (mkEntry "vpandn/xxo" [cX; cX; cO] (rro i_vpandn_xxo) r_vpandn_xxo VlRegs) (rro Mnemonic32.i_vpandn_xxo));
  (false, en32 (mkEntry "vpor/xxo" [cX; cX; cO] (rro i_vpor_xxo) r_vpor_xxo VlRegs) (rro Mnemonic32.i_vpor_xxo));
  (false, en32 (mkEntry "vpxor/xxo" [cX; cX; cO] (rro i_vpxor_xxo) r_vpxor_xxo VlRegs) (rro Mnemonic32.i_vpxor_xxo));
  (false, en32 (mkEntry "vpcmpeqb/xxo" [cX; cX; cO] (rro i_vpcmpeqb_xxo) r_vpcmpeqb_xxo VlRegs) (rro Mnemonic32.i_vpcmpeqb_xxo));
  (false, en32 (mkEntry "vpcmpeqw/xxo" [cX; cX; cO] (rro i_vpcmpeqw_xxo) r_vpcmpeqw_xxo VlRegs) (rro Mnemonic32.i_vpcmpeqw_xxo));
  (false, en32 (mkEntry "vpcmpeqd/xxo" [cX; cX; cO] (rro i_vpcmpeqd_xxo) r_vpcmpeqd_xxo VlRegs) (rro Mnemonic32.i_vpcmpeqd_xxo));
  (false, en32 (mkEntry "vpcmpeqq/xxo" [cX; cX; cO] (rro i_vpcmpeqq_xxo) r_vpcmpeqq_xxo VlRegs) (rro Mnemonic32.i_vpcmpeqq_xxo));
  (false, en32 (mkEntry "vpcmpgtb/xxo" [cX; cX; cO] (rro i_vpcmpgtb_xxo) r_vpcmpgtb_xxo VlRegs) (rro Mnemonic32.i_vpcmpgtb_xxo));
  (false, en32 (mkEntry "vpcmpgtw/xxo" [cX; cX; cO] (rro i_vpcmpgtw_xxo) r_vpcmpgtw_xxo VlRegs) (rro Mnemonic32.i_vpcmpgtw_xxo));
  (false, en32 (mkEntry "vpcmpgtd/xxo" [cX; cX; cO] (rro i_vpcmpgtd_xxo) r_vpcmpgtd_xxo VlRegs) (rro Mnemonic32.i_vpcmpgtd_xxo));
  (false, en32 (mkEntry "vpcmpgtq/xxo" [cX; cX; cO] (rro i_vpcmpgtq_xxo) r_vpcmpgtq_xxo VlRegs) (rro Mnemonic32.i_vpcmpgtq_xxo));
  (false, en32 (mkEntry "vphaddw/xxo" [cX; cX; cO] (rro i_vphaddw_xxo) r_vphaddw_xxo VlRegs) (rro Mnemonic32.i_vphaddw_xxo));
  (false, en32 (mkEntry "vphaddd/xxo" [cX; cX; cO] (rro i_vphaddd_xxo) r_vphaddd_xxo VlRegs) (rro Mnemonic32.i_vphaddd_xxo));
  (false, en32 (mkEntry "vphaddsw/xxo" [cX; cX; cO] (rro i_vphaddsw_xxo) r_vphaddsw_xxo VlRegs) (rro Mnemonic32.i_vphaddsw_xxo));
  (false, en32 (mkEntry "vphsubw/xxo" [cX; cX; cO] (rro i_vphsubw_xxo) r_vphsubw_xxo VlRegs) (rro Mnemonic32.i_vphsubw_xxo));
  (false, en32 (mkEntry "vphsubd/xxo" [cX; cX; cO] (rro i_vphsubd_xxo) r_vphsubd_xxo VlRegs) (rro Mnemonic32.i_vphsubd_xxo));
  (false, en32 (mkEntry "vphsubsw/xxo" [cX; cX; cO] (rro i_vphsubsw_xxo) r_vphsubsw_xxo VlRegs) (rro Mnemonic32.i_vphsubsw_xxo));
  (false, en32 (mkEntry "vpsignb/xxo" [cX; cX; cO] (rro i_vpsignb_xxo) r_vpsignb_xxo VlRegs) (rro Mnemonic32.i_vpsignb_xxo));
  (false, en32 (mkEntry "vpsignw/xxo" [cX; cX; cO] (rro i_vpsignw_xxo) r_vpsignw_xxo VlRegs) (rro Mnemonic32.i_vpsignw_xxo));
  (false, en32 (mkEntry "vpsignd/xxo" [cX; cX; cO] (rro i_vpsignd_xxo) r_vpsignd_xxo VlRegs) (rro Mnemonic32.i_vpsignd_xxo));
  (false, en32 (mkEntry "vpermd/yyo" [cY; cY; cO] (rro i_vpermd) r_vpermd_yyo VlRegs) (rro Mnemonic32.i_vpermd));
  (false, en32 (mkEntry "vpermps/yyo" [cY; cY; cO] (rro i_vpermps) r_vpermps_yyo VlRegs) (rro Mnemonic32.i_vpermps))].
Lemma vex32_7_ok : Forall (fun p => implements32 (fst p) (snd p)) (vex32_7).
Proof. unfold vex32_7.
vrow_ tab1_ok 156%nat sims46_ok start46 21%nat.
vrow_ tab1_ok 157%nat sims48_ok start48 5%nat.
vrow_ tab1_ok 158%nat sims48_ok start48 6%nat.
vrow_ tab1_ok 159%nat sims48_ok start48 14%nat.
vrow_ tab1_ok 160%nat sims48_ok start48 15%nat.
vrow_ tab1_ok 161%nat sims48_ok start48 18%nat.
vrow_ tab1_ok 162%nat sims48_ok start48 19%nat.
vrow_ tab1_ok 163%nat sims42_ok start42 21%nat.
vrow_ tab1_ok 164%nat sims42_ok start42 22%nat.
vrow_ tab1_ok 165%nat sims46_ok start46 22%nat.
vrow_ tab1_ok 166%nat sims48_ok start48 21%nat.
vrow_ tab1_ok 167%nat sims43_ok start43 12%nat.
vrow_ tab1_ok 168%nat sims43_ok start43 15%nat.
vrow_ tab1_ok 169%nat sims43_ok start43 13%nat.
vrow_ tab1_ok 170%nat sims43_ok start43 14%nat.
vrow_ tab1_ok 171%nat sims43_ok start43 18%nat.
vrow_ tab1_ok 172%nat sims43_ok start43 21%nat.
vrow_ tab1_ok 173%nat sims43_ok start43 19%nat.
vrow_ tab1_ok 174%nat sims43_ok start43 20%nat.
vrow_ tab1_ok 175%nat sims45_ok start45 0%nat.
vrow_ tab1_ok 176%nat sims44_ok start44 23%nat.
vrow_ tab1_ok 177%nat sims44_ok start44 24%nat.
vrow_ tab1_ok 178%nat sims45_ok start45 4%nat.
vrow_ tab1_ok 179%nat sims45_ok start45 2%nat.
vrow_ tab1_ok 180%nat sims45_ok start45 3%nat.
vrow_ tab1_ok 181%nat sims47_ok start47 3%nat.
vrow_ tab1_ok 182%nat sims47_ok start47 5%nat.
vrow_ tab1_ok 183%nat sims47_ok start47 4%nat.
vrow_ tab1_ok 184%nat sims44_ok start44 5%nat.
vrow_ tab1_ok 185%nat sims44_ok start44 12%nat.
apply Forall_nil. Qed.
Definition vex32_8 : list (bool * entry) := [
  (false, en32 (mkEntry "vpermpd/yyo" [cY; cY; cO] (rro i_vpermpd_yyo) r_vpermpd_yyo VlRegs) (rro Mnemonic32.i_vpermpd_yyo));
  (false, en32 (mkEntry "vpermilps/xxo" [cX; cX; cO] (rro i_vpermilps_xxo) r_vpermilps_xxo VlRegs) (rro Mnemonic32.i_vpermilps_xxo));
  (false, en32 (mkEntry "vpermilpd/xxo" [cX; cX; cO] (rro i_vpermilpd_xxo) r_vpermilpd_xxo VlRegs) (rro Mnemonic32.i_vpermilpd_xxo));
  (false, en32 (mkEntry "vpsllw/xxo" [cX; cX; cO] (rro i_vpsllw_xxo) r_vpsllw_xxo VlRegs) (rro Mnemonic32.i_vpsllw_xxo));
  (false, en32 (mkEntry "vpslld/xxo" [cX; cX; cO] (rro i_vpslld_xxo) r_vpslld_xxo VlRegs) (rro Mnemonic32.i_vpslld_xxo));
  (false, en32 (mkEntry "vpsllq/xxo" [cX; cX; cO] (rro i_vpsllq_xxo) r_vpsllq_xxo VlRegs) (rro Mnemonic32.i_vpsllq_xxo));
  (false, en32 (mkEntry "vpsraw/xxo" [cX; cX; cO] (rro i_vpsraw_xxo) r_vpsraw_xxo VlRegs) (rro Mnemonic32.i_vpsraw_xxo));
  (false, en32 (mkEntry "vpsrad/xxo" [cX; cX; cO] (rro i_vpsrad_xxo) r_vpsrad_xxo VlRegs) (rro Mnemonic32.i_vpsrad_xxo));
  (false, en32 (mkEntry "vpsrlw/xxo" [cX; cX; cO] (rro i_vpsrlw_xxo) r_vpsrlw_xxo VlRegs) (rro Mnemonic32.i_vpsrlw_xxo));
  (false, en32 (mkEntry "vpsrld/xxo" [cX; cX; cO] (rro i_vpsrld_xxo) r_vpsrld_xxo VlRegs) (rro Mnemonic32.i_vpsrld_xxo));
  (false, en32 (mkEntry "vpsrlq/xxo" [cX; cX; cO] (rro i_vpsrlq_xxo) r_vpsrlq_xxo VlRegs) (rro Mnemonic32.i_vpsrlq_xxo));
  (false, en32 (mkEntry "vpsraq/xxo" [cX; cX; cO] (rro i_vpsraq_xxo) r_vpsraq_xxo VlRegs) (rro MnemonicAvx32.i_vpsraq_xxo));
  (false, en32 (mkEntry "vpsllvd/xxo" [cX; cX; cO] (rro i_vpsllvd) r_vpsllvd_xxo VlRegs) (rro Mnemonic32.i_vpsllvd));
  (false, en32 (mkEntry "vpsllvq/xxo" [cX; cX; cO] (rro i_vpsllvq) r_vpsllvq_xxo VlRegs) (rro Mnemonic32.i_vpsllvq));
  (false, en32 (mkEntry "vpsrlvd/xxo" [cX; cX; cO] (rro i_vpsrlvd) r_vpsrlvd_xxo VlRegs) (rro Mnemonic32.i_vpsrlvd));
  (false, en32 (mkEntry "vpsrlvq/xxo" [cX; cX; cO] (rro i_vpsrlvq) r_vpsrlvq_xxo VlRegs) (rro Mnemonic32.i_vpsrlvq));
  (false, en32 (mkEntry "vpsravd/xxo" [cX; cX; cO] (rro i_vpsravd) r_vpsravd_xxo VlRegs) (rro Mnemonic32.i_vpsravd));
  (false, en32 (mkEntry "vpsravq/xxo" [cX; cX; cO] (rro i_vpsravq) r_vpsravq_xxo VlRegs) (rro MnemonicAvx32.i_vpsravq));
  (false, en32 (mkEntry "vpsllvw/xxo" [cX; cX; cO] (rro i_vpsllvw) r_vpsllvw_xxo VlRegs) (rro MnemonicAvx32.i_vpsllvw));
  (false, en32 (mkEntry "vpsravw/xxo" [cX; cX; cO] (rro i_vpsravw) r_vpsravw_xxo VlRegs) (rro MnemonicAvx32.i_vpsravw));
  (false, en32 (mkEntry "vpsrlvw/xxo" [cX; cX; cO] (rro i_vpsrlvw) r_vpsrlvw_xxo VlRegs) (rro MnemonicAvx32.i_vpsrlvw));
  (false, en32 (mkEntry "vrcpss/xxo" [cX; cX; cO] (rro i_vrcpss_xxo) r_vrcpss_xxo VlRegs) (rro Mnemonic32.i_vrcpss_xxo));
  (false, en32 (mkEntry "vrsqrtss/xxo" [cX; cX; cO] (rro i_vrsqrtss_xxo) r_vrsqrtss_xxo VlRegs) (rro Mnemonic32.i_vrsqrtss_xxo));
  (false, en32 (mkEntry "vsm4key4/xxo" [cX; cX; cO] (rro i_vsm4key4) r_vsm4key4_xxo VlRegs) (rro Mnemonic32.i_vsm4key4));
  (false, en32 (mkEntry "vsm4rnds4/xxo" [cX; cX; cO] (rro i_vsm4rnds4) r_vsm4rnds4_xxo VlRegs) (rro Mnemonic32.i_vsm4rnds4));
  (false, en32 (mkEntry "vsqrtss/xxo" [cX; cX; cO] (rro i_vsqrtss_xxo) r_vsqrtss_xxo VlRegs) (rro Mnemonic32.i_vsqrtss_xxo));
  (false, en32 (mkEntry "vsqrtsd/xxo" [cX; cX; cO] (rro i_vsqrtsd_xxo) r_vsqrtsd_xxo VlRegs) (rro Mnemonic32.i_vsqrtsd_xxo));
  (false, en32 (mkEntry "vsqrtsh/xxo" [cX; cX; cO] (rro i_vsqrtsh) r_vsqrtsh_xxo VlRegs) (rro MnemonicAvx32.i_vsqrtsh));
  (false, en32 (mkEntry "vunpcklps/xxo" [cX; cX; cO] (rro i_vunpcklps_xxo) r_vunpcklps_xxo VlRegs) (rro Mnemonic32.i_vunpcklps_xxo));
  (false, en32 (mkEntry "vunpcklpd/xxo" [cX; cX; cO] (rro i_vunpcklpd_xxo) r_vunpcklpd_xxo VlRegs) (rro Mnemonic32.i_vunpcklpd_xxo))].
Lemma vex32_8_ok : Forall (fun p => implements32 (fst p) (snd p)) (vex32_8).
Proof. unfold vex32_8.
vrow_ tab1_ok 186%nat sims44_ok start44 11%nat.
vrow_ tab1_ok 187%nat sims44_ok start44 8%nat.
vrow_ tab1_ok 188%nat sims44_ok start44 6%nat.
vrow_ tab1_ok 189%nat sims47_ok start47 14%nat.
vrow_ tab1_ok 190%nat sims47_ok start47 7%nat.
vrow_ tab1_ok 191%nat sims47_ok start47 10%nat.
vrow_ tab1_ok 192%nat sims47_ok start47 19%nat.
vrow_ tab1_ok 193%nat sims47_ok start47 16%nat.
vrow_ tab1_ok 194%nat sims48_ok start48 3%nat.
vrow_ tab1_ok 195%nat sims47_ok start47 21%nat.
vrow_ tab1_ok 196%nat sims47_ok start47 24%nat.
vrow_ tab1_ok 197%nat sims74_ok start74 22%nat.
vrow_ tab1_ok 198%nat sims47_ok start47 11%nat.
vrow_ tab1_ok 199%nat sims47_ok start47 12%nat.
vrow_ tab1_ok 200%nat sims48_ok start48 0%nat.
vrow_ tab1_ok 201%nat sims48_ok start48 1%nat.
vrow_ tab1_ok 202%nat sims47_ok start47 17%nat.
vrow_ tab1_ok 203%nat sims74_ok start74 23%nat.
vrow_ tab1_ok 204%nat sims74_ok start74 20%nat.
vrow_ tab1_ok 205%nat sims74_ok start74 24%nat.
vrow_ tab1_ok 206%nat sims75_ok start75 0%nat.
vrow_ tab1_ok 207%nat sims48_ok start48 23%nat.
vrow_ tab1_ok 208%nat sims49_ok start49 4%nat.
vrow_ tab1_ok 209%nat sims49_ok start49 13%nat.
vrow_ tab1_ok 210%nat sims49_ok start49 14%nat.
vrow_ tab1_ok 211%nat sims49_ok start49 18%nat.
vrow_ tab1_ok 212%nat sims49_ok start49 17%nat.
vrow_ tab1_ok 213%nat sims78_ok start78 4%nat.
vrow_ tab1_ok 214%nat sims50_ok start50 6%nat.
vrow_ tab1_ok 215%nat sims50_ok start50 5%nat.
apply Forall_nil. Qed.
Definition vex32_9 : list (bool * entry) := [
  (false, en32 (mkEntry "vunpckhps/xxo" [cX; cX; cO] (rro i_vunpckhps_xxo) r_vunpckhps_xxo VlRegs) (rro Mnemonic32.i_vunpckhps_xxo));
  (false, en32 (mkEntry "vunpckhpd/xxo" [cX; cX; cO] (rro i_vunpckhpd_xxo) r_vunpckhpd_xxo VlRegs) (rro Mnemonic32.i_vunpckhpd_xxo));
  (false, en32 (mkEntry "vblendmps/xxo" [cX; cX; cO] (rro i_vblendmps) r_vblendmps_xxo VlRegs) (rro MnemonicAvx32.i_vblendmps));
  (false, en32 (mkEntry "vblendmpd/xxo" [cX; cX; cO] (rro i_vblendmpd) r_vblendmpd_xxo VlRegs) (rro MnemonicAvx32.i_vblendmpd));
  (false, en32 (mkEntry "vpblendmb/xxo" [cX; cX; cO] (rro i_vpblendmb) r_vpblendmb_xxo VlRegs) (rro MnemonicAvx32.i_vpblendmb));
  (false, en32 (mkEntry "vpblendmw/xxo" [cX; cX; cO] (rro i_vpblendmw) r_vpblendmw_xxo VlRegs) (rro MnemonicAvx32.i_vpblendmw));
  (false, en32 (mkEntry "vpblendmd/xxo" [cX; cX; cO] (rro i_vpblendmd) r_vpblendmd_xxo VlRegs) (rro MnemonicAvx32.i_vpblendmd));
  (false, en32 (mkEntry "vpblendmq/xxo" [cX; cX; cO] (rro i_vpblendmq) r_vpblendmq_xxo VlRegs) (rro MnemonicAvx32.i_vpblendmq));
  (false, en32 (mkEntry "vcvt2ps2phx/xxo" [cX; cX; cO] (rro i_vcvt2ps2phx) r_vcvt2ps2phx_xxo VlRegs) (rro MnemonicAvx32.i_vcvt2ps2phx));
  (false, en32 (mkEntry "vcvtsd2sh/xxo" [cX; cX; cO] (rro i_vcvtsd2sh) r_vcvtsd2sh_xxo VlRegs) (rro MnemonicAvx32.i_vcvtsd2sh));
  (false, en32 (mkEntry "vcvtsh2sd/xxo" [cX; cX; cO] (rro i_vcvtsh2sd) r_vcvtsh2sd_xxo VlRegs) (rro MnemonicAvx32.i_vcvtsh2sd));
  (false, en32 (mkEntry "vcvtsh2ss/xxo" [cX; cX; cO] (rro i_vcvtsh2ss) r_vcvtsh2ss_xxo VlRegs) (rro MnemonicAvx32.i_vcvtsh2ss));
  (false, en32 (mkEntry "vcvtss2sh/xxo" [cX; cX; cO] (rro i_vcvtss2sh) r_vcvtss2sh_xxo VlRegs) (rro MnemonicAvx32.i_vcvtss2sh));
  (false, en32 (mkEntry "vdpphps/xxo" [cX; cX; cO] (rro i_vdpphps) r_vdpphps_xxo VlRegs) (rro MnemonicAvx32.i_vdpphps));
  (false, en32 (mkEntry "vfcmaddcph/xxo" [cX; cX; cO] (rro i_vfcmaddcph) r_vfcmaddcph_xxo VlRegs) (rro MnemonicAvx32.i_vfcmaddcph));
  (false, en32 (mkEntry "vfmaddcph/xxo" [cX; cX; cO] (rro i_vfmaddcph) r_vfmaddcph_xxo VlRegs) (rro MnemonicAvx32.i_vfmaddcph));
  (false, en32 (mkEntry "vfcmulcph/xxo" [cX; cX; cO] (rro i_vfcmulcph) r_vfcmulcph_xxo VlRegs) (rro MnemonicAvx32.i_vfcmulcph));
  (false, en32 (mkEntry "vfmulcph/xxo" [cX; cX; cO] (rro i_vfmulcph) r_vfmulcph_xxo VlRegs) (rro MnemonicAvx32.i_vfmulcph));
  (false, en32 (mkEntry "vgetexpss/xxo" [cX; cX; cO] (rro i_vgetexpss) r_vgetexpss_xxo VlRegs) (rro MnemonicAvx32.i_vgetexpss));
  (false, en32 (mkEntry "vgetexpsd/xxo" [cX; cX; cO] (rro i_vgetexpsd) r_vgetexpsd_xxo VlRegs) (rro MnemonicAvx32.i_vgetexpsd));
  (false, en32 (mkEntry "vgetexpsh/xxo" [cX; cX; cO] (rro i_vgetexpsh) r_vgetexpsh_xxo VlRegs) (rro MnemonicAvx32.i_vgetexpsh));
  (false, en32 (mkEntry "vpandd/xxo" [cX; cX; cO] (rro i_vpandd) r_vpandd_xxo VlRegs) (rro MnemonicAvx32.i_vpandd));
  (false, en32 (mkEntry "vpandq/xxo" [cX; cX; cO] (rro i_vpandq) r_vpandq_xxo VlRegs) (rro MnemonicAvx32.i_vpandq));
  (false, en32 (mkEntry "vpandnd/xxo" [cX; cX; cO] (rro i_vpandnd) r_vpandnd_xxo VlRegs) (rro MnemonicAvx32.i_vpandnd));
  (false, en32 (mkEntry "vpandnq/xxo" [cX; cX; cO] (rro i_vpandnq) r_vpandnq_xxo VlRegs) (rro MnemonicAvx32.i_vpandnq));
  (false, en32 (mkEntry "vpord/xxo" [cX; cX; cO] (rro i_vpord) r_vpord_xxo VlRegs) (rro MnemonicAvx32.i_vpord));
  (false, en32 (mkEntry "vporq/xxo" [cX; cX; cO] (rro i_vporq) r_vporq_xxo VlRegs) (rro MnemonicAvx32.i_vporq));
  (false, en32 (mkEntry "vpxord/xxo" [cX; cX; cO] (rro i_vpxord) r_vpxord_xxo VlRegs) (rro MnemonicAvx32.i_vpxord));
  (false, en32 (mkEntry "vpxorq/xxo" [cX; cX; cO] (rro i_vpxorq) r_vpxorq_xxo VlRegs) (rro MnemonicAvx32.i_vpxorq));
  (false, en32 (mkEntry "vpermb/xxo" [cX; cX; cO] (rro i_vpermb) r_vpermb_xxo VlRegs) (rro MnemonicAvx32.i_vpermb))].
Lemma vex32_9_ok : Forall (fun p => implements32 (fst p) (snd p)) (vex32_9).
Proof. unfold vex32_9.
vrow_ tab1_ok 216%nat sims50_ok start50 4%nat.
vrow_ tab1_ok 217%nat sims50_ok start50 3%nat.
vrow_ tab1_ok 218%nat sims53_ok start53 17%nat.
vrow_ tab1_ok 219%nat sims53_ok start53 16%nat.
vrow_ tab1_ok 220%nat sims69_ok start69 13%nat.
vrow_ tab1_ok 221%nat sims69_ok start69 16%nat.
vrow_ tab1_ok 222%nat sims69_ok start69 14%nat.
vrow_ tab1_ok 223%nat sims69_ok start69 15%nat.
vrow_ tab1_ok 224%nat sims59_ok start59 20%nat.
vrow_ tab1_ok 225%nat sims61_ok start61 11%nat.
vrow_ tab1_ok 226%nat sims61_ok start61 13%nat.
vrow_ tab1_ok 227%nat sims61_ok start61 15%nat.
vrow_ tab1_ok 228%nat sims61_ok start61 18%nat.
vrow_ tab1_ok 229%nat sims63_ok start63 20%nat.
vrow_ tab1_ok 230%nat sims64_ok start64 8%nat.
vrow_ tab1_ok 231%nat sims64_ok start64 23%nat.
vrow_ tab1_ok 232%nat sims64_ok start64 9%nat.
vrow_ tab1_ok 233%nat sims65_ok start65 14%nat.
vrow_ tab1_ok 234%nat sims67_ok start67 7%nat.
vrow_ tab1_ok 235%nat sims67_ok start67 5%nat.
vrow_ tab1_ok 236%nat sims67_ok start67 6%nat.
vrow_ tab1_ok 237%nat sims69_ok start69 9%nat.
vrow_ tab1_ok 238%nat sims69_ok start69 12%nat.
vrow_ tab1_ok 239%nat sims69_ok start69 10%nat.
vrow_ tab1_ok 240%nat sims69_ok start69 11%nat.
vrow_ tab1_ok 241%nat sims73_ok start73 18%nat.
vrow_ tab1_ok 242%nat sims73_ok start73 19%nat.
vrow_ tab1_ok 243%nat sims75_ok start75 11%nat.
vrow_ tab1_ok 244%nat sims75_ok start75 12%nat.
vrow_ tab1_ok 245%nat sims71_ok start71 6%nat.
apply Forall_nil. Qed.
Definition vex32_10 : list (bool * entry) := [
  (false, en32 (mkEntry "vpermw/xxo" [cX; cX; cO] (rro i_vpermw) r_vpermw_xxo VlRegs) (rro MnemonicAvx32.i_vpermw));
  (false, en32 (mkEntry "vpermi2b/xxo" [cX; cX; cO] (rro i_vpermi2b) r_vpermi2b_xxo VlRegs) (rro MnemonicAvx32.i_vpermi2b));
  (false, en32 (mkEntry "vpermi2w/xxo" [cX; cX; cO] (rro i_vpermi2w) r_vpermi2w_xxo VlRegs) (rro MnemonicAvx32.i_vpermi2w));
  (false, en32 (mkEntry "vpermi2d/xxo" [cX; cX; cO] (rro i_vpermi2d) r_vpermi2d_xxo VlRegs) (rro MnemonicAvx32.i_vpermi2d));
  (false, en32 (mkEntry "vpermi2q/xxo" [cX; cX; cO] (rro i_vpermi2q) r_vpermi2q_xxo VlRegs) (rro MnemonicAvx32.i_vpermi2q));
  (false, en32 (mkEntry "vpermi2ps/xxo" [cX; cX; cO] (rro i_vpermi2ps) r_vpermi2ps_xxo VlRegs) (rro MnemonicAvx32.i_vpermi2ps));
  (false, en32 (mkEntry "vpermi2pd/xxo" [cX; cX; cO] (rro i_vpermi2pd) r_vpermi2pd_xxo VlRegs) (rro MnemonicAvx32.i_vpermi2pd));
  (false, en32 (mkEntry "vpermt2b/xxo" [cX; cX; cO] (rro i_vpermt2b) r_vpermt2b_xxo VlRegs) (rro MnemonicAvx32.i_vpermt2b));
  (false, en32 (mkEntry "vpermt2w/xxo" [cX; cX; cO] (rro i_vpermt2w) r_vpermt2w_xxo VlRegs) (rro MnemonicAvx32.i_vpermt2w));
  (false, en32 (mkEntry "vpermt2d/xxo" [cX; cX; cO] (rro i_vpermt2d) r_vpermt2d_xxo VlRegs) (rro MnemonicAvx32.i_vpermt2d));
  (false, en32 (mkEntry "vpermt2q/xxo" [cX; cX; cO] (rro i_vpermt2q) r_vpermt2q_xxo VlRegs) (rro MnemonicAvx32.i_vpermt2q));
  (false, en32 (mkEntry "vpermt2ps/xxo" [cX; cX; cO] (rro i_vpermt2ps) r_vpermt2ps_xxo VlRegs) (rro MnemonicAvx32.i_vpermt2ps));
  (false, en32 (mkEntry "vpermt2pd/xxo" [cX; cX; cO] (rro i_vpermt2pd) r_vpermt2pd_xxo VlRegs) (rro MnemonicAvx32.i_vpermt2pd));
  (false, en32 (mkEntry "vpmadd52luq/xxo" [cX; cX; cO] (rro i_vpmadd52luq) r_vpmadd52luq_xxo VlRegs) (rro MnemonicAvx32.i_vpmadd52luq));
  (false, en32 (mkEntry "vpmadd52huq/xxo" [cX; cX; cO] (rro i_vpmadd52huq) r_vpmadd52huq_xxo VlRegs) (rro MnemonicAvx32.i_vpmadd52huq));
  (false, en32 (mkEntry "vpmaxsq/xxo" [cX; cX; cO] (rro i_vpmaxsq) r_vpmaxsq_xxo VlRegs) (rro MnemonicAvx32.i_vpmaxsq));
  (false, en32 (mkEntry "vpmaxuq/xxo" [cX; cX; cO] (rro i_vpmaxuq) r_vpmaxuq_xxo VlRegs) (rro MnemonicAvx32.i_vpmaxuq));
  (false, en32 (mkEntry "vpminsq/xxo" [cX; cX; cO] (rro i_vpminsq) r_vpminsq_xxo VlRegs) (rro MnemonicAvx32.i_vpminsq));
  (false, en32 (mkEntry "vpminuq/xxo" [cX; cX; cO] (rro i_vpminuq) r_vpminuq_xxo VlRegs) (rro MnemonicAvx32.i_vpminuq));
  (false, en32 (mkEntry "vpmullq/xxo" [cX; cX; cO] (rro i_vpmullq) r_vpmullq_xxo VlRegs) (rro MnemonicAvx32.i_vpmullq));
  (false, en32 (mkEntry "vpmultishiftqb/xxo" [cX; cX; cO] (rro i_vpmultishiftqb) r_vpmultishiftqb_xxo VlRegs) (rro MnemonicAvx32.i_vpmultishiftqb));
  (false, en32 (mkEntry "vprolvd/xxo" [cX; cX; cO] (rro i_vprolvd) r_vprolvd_xxo VlRegs) (rro MnemonicAvx32.i_vprolvd));
  (false, en32 (mkEntry "vprolvq/xxo" [cX; cX; cO] (rro i_vprolvq) r_vprolvq_xxo VlRegs) (rro MnemonicAvx32.i_vprolvq));
  (false, en32 (mkEntry "vprorvd/xxo" [cX; cX; cO] (rro i_vprorvd) r_vprorvd_xxo VlRegs) (rro MnemonicAvx32.i_vprorvd));
  (false, en32 (mkEntry "vprorvq/xxo" [cX; cX; cO] (rro i_vprorvq) r_vprorvq_xxo VlRegs) (rro MnemonicAvx32.i_vprorvq));
  (false, en32 (mkEntry "vrcp14ss/xxo" [cX; cX; cO] (rro i_vrcp14ss) r_vrcp14ss_xxo VlRegs) (rro MnemonicAvx32.i_vrcp14ss));
  (false, en32 (mkEntry "vrcp14sd/xxo" [cX; cX; cO] (rro i_vrcp14sd) r_vrcp14sd_xxo VlRegs) (rro MnemonicAvx32.i_vrcp14sd));
  (false, en32 (mkEntry "vrcp28ss/xxo" [cX; cX; cO] (rro i_vrcp28ss) r_vrcp28ss_xxo VlRegs) (rro MnemonicAvx32.i_vrcp28ss));
  (false, en32 (mkEntry "vrcp28sd/xxo" [cX; cX; cO] (rro i_vrcp28sd) r_vrcp28sd_xxo VlRegs) (rro MnemonicAvx32.i_vrcp28sd));
  (false, en32 (mkEntry "vrcpsh/xxo" [cX; cX; cO] (rro i_vrcpsh) r_vrcpsh_xxo VlRegs) (rro MnemonicAvx32.i_vrcpsh))].
Lemma vex32_10_ok : Forall (fun p => implements32 (fst p) (snd p)) (vex32_10).
Proof. unfold vex32_10.
vrow_ tab1_ok 246%nat sims71_ok start71 19%nat.
vrow_ tab1_ok 247%nat sims71_ok start71 7%nat.
vrow_ tab1_ok 248%nat sims71_ok start71 12%nat.
vrow_ tab1_ok 249%nat sims71_ok start71 8%nat.
vrow_ tab1_ok 250%nat sims71_ok start71 11%nat.
vrow_ tab1_ok 251%nat sims71_ok start71 10%nat.
vrow_ tab1_ok 252%nat sims71_ok start71 9%nat.
vrow_ tab1_ok 253%nat sims71_ok start71 13%nat.
vrow_ tab1_ok 254%nat sims71_ok start71 18%nat.
vrow_ tab1_ok 255%nat sims71_ok start71 14%nat.
vrow_ tab1_ok 256%nat sims71_ok start71 17%nat.
vrow_ tab1_ok 257%nat sims71_ok start71 16%nat.
vrow_ tab1_ok 258%nat sims71_ok start71 15%nat.
vrow_ tab1_ok 259%nat sims72_ok start72 6%nat.
vrow_ tab1_ok 260%nat sims72_ok start72 5%nat.
vrow_ tab1_ok 261%nat sims72_ok start72 7%nat.
vrow_ tab1_ok 262%nat sims72_ok start72 8%nat.
vrow_ tab1_ok 263%nat sims72_ok start72 9%nat.
vrow_ tab1_ok 264%nat sims72_ok start72 10%nat.
vrow_ tab1_ok 265%nat sims73_ok start73 12%nat.
vrow_ tab1_ok 266%nat sims73_ok start73 13%nat.
vrow_ tab1_ok 267%nat sims73_ok start73 22%nat.
vrow_ tab1_ok 268%nat sims73_ok start73 23%nat.
vrow_ tab1_ok 269%nat sims74_ok start74 1%nat.
vrow_ tab1_ok 270%nat sims74_ok start74 2%nat.
vrow_ tab1_ok 271%nat sims75_ok start75 20%nat.
vrow_ tab1_ok 272%nat sims75_ok start75 19%nat.
vrow_ tab1_ok 273%nat sims75_ok start75 24%nat.
vrow_ tab1_ok 274%nat sims75_ok start75 23%nat.
vrow_ tab1_ok 275%nat sims76_ok start76 2%nat.
apply Forall_nil. Qed.
Definition vex32_11 : list (bool * entry) := [
  (false, en32 (mkEntry "vrsqrt14ss/xxo" [cX; cX; cO] (rro i_vrsqrt14ss) r_vrsqrt14ss_xxo VlRegs) (rro MnemonicAvx32.i_vrsqrt14ss));
  (false, en32 (mkEntry "vrsqrt14sd/xxo" [cX; cX; cO] (rro i_vrsqrt14sd) r_vrsqrt14sd_xxo VlRegs) (rro MnemonicAvx32.i_vrsqrt14sd));
  (false, en32 (mkEntry "vrsqrt28ss/xxo" [cX; cX; cO] (rro i_vrsqrt28ss) r_vrsqrt28ss_xxo VlRegs) (rro MnemonicAvx32.i_vrsqrt28ss));
  (false, en32 (mkEntry "vrsqrt28sd/xxo" [cX; cX; cO] (rro i_vrsqrt28sd) r_vrsqrt28sd_xxo VlRegs) (rro MnemonicAvx32.i_vrsqrt28sd));
  (false, en32 (mkEntry "vrsqrtsh/xxo" [cX; cX; cO] (rro i_vrsqrtsh) r_vrsqrtsh_xxo VlRegs) (rro MnemonicAvx32.i_vrsqrtsh));
  (false, en32 (mkEntry "vscalefps/xxo" [cX; cX; cO] (rro i_vscalefps) r_vscalefps_xxo VlRegs) (rro MnemonicAvx32.i_vscalefps));
  (false, en32 (mkEntry "vscalefpd/xxo" [cX; cX; cO] (rro i_vscalefpd) r_vscalefpd_xxo VlRegs) (rro MnemonicAvx32.i_vscalefpd));
  (false, en32 (mkEntry "vscalefss/xxo" [cX; cX; cO] (rro i_vscalefss) r_vscalefss_xxo VlRegs) (rro MnemonicAvx32.i_vscalefss));
  (false, en32 (mkEntry "vscalefsd/xxo" [cX; cX; cO] (rro i_vscalefsd) r_vscalefsd_xxo VlRegs) (rro MnemonicAvx32.i_vscalefsd));
  (false, en32 (mkEntry "vscalefph/xxo" [cX; cX; cO] (rro i_vscalefph) r_vscalefph_xxo VlRegs) (rro MnemonicAvx32.i_vscalefph));
  (false, en32 (mkEntry "vscalefsh/xxo" [cX; cX; cO] (rro i_vscalefsh) r_vscalefsh_xxo VlRegs) (rro MnemonicAvx32.i_vscalefsh));
  (false, en32 (mkEntry "vscalefpbf16/xxo" [cX; cX; cO] (rro i_vscalefpbf16_xxo) r_vscalefpbf16_xxo VlRegs) (rro MnemonicAvx32.i_vscalefpbf16_xxo));
  (false, en32 (mkEntry "vblendps/xxoi" [cX; cX; cO] (rroi i_vblendps_xxoi) r_vblendps_xxoi VlRegs) (rroi Mnemonic32.i_vblendps_xxoi));
  (false, en32 (mkEntry "vblendpd/xxoi" [cX; cX; cO] (rroi i_vblendpd_xxoi) r_vblendpd_xxoi VlRegs) (rroi Mnemonic32.i_vblendpd_xxoi));
  (false, en32 (mkEntry "vcmpps/xxoi" [cX; cX; cO] (rroi i_vcmpps_xxoi) r_vcmpps_xxoi VlRegs) (rroi Mnemonic32.i_vcmpps_xxoi));
  (false, en32 (mkEntry "vcmppd/xxoi" [cX; cX; cO] (rroi i_vcmppd_xxoi) r_vcmppd_xxoi VlRegs) (rroi Mnemonic32.i_vcmppd_xxoi));
  (false, en32 (mkEntry "vcmpss/xxoi" [cX; cX; cO] (rroi i_vcmpss_xxoi) r_vcmpss_xxoi VlRegs) (rroi Mnemonic32.i_vcmpss_xxoi));
  (false, en32 (mkEntry "vcmpsd/xxoi" [cX; cX; cO] (rroi i_vcmpsd_xxoi) r_vcmpsd_xxoi VlRegs) (rroi Mnemonic32.i_vcmpsd_xxoi));
  (false, en32 (mkEntry "vdpps/xxoi" [cX; cX; cO] (rroi i_vdpps_xxoi) r_vdpps_xxoi VlRegs) (rroi Mnemonic32.i_vdpps_xxoi));
  (false, en32 (mkEntry "vdppd/xxoi" [cX; cX; cO] (rroi i_vdppd_xxoi) r_vdppd_xxoi VlRegs) (rroi Mnemonic32.i_vdppd_xxoi));
  (false, en32 (mkEntry "vinsertps/xxoi" [cX; cX; cO] (rroi i_vinsertps_xxoi) r_vinsertps_xxoi VlRegs) (rroi Mnemonic32.i_vinsertps_xxoi));
  (false, en32 (mkEntry "vpalignr/xxoi" [cX; cX; cO] (rroi i_vpalignr_xxoi) r_vpalignr_xxoi VlRegs) (rroi Mnemonic32.i_vpalignr_xxoi));
  (false, en32 (mkEntry "vpblendd/xxoi" [cX; cX; cO] (rroi i_vpblendd_xxoi) r_vpblendd_xxoi VlRegs) (rroi Mnemonic32.i_vpblendd_xxoi));
  (false, en32 (mkEntry "vpblendw/xxoi" [cX; cX; cO] (rroi i_vpblendw_xxoi) r_vpblendw_xxoi VlRegs) (rroi Mnemonic32.i_vpblendw_xxoi));
  (false, en32 (mkEntry "vpclmulqdq/xxoi" [cX; cX; cO] (rroi i_vpclmulqdq_xxoi) r_vpclmulqdq_xxoi VlRegs) (rroi Mnemonic32.i_vpclmulqdq_xxoi));
  (false, en32 (mkEntry "vroundss/xxoi" [cX; cX; cO] (rroi i_vroundss_xxoi) r_vroundss_xxoi VlRegs) (rroi Mnemonic32.i_vroundss_xxoi));
  (false, en32 (mkEntry "vroundsd/xxoi" [cX; cX; cO] (rroi i_vroundsd_xxoi) r_vroundsd_xxoi VlRegs) (rroi Mnemonic32.i_vroundsd_xxoi));
  (false, en32 (mkEntry "vshufps/xxoi" [cX; cX; cO] (rroi i_vshufps_xxoi) r_vshufps_xxoi VlRegs) (rroi Mnemonic32.i_vshufps_xxoi));
  (false, en32 (mkEntry "vshufpd/xxoi" [cX; cX; cO] (rroi i_vshufpd_xxoi) r_vshufpd_xxoi VlRegs) (rroi Mnemonic32.i_vshufpd_xxoi));
  (false, en32 (mkEntry "valignd/xxoi" [cX; cX; cO] (rroi i_valignd) r_valignd_xxoi VlRegs) (rroi MnemonicAvx32.i_valignd))].
Lemma vex32_11_ok : Forall (fun p => implements32 (fst p) (snd p)) (vex32_11).
Proof. unfold vex32_11.
vrow_ tab1_ok 276%nat sims76_ok start76 20%nat.
vrow_ tab1_ok 277%nat sims76_ok start76 19%nat.
vrow_ tab1_ok 278%nat sims76_ok start76 24%nat.
vrow_ tab1_ok 279%nat sims76_ok start76 23%nat.
vrow_ tab1_ok 280%nat sims77_ok start77 2%nat.
vrow_ tab1_ok 281%nat sims77_ok start77 7%nat.
vrow_ tab1_ok 282%nat sims77_ok start77 5%nat.
vrow_ tab1_ok 283%nat sims77_ok start77 10%nat.
vrow_ tab1_ok 284%nat sims77_ok start77 8%nat.
vrow_ tab1_ok 285%nat sims77_ok start77 6%nat.
vrow_ tab1_ok 286%nat sims77_ok start77 9%nat.
vrow_ tab1_ok 287%nat sims77_ok start77 4%nat.
vrow_ tab2_ok 0%nat sims29_ok start29 24%nat.
vrow_ tab2_ok 1%nat sims29_ok start29 23%nat.
vrow_ tab2_ok 2%nat sims30_ok start30 8%nat.
vrow_ tab2_ok 3%nat sims30_ok start30 6%nat.
vrow_ tab2_ok 4%nat sims30_ok start30 12%nat.
vrow_ tab2_ok 5%nat sims30_ok start30 10%nat.
vrow_ tab2_ok 6%nat sims36_ok start36 18%nat.
vrow_ tab2_ok 7%nat sims36_ok start36 17%nat.
vrow_ tab2_ok 8%nat sims39_ok start39 20%nat.
vrow_ tab2_ok 9%nat sims42_ok start42 20%nat.
vrow_ tab2_ok 10%nat sims43_ok start43 0%nat.
vrow_ tab2_ok 11%nat sims43_ok start43 2%nat.
vrow_ tab2_ok 12%nat sims43_ok start43 7%nat.
vrow_ tab2_ok 13%nat sims49_ok start49 2%nat.
vrow_ tab2_ok 14%nat sims49_ok start49 1%nat.
vrow_ tab2_ok 15%nat sims49_ok start49 9%nat.
vrow_ tab2_ok 16%nat sims49_ok start49 8%nat.
vrow_ tab2_ok 17%nat sims53_ok start53 14%nat.
apply Forall_nil. Qed.
Definition vex32_12 : list (bool * entry) := [
  (false, en32 (mkEntry "valignq/xxoi" [cX; cX; cO] (rroi i_valignq) r_valignq_xxoi VlRegs) (rroi MnemonicAvx32.i_valignq));
  (false, en32 (mkEntry "vdbpsadbw/xxoi" [cX; cX; cO] (rroi i_vdbpsadbw) r_vdbpsadbw_xxoi VlRegs) (rroi MnemonicAvx32.i_vdbpsadbw));
  (false, en32 (mkEntry "vfixupimmps/xxoi" [cX; cX; cO] (rroi i_vfixupimmps) r_vfixupimmps_xxoi VlRegs) (rroi MnemonicAvx32.i_vfixupimmps));
  (false, en32 (mkEntry "vfixupimmpd/xxoi" [cX; cX; cO] (rroi i_vfixupimmpd) r_vfixupimmpd_xxoi VlRegs) (rroi MnemonicAvx32.i_vfixupimmpd));
  (false, en32 (mkEntry "vfixupimmss/xxoi" [cX; cX; cO] (rroi i_vfixupimmss) r_vfixupimmss_xxoi VlRegs) (rroi MnemonicAvx32.i_vfixupimmss));
  (false, en32 (mkEntry "vfixupimmsd/xxoi" [cX; cX; cO] (rroi i_vfixupimmsd) r_vfixupimmsd_xxoi VlRegs) (rroi MnemonicAvx32.i_vfixupimmsd));
  (false, en32 (mkEntry "vgetmantss/xxoi" [cX; cX; cO] (rroi i_vgetmantss) r_vgetmantss_xxoi VlRegs) (rroi MnemonicAvx32.i_vgetmantss));
  (false, en32 (mkEntry "vgetmantsd/xxoi" [cX; cX; cO] (rroi i_vgetmantsd) r_vgetmantsd_xxoi VlRegs) (rroi MnemonicAvx32.i_vgetmantsd));
  (false, en32 (mkEntry "vgetmantsh/xxoi" [cX; cX; cO] (rroi i_vgetmantsh) r_vgetmantsh_xxoi VlRegs) (rroi MnemonicAvx32.i_vgetmantsh));
  (false, en32 (mkEntry "vminmaxps/xxoi" [cX; cX; cO] (rroi i_vminmaxps) r_vminmaxps_xxoi VlRegs) (rroi MnemonicAvx32.i_vminmaxps));
  (false, en32 (mkEntry "vminmaxpd/xxoi" [cX; cX; cO] (rroi i_vminmaxpd) r_vminmaxpd_xxoi VlRegs) (rroi MnemonicAvx32.i_vminmaxpd));
  (false, en32 (mkEntry "vminmaxss/xxoi" [cX; cX; cO] (rroi i_vminmaxss) r_vminmaxss_xxoi VlRegs) (rroi MnemonicAvx32.i_vminmaxss));
  (false, en32 (mkEntry "vminmaxsd/xxoi" [cX; cX; cO] (rroi i_vminmaxsd) r_vminmaxsd_xxoi VlRegs) (rroi MnemonicAvx32.i_vminmaxsd));
  (false, en32 (mkEntry "vminmaxph/xxoi" [cX; cX; cO] (rroi i_vminmaxph) r_vminmaxph_xxoi VlRegs) (rroi MnemonicAvx32.i_vminmaxph));
  (false, en32 (mkEntry "vminmaxsh/xxoi" [cX; cX; cO] (rroi i_vminmaxsh) r_vminmaxsh_xxoi VlRegs) (rroi MnemonicAvx32.i_vminmaxsh));
  (false, en32 (mkEntry "vminmaxnepbf16/xxoi" [cX; cX; cO] (rroi i_vminmaxnepbf16) r_vminmaxnepbf16_xxoi VlRegs) (rroi MnemonicAvx32.i_vminmaxnepbf16));
  (false, en32 (mkEntry "vpternlogd/xxoi" [cX; cX; cO] (rroi i_vpternlogd) r_vpternlogd_xxoi VlRegs) (rroi MnemonicAvx32.i_vpternlogd));
  (false, en32 (mkEntry "vpternlogq/xxoi" [cX; cX; cO] (rroi i_vpternlogq) r_vpternlogq_xxoi VlRegs) (rroi MnemonicAvx32.i_vpternlogq));
  (false, en32 (mkEntry "vrangeps/xxoi" [cX; cX; cO] (rroi i_vrangeps) r_vrangeps_xxoi VlRegs) (rroi MnemonicAvx32.i_vrangeps));
  (false, en32 (mkEntry "vrangepd/xxoi" [cX; cX; cO] (rroi i_vrangepd) r_vrangepd_xxoi VlRegs) (rroi MnemonicAvx32.i_vrangepd));
  (false, en32 (mkEntry "vrangess/xxoi" [cX; cX; cO] (rroi i_vrangess) r_vrangess_xxoi VlRegs) (rroi MnemonicAvx32.i_vrangess));
  (false, en32 (mkEntry "vrangesd/xxoi" [cX; cX; cO] (rroi i_vrangesd) r_vrangesd_xxoi VlRegs) (rroi MnemonicAvx32.i_vrangesd));
  (false, en32 (mkEntry "vreducess/xxoi" [cX; cX; cO] (rroi i_vreducess) r_vreducess_xxoi VlRegs) (rroi MnemonicAvx32.i_vreducess));
  (false, en32 (mkEntry "vreducesd/xxoi" [cX; cX; cO] (rroi i_vreducesd) r_vreducesd_xxoi VlRegs) (rroi MnemonicAvx32.i_vreducesd));
  (false, en32 (mkEntry "vreducesh/xxoi" [cX; cX; cO] (rroi i_vreducesh) r_vreducesh_xxoi VlRegs) (rroi MnemonicAvx32.i_vreducesh));
  (false, en32 (mkEntry "vrndscalesd/xxoi" [cX; cX; cO] (rroi i_vrndscalesd) r_vrndscalesd_xxoi VlRegs) (rroi MnemonicAvx32.i_vrndscalesd));
  (false, en32 (mkEntry "vrndscaless/xxoi" [cX; cX; cO] (rroi i_vrndscaless) r_vrndscaless_xxoi VlRegs) (rroi MnemonicAvx32.i_vrndscaless));
  (false, en32 (mkEntry "vrndscalesh/xxoi" [cX; cX; cO] (rroi i_vrndscalesh) r_vrndscalesh_xxoi VlRegs) (rroi MnemonicAvx32.i_vrndscalesh));
  (false, en32 (mkEntry "vshuff32x4/yyoi" [cY; cY; cO] (rroi i_vshuff32x4) r_vshuff32x4_yyoi VlRegs) (rroi MnemonicAvx32.i_vshuff32x4));
  (false, en32 (mkEntry "vshuff64x2/yyoi" [cY; cY; cO] (rroi i_vshuff64x2) r_vshuff64x2_yyoi VlRegs) (rroi MnemonicAvx32.i_vshuff64x2))].
Lemma vex32_12_ok : Forall (fun p => implements32 (fst p) (snd p)) (vex32_12).
Proof. unfold vex32_12.
vrow_ tab2_ok 18%nat sims53_ok start53 15%nat.
vrow_ tab2_ok 19%nat sims63_ok start63 15%nat.
vrow_ tab2_ok 20%nat sims64_ok start64 11%nat.
vrow_ tab2_ok 21%nat sims64_ok start64 10%nat.
vrow_ tab2_ok 22%nat sims64_ok start64 13%nat.
vrow_ tab2_ok 23%nat sims64_ok start64 12%nat.
vrow_ tab2_ok 24%nat sims67_ok start67 14%nat.
vrow_ tab2_ok 25%nat sims67_ok start67 12%nat.
vrow_ tab2_ok 26%nat sims67_ok start67 13%nat.
vrow_ tab2_ok 27%nat sims68_ok start68 4%nat.
vrow_ tab2_ok 28%nat sims68_ok start68 2%nat.
vrow_ tab2_ok 29%nat sims68_ok start68 7%nat.
vrow_ tab2_ok 30%nat sims68_ok start68 5%nat.
vrow_ tab2_ok 31%nat sims68_ok start68 3%nat.
vrow_ tab2_ok 32%nat sims68_ok start68 6%nat.
vrow_ tab2_ok 33%nat sims68_ok start68 1%nat.
vrow_ tab2_ok 34%nat sims75_ok start75 1%nat.
vrow_ tab2_ok 35%nat sims75_ok start75 2%nat.
vrow_ tab2_ok 36%nat sims75_ok start75 14%nat.
vrow_ tab2_ok 37%nat sims75_ok start75 13%nat.
vrow_ tab2_ok 38%nat sims75_ok start75 16%nat.
vrow_ tab2_ok 39%nat sims75_ok start75 15%nat.
vrow_ tab2_ok 40%nat sims76_ok start76 9%nat.
vrow_ tab2_ok 41%nat sims76_ok start76 7%nat.
vrow_ tab2_ok 42%nat sims76_ok start76 8%nat.
vrow_ tab2_ok 43%nat sims76_ok start76 14%nat.
vrow_ tab2_ok 44%nat sims76_ok start76 16%nat.
vrow_ tab2_ok 45%nat sims76_ok start76 15%nat.
vrow_ tab2_ok 46%nat sims77_ok start77 23%nat.
vrow_ tab2_ok 47%nat sims77_ok start77 24%nat.
apply Forall_nil. Qed.
Definition vex32_13 : list (bool * entry) := [
  (false, en32 (mkEntry "vshufi32x4/yyoi" [cY; cY; cO] (rroi i_vshufi32x4) r_vshufi32x4_yyoi VlRegs) (rroi MnemonicAvx32.i_vshufi32x4));
  (false, en32 (mkEntry "vshufi64x2/yyoi" [cY; cY; cO] (rroi i_vshufi64x2) r_vshufi64x2_yyoi VlRegs) (rroi MnemonicAvx32.i_vshufi64x2));
  (false, en32 (mkEntry "vblendvps/xxox" [cX; cX; cO; cX4] (rror i_vblendvps_xxox) r_vblendvps_xxox VlRegs) (rror Mnemonic32.i_vblendvps_xxox));
  (false, en32 (mkEntry "vblendvpd/xxox" [cX; cX; cO; cX4] (rror i_vblendvpd_xxox) r_vblendvpd_xxox VlRegs) (rror Mnemonic32.i_vblendvpd_xxox));
  (false, en32 (mkEntry "vpblendvb/xxox" [cX; cX; cO; cX4] (rror i_vpblendvb_xxox) r_vpblendvb_xxox VlRegs) (rror Mnemonic32.i_vpblendvb_xxox));
  (false, en32 (mkEntry "vgf2p8affineqb/xxoi" [cX; cX; cO] (rroi i_vgf2p8affineqb) r_vgf2p8affineqb_xxoi VlRegs) (rroi Mnemonic32.i_vgf2p8affineqb));
  (false, en32 (mkEntry "vgf2p8affineinvqb/xxoi" [cX; cX; cO] (rroi i_vgf2p8affineinvqb) r_vgf2p8affineinvqb_xxoi VlRegs) (rroi Mnemonic32.i_vgf2p8affineinvqb));
  (false, en32 (mkEntry "vpshldd/xxoi" [cX; cX; cO] (rroi i_vpshldd) r_vpshldd_xxoi VlRegs) (rroi MnemonicAvx32.i_vpshldd));
  (false, en32 (mkEntry "vpshldq/xxoi" [cX; cX; cO] (rroi i_vpshldq) r_vpshldq_xxoi VlRegs) (rroi MnemonicAvx32.i_vpshldq));
  (false, en32 (mkEntry "vpshldw/xxoi" [cX; cX; cO] (rroi i_vpshldw) r_vpshldw_xxoi VlRegs) (rroi MnemonicAvx32.i_vpshldw));
  (false, en32 (mkEntry "vpshrdd/xxoi" [cX; cX; cO] (rroi i_vpshrdd) r_vpshrdd_xxoi VlRegs) (rroi MnemonicAvx32.i_vpshrdd));
  (false, en32 (mkEntry "vpshrdq/xxoi" [cX; cX; cO] (rroi i_vpshrdq) r_vpshrdq_xxoi VlRegs) (rroi MnemonicAvx32.i_vpshrdq));
  (false, en32 (mkEntry "vpshrdw/xxoi" [cX; cX; cO] (rroi i_vpshrdw) r_vpshrdw_xxoi VlRegs) (rroi MnemonicAvx32.i_vpshrdw));
  (false, en32 (mkEntry "vgf2p8mulb/xxo" [cX; cX; cO] (rro i_vgf2p8mulb) r_vgf2p8mulb_xxo VlRegs) (rro Mnemonic32.i_vgf2p8mulb));
  (false, en32 (mkEntry "vcvtne2ps2bf16/xxo" [cX; cX; cO] (rro i_vcvtne2ps2bf16) r_vcvtne2ps2bf16_xxo VlRegs) (rro MnemonicAvx32.i_vcvtne2ps2bf16));
  (false, en32 (mkEntry "vdpbf16ps/xxo" [cX; cX; cO] (rro i_vdpbf16ps) r_vdpbf16ps_xxo VlRegs) (rro MnemonicAvx32.i_vdpbf16ps));
  (false, en32 (mkEntry "vpshldvd/xxo" [cX; cX; cO] (rro i_vpshldvd) r_vpshldvd_xxo VlRegs) (rro MnemonicAvx32.i_vpshldvd));
  (false, en32 (mkEntry "vpshldvq/xxo" [cX; cX; cO] (rro i_vpshldvq) r_vpshldvq_xxo VlRegs) (rro MnemonicAvx32.i_vpshldvq));
  (false, en32 (mkEntry "vpshldvw/xxo" [cX; cX; cO] (rro i_vpshldvw) r_vpshldvw_xxo VlRegs) (rro MnemonicAvx32.i_vpshldvw));
  (false, en32 (mkEntry "vpshrdvd/xxo" [cX; cX; cO] (rro i_vpshrdvd) r_vpshrdvd_xxo VlRegs) (rro MnemonicAvx32.i_vpshrdvd));
  (false, en32 (mkEntry "vpshrdvq/xxo" [cX; cX; cO] (rro i_vpshrdvq) r_vpshrdvq_xxo VlRegs) (rro MnemonicAvx32.i_vpshrdvq));
  (false, en32 (mkEntry "vpshrdvw/xxo" [cX; cX; cO] (rro i_vpshrdvw) r_vpshrdvw_xxo VlRegs) (rro MnemonicAvx32.i_vpshrdvw));
  (false, en32 (mkEntry "vlddqu/xa" [cX; cA] (ra i_vlddqu) r_vlddqu_xa VlRegs) (ra Mnemonic32.i_vlddqu));
  (false, en32 (mkEntry "vldmxcsr/a" [cA] (a1 i_vldmxcsr) r_vldmxcsr_a VlRegs) (a1 Mnemonic32.i_vldmxcsr));
  (false, en32 (mkEntry "vstmxcsr/a" [cA] (a1 i_vstmxcsr) r_vstmxcsr_a VlRegs) (a1 Mnemonic32.i_vstmxcsr));
  (false, en32 (mkEntry "vmaskmovdqu/xx" [cX; cX] (rr i_vmaskmovdqu) r_vmaskmovdqu_xx VlRegs) (rr Mnemonic32.i_vmaskmovdqu));
  (false, en32 (mkEntry "vmovq/xx" [cX; cX] (rr i_vmovq_xx) r_vmovq_xx VlRegs) (rr Mnemonic32.i_vmovq_xx));
  (false, en32 (mkEntry "vmaskmovps/xxa" [cX; cX; cA] (rra i_vmaskmovps_xxa) r_vmaskmovps_xxa VlRegs) (rra Mnemonic32.i_vmaskmovps_xxa));
  (false, en32 (mkEntry "vmaskmovpd/xxa" [cX; cX; cA] (rra i_vmaskmovpd_xxa) r_vmaskmovpd_xxa VlRegs) (rra Mnemonic32.i_vmaskmovpd_xxa));
  (false, en32 (mkEntry "vpmaskmovd/xxa" [cX; cX; cA] (rra i_vpmaskmovd_xxa) r_vpmaskmovd_xxa VlRegs) (rra Mnemonic32.i_vpmaskmovd_xxa))].
Lemma vex32_13_ok : Forall (fun p => implements32 (fst p) (snd p)) (vex32_13).
Proof. unfold vex32_13.
vrow_ tab2_ok 48%nat sims78_ok start78 0%nat.
vrow_ tab2_ok 49%nat sims78_ok start78 1%nat.
vrow_ tab3_ok 0%nat sims30_ok start30 1%nat.
vrow_ tab3_ok 1%nat sims30_ok start30 0%nat.
vrow_ tab3_ok 2%nat sims43_ok start43 1%nat.
vrow_ tab4_ok 0%nat sims39_ok start39 12%nat.
vrow_ tab4_ok 1%nat sims39_ok start39 11%nat.
vrow_ tab4_ok 2%nat sims74_ok start74 7%nat.
vrow_ tab4_ok 3%nat sims74_ok start74 8%nat.
vrow_ tab4_ok 4%nat sims74_ok start74 12%nat.
vrow_ tab4_ok 5%nat sims74_ok start74 13%nat.
vrow_ tab4_ok 6%nat sims74_ok start74 14%nat.
vrow_ tab4_ok 7%nat sims74_ok start74 18%nat.
vrow_ tab5_ok 0%nat sims39_ok start39 13%nat.
vrow_ tab5_ok 1%nat sims60_ok start60 6%nat.
vrow_ tab5_ok 2%nat sims63_ok start63 19%nat.
vrow_ tab5_ok 3%nat sims74_ok start74 9%nat.
vrow_ tab5_ok 4%nat sims74_ok start74 10%nat.
vrow_ tab5_ok 5%nat sims74_ok start74 11%nat.
vrow_ tab5_ok 6%nat sims74_ok start74 15%nat.
vrow_ tab5_ok 7%nat sims74_ok start74 16%nat.
vrow_ tab5_ok 8%nat sims74_ok start74 17%nat.
vrow_ tab6_ok 0%nat sims39_ok start39 21%nat.
vrow_ tab7_ok 0%nat sims39_ok start39 22%nat.
vrow_ tab7_ok 1%nat sims49_ok start49 19%nat.
vrow_ tab8_ok 0%nat sims39_ok start39 23%nat.
vrow_ tab8_ok 1%nat sims41_ok start41 11%nat.
vrow_ tab9_ok 0%nat sims40_ok start40 2%nat.
vrow_ tab9_ok 1%nat sims40_ok start40 0%nat.
vrow_ tab9_ok 2%nat sims45_ok start45 12%nat.
apply Forall_nil. Qed.
Definition vex32_14 : list (bool * entry) := [
  (false, en32 (mkEntry "vpmaskmovq/xxa" [cX; cX; cA] (rra i_vpmaskmovq_xxa) r_vpmaskmovq_xxa VlRegs) (rra Mnemonic32.i_vpmaskmovq_xxa));
  (false, en32 (mkEntry "v4fmaddps/zza" [cZ; cZ; cA] (rra i_v4fmaddps) r_v4fmaddps_zza VlRegs) (rra MnemonicAvx32.i_v4fmaddps));
  (false, en32 (mkEntry "v4fnmaddps/zza" [cZ; cZ; cA] (rra i_v4fnmaddps) r_v4fnmaddps_zza VlRegs) (rra MnemonicAvx32.i_v4fnmaddps));
  (false, en32 (mkEntry "v4fmaddss/xxa" [cX; cX; cA] (rra i_v4fmaddss) r_v4fmaddss_xxa VlRegs) (rra MnemonicAvx32.i_v4fmaddss));
  (false, en32 (mkEntry "v4fnmaddss/xxa" [cX; cX; cA] (rra i_v4fnmaddss) r_v4fnmaddss_xxa VlRegs) (rra MnemonicAvx32.i_v4fnmaddss));
  (false, en32 (mkEntry "vp4dpwssd/zza" [cZ; cZ; cA] (rra i_vp4dpwssd) r_vp4dpwssd_zza VlRegs) (rra MnemonicAvx32.i_vp4dpwssd));
  (false, en32 (mkEntry "vp4dpwssds/zza" [cZ; cZ; cA] (rra i_vp4dpwssds) r_vp4dpwssds_zza VlRegs) (rra MnemonicAvx32.i_vp4dpwssds));
  (false, en32 (mkEntry "vmaskmovps/axx" [cA; cX; cX] (arr i_vmaskmovps_axx) r_vmaskmovps_axx VlRegs) (arr Mnemonic32.i_vmaskmovps_axx));
  (false, en32 (mkEntry "vmaskmovpd/axx" [cA; cX; cX] (arr i_vmaskmovpd_axx) r_vmaskmovpd_axx VlRegs) (arr Mnemonic32.i_vmaskmovpd_axx));
  (false, en32 (mkEntry "vpmaskmovd/axx" [cA; cX; cX] (arr i_vpmaskmovd_axx) r_vpmaskmovd_axx VlRegs) (arr Mnemonic32.i_vpmaskmovd_axx));
  (false, en32 (mkEntry "vpmaskmovq/axx" [cA; cX; cX] (arr i_vpmaskmovq_axx) r_vpmaskmovq_axx VlRegs) (arr Mnemonic32.i_vpmaskmovq_axx));
  (false, en32 (mkEntry "vmovhlps/xxo" [cX; cX; cX] (rro i_vmovhlps) r_vmovhlps_xxo VlRegs) (rro Mnemonic32.i_vmovhlps));
  (false, en32 (mkEntry "vmovlhps/xxo" [cX; cX; cX] (rro i_vmovlhps) r_vmovlhps_xxo VlRegs) (rro Mnemonic32.i_vmovlhps));
  (false, en32 (mkEntry "vmovss/xxo" [cX; cX; cX] (rro i_vmovss_xxo) r_vmovss_xxo VlRegs) (rro Mnemonic32.i_vmovss_xxo));
  (false, en32 (mkEntry "vmovsd/xxo" [cX; cX; cX] (rro i_vmovsd_xxo) r_vmovsd_xxo VlRegs) (rro Mnemonic32.i_vmovsd_xxo));
  (false, en32 (mkEntry "vmovhps/xoo" [cX; cX; cA] (roo i_vmovhps_xoo) r_vmovhps_xoo VlRegs) (roo Mnemonic32.i_vmovhps_xoo));
  (false, en32 (mkEntry "vmovhpd/xoo" [cX; cX; cA] (roo i_vmovhpd_xoo) r_vmovhpd_xoo VlRegs) (roo Mnemonic32.i_vmovhpd_xoo));
  (false, en32 (mkEntry "vmovlps/xoo" [cX; cX; cA] (roo i_vmovlps_xoo) r_vmovlps_xoo VlRegs) (roo Mnemonic32.i_vmovlps_xoo));
  (false, en32 (mkEntry "vmovlpd/xoo" [cX; cX; cA] (roo i_vmovlpd_xoo) r_vmovlpd_xoo VlRegs) (roo Mnemonic32.i_vmovlpd_xoo));
  (false, en32 (mkEntry "vmovhps/ax" [cA; cX] (ar i_vmovhps_ax) r_vmovhps_ax VlRegs) (ar Mnemonic32.i_vmovhps_ax));
  (false, en32 (mkEntry "vmovhpd/ax" [cA; cX] (ar i_vmovhpd_ax) r_vmovhpd_ax VlRegs) (ar Mnemonic32.i_vmovhpd_ax));
  (false, en32 (mkEntry "vmovlps/ax" [cA; cX] (ar i_vmovlps_ax) r_vmovlps_ax VlRegs) (ar Mnemonic32.i_vmovlps_ax));
  (false, en32 (mkEntry "vmovlpd/ax" [cA; cX] (ar i_vmovlpd_ax) r_vmovlpd_ax VlRegs) (ar Mnemonic32.i_vmovlpd_ax));
  (false, en32 (mkEntry "vmovss/ax" [cA; cX] (ar i_vmovss_ax) r_vmovss_ax VlRegs) (ar Mnemonic32.i_vmovss_ax));
  (false, en32 (mkEntry "vmovsd/ax" [cA; cX] (ar i_vmovsd_ax) r_vmovsd_ax VlRegs) (ar Mnemonic32.i_vmovsd_ax));
  (false, en32 (mkEntry "vmovss/xa" [cX; cA] (ra i_vmovss_xa) r_vmovss_xa VlRegs) (ra Mnemonic32.i_vmovss_xa));
  (false, en32 (mkEntry "vmovsd/xa" [cX; cA] (ra i_vmovsd_xa) r_vmovsd_xa VlRegs) (ra Mnemonic32.i_vmovsd_xa));
  (false, en32 (mkEntry "vmovsh/xa" [cX; cA] (ra i_vmovsh_xa) r_vmovsh_xa VlRegs) (ra MnemonicAvx32.i_vmovsh_xa));
  (false, en32 (mkEntry "vpermq/yoi" [cY; cO] (roi i_vpermq_yoi) r_vpermq_yoi VlRegs) (roi Mnemonic32.i_vpermq_yoi));
  (false, en32 (mkEntry "vpermpd/yoi" [cY; cO] (roi i_vpermpd_yoi) r_vpermpd_yoi VlRegs) (roi Mnemonic32.i_vpermpd_yoi))].
Lemma vex32_14_ok : Forall (fun p => implements32 (fst p) (snd p)) (vex32_14).
Proof. unfold vex32_14.
vrow_ tab9_ok 3%nat sims45_ok start45 14%nat.
vrow_ tab9_ok 4%nat sims53_ok start53 7%nat.
vrow_ tab9_ok 5%nat sims53_ok start53 9%nat.
vrow_ tab9_ok 6%nat sims53_ok start53 8%nat.
vrow_ tab9_ok 7%nat sims53_ok start53 10%nat.
vrow_ tab9_ok 8%nat sims69_ok start69 6%nat.
vrow_ tab9_ok 9%nat sims69_ok start69 7%nat.
vrow_ tab10_ok 0%nat sims40_ok start40 1%nat.
vrow_ tab10_ok 1%nat sims39_ok start39 24%nat.
vrow_ tab10_ok 2%nat sims45_ok start45 11%nat.
vrow_ tab10_ok 3%nat sims45_ok start45 13%nat.
vrow_ tab11_ok 0%nat sims40_ok start40 20%nat.
vrow_ tab11_ok 1%nat sims41_ok start41 0%nat.
vrow_ tab11_ok 2%nat sims41_ok start41 19%nat.
vrow_ tab11_ok 3%nat sims41_ok start41 14%nat.
vrow_ tab12_ok 0%nat sims40_ok start40 24%nat.
vrow_ tab12_ok 1%nat sims40_ok start40 22%nat.
vrow_ tab12_ok 2%nat sims41_ok start41 4%nat.
vrow_ tab12_ok 3%nat sims41_ok start41 2%nat.
vrow_ tab13_ok 0%nat sims40_ok start40 23%nat.
vrow_ tab13_ok 1%nat sims40_ok start40 21%nat.
vrow_ tab13_ok 2%nat sims41_ok start41 3%nat.
vrow_ tab13_ok 3%nat sims41_ok start41 1%nat.
vrow_ tab13_ok 4%nat sims41_ok start41 17%nat.
vrow_ tab13_ok 5%nat sims41_ok start41 12%nat.
vrow_ tab17_ok 0%nat sims41_ok start41 18%nat.
vrow_ tab17_ok 1%nat sims41_ok start41 13%nat.
vrow_ tab17_ok 2%nat sims68_ok start68 24%nat.
vrow_ tab18_ok 0%nat sims44_ok start44 13%nat.
vrow_ tab18_ok 1%nat sims44_ok start44 10%nat.
apply Forall_nil. Qed.
Definition vex32_15 : list (bool * entry) := [
  (false, en32 (mkEntry "vpermilps/xoi" [cX; cO] (roi i_vpermilps_xoi) r_vpermilps_xoi VlRegs) (roi Mnemonic32.i_vpermilps_xoi));
  (false, en32 (mkEntry "vpermilpd/xoi" [cX; cO] (roi i_vpermilpd_xoi) r_vpermilpd_xoi VlRegs) (roi Mnemonic32.i_vpermilpd_xoi));
  (false, en32 (mkEntry "vgetmantps/xoi" [cX; cO] (roi i_vgetmantps) r_vgetmantps_xoi VlRegs) (roi MnemonicAvx32.i_vgetmantps));
  (false, en32 (mkEntry "vgetmantpd/xoi" [cX; cO] (roi i_vgetmantpd) r_vgetmantpd_xoi VlRegs) (roi MnemonicAvx32.i_vgetmantpd));
  (false, en32 (mkEntry "vgetmantph/xoi" [cX; cO] (roi i_vgetmantph) r_vgetmantph_xoi VlRegs) (roi MnemonicAvx32.i_vgetmantph));
  (false, en32 (mkEntry "vgetmantpbf16/xoi" [cX; cO] (roi i_vgetmantpbf16) r_vgetmantpbf16_xoi VlRegs) (roi MnemonicAvx32.i_vgetmantpbf16));
  (false, en32 (mkEntry "vaeskeygenassist/xoi" [cX; cO] (roi i_vaeskeygenassist) r_vaeskeygenassist_xoi VlRegs) (roi Mnemonic32.i_vaeskeygenassist));
  (false, en32 (mkEntry "vpcmpestrm/xoi" [cX; cO] (roi i_vpcmpestrm) r_vpcmpestrm_xoi VlRegs) (roi Mnemonic32.i_vpcmpestrm));
  (false, en32 (mkEntry "vpcmpestri/xoi" [cX; cO] (roi i_vpcmpestri) r_vpcmpestri_xoi VlRegs) (roi Mnemonic32.i_vpcmpestri));
  (false, en32 (mkEntry "vpcmpistrm/xoi" [cX; cO] (roi i_vpcmpistrm) r_vpcmpistrm_xoi VlRegs) (roi Mnemonic32.i_vpcmpistrm));
  (false, en32 (mkEntry "vpcmpistri/xoi" [cX; cO] (roi i_vpcmpistri) r_vpcmpistri_xoi VlRegs) (roi Mnemonic32.i_vpcmpistri));
  (false, en32 (mkEntry "vpshufd/xoi" [cX; cO] (roi i_vpshufd) r_vpshufd_xoi VlRegs) (roi Mnemonic32.i_vpshufd));
  (false, en32 (mkEntry "vpshufhw/xoi" [cX; cO] (roi i_vpshufhw) r_vpshufhw_xoi VlRegs) (roi Mnemonic32.i_vpshufhw));
  (false, en32 (mkEntry "vpshuflw/xoi" [cX; cO] (roi i_vpshuflw) r_vpshuflw_xoi VlRegs) (roi Mnemonic32.i_vpshuflw));
  (false, en32 (mkEntry "vroundps/xoi" [cX; cO] (roi i_vroundps) r_vroundps_xoi VlRegs) (roi Mnemonic32.i_vroundps));
  (false, en32 (mkEntry "vroundpd/xoi" [cX; cO] (roi i_vroundpd) r_vroundpd_xoi VlRegs) (roi Mnemonic32.i_vroundpd));
  (false, en32 (mkEntry "vreduceps/xoi" [cX; cO] (roi i_vreduceps) r_vreduceps_xoi VlRegs) (roi MnemonicAvx32.i_vreduceps));
  (false, en32 (mkEntry "vreducepd/xoi" [cX; cO] (roi i_vreducepd) r_vreducepd_xoi VlRegs) (roi MnemonicAvx32.i_vreducepd));
  (false, en32 (mkEntry "vreduceph/xoi" [cX; cO] (roi i_vreduceph) r_vreduceph_xoi VlRegs) (roi MnemonicAvx32.i_vreduceph));
  (false, en32 (mkEntry "vreducenepbf16/xoi" [cX; cO] (roi i_vreducenepbf16) r_vreducenepbf16_xoi VlRegs) (roi MnemonicAvx32.i_vreducenepbf16));
  (false, en32 (mkEntry "vrndscaleps/xoi" [cX; cO] (roi i_vrndscaleps) r_vrndscaleps_xoi VlRegs) (roi MnemonicAvx32.i_vrndscaleps));
  (false, en32 (mkEntry "vrndscalepd/xoi" [cX; cO] (roi i_vrndscalepd) r_vrndscalepd_xoi VlRegs) (roi MnemonicAvx32.i_vrndscalepd));
  (false, en32 (mkEntry "vrndscaleph/xoi" [cX; cO] (roi i_vrndscaleph) r_vrndscaleph_xoi VlRegs) (roi MnemonicAvx32.i_vrndscaleph));
  (false, en32 (mkEntry "vrndscalenepbf16/xoi" [cX; cO] (roi i_vrndscalenepbf16) r_vrndscalenepbf16_xoi VlRegs) (roi MnemonicAvx32.i_vrndscalenepbf16));
  (false, en32 (mkEntry "vpsllw/xoi" [cX; cO] (roi i_vpsllw_xoi) r_vpsllw_xoi VlRegs) (roi Mnemonic32.i_vpsllw_xoi));
  (false, en32 (mkEntry "vpslld/xoi" [cX; cO] (roi i_vpslld_xoi) r_vpslld_xoi VlRegs) (roi Mnemonic32.i_vpslld_xoi));
  (false, en32 (mkEntry "vpsllq/xoi" [cX; cO] (roi i_vpsllq_xoi) r_vpsllq_xoi VlRegs) (roi Mnemonic32.i_vpsllq_xoi));
  (false, en32 (mkEntry "vpsraw/xoi" [cX; cO] (roi i_vpsraw_xoi) r_vpsraw_xoi VlRegs) (roi Mnemonic32.i_vpsraw_xoi));
  (false, en32 (mkEntry "vpsrad/xoi" [cX; cO] (roi i_vpsrad_xoi) r_vpsrad_xoi VlRegs) (roi Mnemonic32.i_vpsrad_xoi));
  (false, en32 (mkEntry "vpsrlw/xoi" [cX; cO] (roi i_vpsrlw_xoi) r_vpsrlw_xoi VlRegs) (roi Mnemonic32.i_vpsrlw_xoi))].
Lemma vex32_15_ok : Forall (fun p => implements32 (fst p) (snd p)) (vex32_15).
Proof. unfold vex32_15.
vrow_ tab18_ok 2%nat sims44_ok start44 9%nat.
vrow_ tab18_ok 3%nat sims44_ok start44 7%nat.
vrow_ tab18_ok 4%nat sims67_ok start67 11%nat.
vrow_ tab18_ok 5%nat sims67_ok start67 9%nat.
vrow_ tab18_ok 6%nat sims67_ok start67 10%nat.
vrow_ tab18_ok 7%nat sims67_ok start67 8%nat.
vrow_ tab18_ok 8%nat sims29_ok start29 16%nat.
vrow_ tab18_ok 9%nat sims43_ok start43 17%nat.
vrow_ tab18_ok 10%nat sims43_ok start43 16%nat.
vrow_ tab18_ok 11%nat sims43_ok start43 23%nat.
vrow_ tab18_ok 12%nat sims43_ok start43 22%nat.
vrow_ tab18_ok 13%nat sims47_ok start47 0%nat.
vrow_ tab18_ok 14%nat sims47_ok start47 1%nat.
vrow_ tab18_ok 15%nat sims47_ok start47 2%nat.
vrow_ tab18_ok 16%nat sims49_ok start49 0%nat.
vrow_ tab18_ok 17%nat sims48_ok start48 24%nat.
vrow_ tab18_ok 18%nat sims76_ok start76 6%nat.
vrow_ tab18_ok 19%nat sims76_ok start76 4%nat.
vrow_ tab18_ok 20%nat sims76_ok start76 5%nat.
vrow_ tab18_ok 21%nat sims76_ok start76 3%nat.
vrow_ tab18_ok 22%nat sims76_ok start76 13%nat.
vrow_ tab18_ok 23%nat sims76_ok start76 11%nat.
vrow_ tab18_ok 24%nat sims76_ok start76 12%nat.
vrow_ tab18_ok 25%nat sims76_ok start76 10%nat.
vrow_ tab19_ok 0%nat sims47_ok start47 13%nat.
vrow_ tab19_ok 1%nat sims47_ok start47 6%nat.
vrow_ tab19_ok 2%nat sims47_ok start47 9%nat.
vrow_ tab19_ok 3%nat sims47_ok start47 18%nat.
vrow_ tab19_ok 4%nat sims47_ok start47 15%nat.
vrow_ tab19_ok 5%nat sims48_ok start48 2%nat.
apply Forall_nil. Qed.
Definition vex32_16 : list (bool * entry) := [
  (false, en32 (mkEntry "vpsrld/xoi" [cX; cO] (roi i_vpsrld_xoi) r_vpsrld_xoi VlRegs) (roi Mnemonic32.i_vpsrld_xoi));
  (false, en32 (mkEntry "vpsrlq/xoi" [cX; cO] (roi i_vpsrlq_xoi) r_vpsrlq_xoi VlRegs) (roi Mnemonic32.i_vpsrlq_xoi));
  (false, en32 (mkEntry "vpslldq/xoi" [cX; cO] (roi i_vpslldq_xoi) r_vpslldq_xoi VlRegs) (roi Mnemonic32.i_vpslldq_xoi));
  (false, en32 (mkEntry "vpsrldq/xoi" [cX; cO] (roi i_vpsrldq_xoi) r_vpsrldq_xoi VlRegs) (roi Mnemonic32.i_vpsrldq_xoi));
  (false, en32 (mkEntry "vpsraq/xoi" [cX; cO] (roi i_vpsraq_xoi) r_vpsraq_xoi VlRegs) (roi MnemonicAvx32.i_vpsraq_xoi));
  (false, en32 (mkEntry "vprold/xoi" [cX; cO] (roi i_vprold) r_vprold_xoi VlRegs) (roi MnemonicAvx32.i_vprold));
  (false, en32 (mkEntry "vprolq/xoi" [cX; cO] (roi i_vprolq) r_vprolq_xoi VlRegs) (roi MnemonicAvx32.i_vprolq));
  (false, en32 (mkEntry "vprord/xoi" [cX; cO] (roi i_vprord) r_vprord_xoi VlRegs) (roi MnemonicAvx32.i_vprord));
  (false, en32 (mkEntry "vprorq/xoi" [cX; cO] (roi i_vprorq) r_vprorq_xoi VlRegs) (roi MnemonicAvx32.i_vprorq));
  (false, en32 (mkEntry "vcvtbiasph2bf8/xxo" [cX; cX; cO] (rro i_vcvtbiasph2bf8) r_vcvtbiasph2bf8_xxo VlAll) (rro MnemonicAvx32.i_vcvtbiasph2bf8));
  (false, en32 (mkEntry "vcvtbiasph2bf8s/xxo" [cX; cX; cO] (rro i_vcvtbiasph2bf8s) r_vcvtbiasph2bf8s_xxo VlAll) (rro MnemonicAvx32.i_vcvtbiasph2bf8s));
  (false, en32 (mkEntry "vcvtbiasph2hf8/xxo" [cX; cX; cO] (rro i_vcvtbiasph2hf8) r_vcvtbiasph2hf8_xxo VlAll) (rro MnemonicAvx32.i_vcvtbiasph2hf8));
  (false, en32 (mkEntry "vcvtbiasph2hf8s/xxo" [cX; cX; cO] (rro i_vcvtbiasph2hf8s) r_vcvtbiasph2hf8s_xxo VlAll) (rro MnemonicAvx32.i_vcvtbiasph2hf8s));
  (false, en32 (mkEntry "vcvtneph2bf8/xo" [cX; cO] (ro i_vcvtneph2bf8) r_vcvtneph2bf8_xo VlHalf) (ro MnemonicAvx32.i_vcvtneph2bf8));
  (false, en32 (mkEntry "vcvtneph2bf8s/xo" [cX; cO] (ro i_vcvtneph2bf8s) r_vcvtneph2bf8s_xo VlHalf) (ro MnemonicAvx32.i_vcvtneph2bf8s));
  (false, en32 (mkEntry "vcvtneph2hf8/xo" [cX; cO] (ro i_vcvtneph2hf8) r_vcvtneph2hf8_xo VlHalf) (ro MnemonicAvx32.i_vcvtneph2hf8));
  (false, en32 (mkEntry "vcvtneph2hf8s/xo" [cX; cO] (ro i_vcvtneph2hf8s) r_vcvtneph2hf8s_xo VlHalf) (ro MnemonicAvx32.i_vcvtneph2hf8s));
  (false, en32 (mkEntry "vcvtpd2udq/xo" [cX; cO] (ro i_vcvtpd2udq) r_vcvtpd2udq_xo VlHalf) (ro MnemonicAvx32.i_vcvtpd2udq));
  (false, en32 (mkEntry "vcvttpd2udq/xo" [cX; cO] (ro i_vcvttpd2udq) r_vcvttpd2udq_xo VlHalf) (ro MnemonicAvx32.i_vcvttpd2udq));
  (false, en32 (mkEntry "vcvtqq2ps/xo" [cX; cO] (ro i_vcvtqq2ps) r_vcvtqq2ps_xo VlHalf) (ro MnemonicAvx32.i_vcvtqq2ps));
  (false, en32 (mkEntry "vcvtuqq2ps/xo" [cX; cO] (ro i_vcvtuqq2ps) r_vcvtuqq2ps_xo VlHalf) (ro MnemonicAvx32.i_vcvtuqq2ps));
  (false, en32 (mkEntry "vcvttpd2dqs/xo" [cX; cO] (ro i_vcvttpd2dqs) r_vcvttpd2dqs_xo VlHalf) (ro MnemonicAvx32.i_vcvttpd2dqs));
  (false, en32 (mkEntry "vcvttpd2udqs/xo" [cX; cO] (ro i_vcvttpd2udqs) r_vcvttpd2udqs_xo VlHalf) (ro MnemonicAvx32.i_vcvttpd2udqs));
  (false, en32 (mkEntry "vcvtpd2dq/xo" [cX; cO] (ro i_vcvtpd2dq) r_vcvtpd2dq_xo VlHalf) (ro Mnemonic32.i_vcvtpd2dq));
  (false, en32 (mkEntry "vcvttpd2dq/xo" [cX; cO] (ro i_vcvttpd2dq) r_vcvttpd2dq_xo VlHalf) (ro Mnemonic32.i_vcvttpd2dq));
  (false, en32 (mkEntry "vcvtpd2ps/xo" [cX; cO] (ro i_vcvtpd2ps) r_vcvtpd2ps_xo VlHalf) (ro Mnemonic32.i_vcvtpd2ps));
  (false, en32 (mkEntry "vgetexpps/xo" [cX; cO] (ro i_vgetexpps) r_vgetexpps_xo VlRegs) (ro MnemonicAvx32.i_vgetexpps));
  (false, en32 (mkEntry "vgetexppd/xo" [cX; cO] (ro i_vgetexppd) r_vgetexppd_xo VlRegs) (ro MnemonicAvx32.i_vgetexppd));
  (false, en32 (mkEntry "vgetexpph/xo" [cX; cO] (ro i_vgetexpph) r_vgetexpph_xo VlRegs) (ro MnemonicAvx32.i_vgetexpph));
  (false, en32 (mkEntry "vgetexppbf16/xo" [cX; cO] (ro i_vgetexppbf16) r_vgetexppbf16_xo VlRegs) (ro MnemonicAvx32.i_vgetexppbf16))].
Lemma vex32_16_ok : Forall (fun p => implements32 (fst p) (snd p)) (vex32_16).
Proof. unfold vex32_16.
vrow_ tab19_ok 6%nat sims47_ok start47 20%nat.
vrow_ tab19_ok 7%nat sims47_ok start47 23%nat.
vrow_ tab19_ok 8%nat sims47_ok start47 8%nat.
vrow_ tab19_ok 9%nat sims47_ok start47 22%nat.
vrow_ tab19_ok 10%nat sims74_ok start74 21%nat.
vrow_ tab19_ok 11%nat sims73_ok start73 20%nat.
vrow_ tab19_ok 12%nat sims73_ok start73 21%nat.
vrow_ tab19_ok 13%nat sims73_ok start73 24%nat.
vrow_ tab19_ok 14%nat sims74_ok start74 0%nat.
vrow_ tab20_ok 0%nat sims59_ok start59 21%nat.
vrow_ tab20_ok 1%nat sims59_ok start59 22%nat.
vrow_ tab20_ok 2%nat sims59_ok start59 23%nat.
vrow_ tab20_ok 3%nat sims59_ok start59 24%nat.
vrow_ tab21_ok 0%nat sims60_ok start60 9%nat.
vrow_ tab21_ok 1%nat sims60_ok start60 10%nat.
vrow_ tab21_ok 2%nat sims60_ok start60 11%nat.
vrow_ tab21_ok 3%nat sims60_ok start60 12%nat.
vrow_ tab21_ok 4%nat sims60_ok start60 15%nat.
vrow_ tab21_ok 5%nat sims62_ok start62 0%nat.
vrow_ tab21_ok 6%nat sims61_ok start61 10%nat.
vrow_ tab21_ok 7%nat sims63_ok start63 9%nat.
vrow_ tab21_ok 8%nat sims61_ok start61 22%nat.
vrow_ tab21_ok 9%nat sims62_ok start62 1%nat.
vrow_ tab21_ok 10%nat sims35_ok start35 22%nat.
vrow_ tab21_ok 11%nat sims36_ok start36 9%nat.
vrow_ tab21_ok 12%nat sims35_ok start35 23%nat.
vrow_ tab23_ok 0%nat sims67_ok start67 4%nat.
vrow_ tab23_ok 1%nat sims67_ok start67 2%nat.
vrow_ tab23_ok 2%nat sims67_ok start67 3%nat.
vrow_ tab23_ok 3%nat sims67_ok start67 1%nat.
apply Forall_nil. Qed.
Definition vex32_17 : list (bool * entry) := [
  (false, en32 (mkEntry "vaesimc/xo" [cX; cO] (ro i_vaesimc) r_vaesimc_xo VlRegs) (ro Mnemonic32.i_vaesimc));
  (false, en32 (mkEntry "vucomiss/xo" [cX; cO] (ro i_vucomiss) r_vucomiss_xo VlRegs) (ro Mnemonic32.i_vucomiss));
  (false, en32 (mkEntry "vucomisd/xo" [cX; cO] (ro i_vucomisd) r_vucomisd_xo VlRegs) (ro Mnemonic32.i_vucomisd));
  (false, en32 (mkEntry "vucomish/xo" [cX; cO] (ro i_vucomish) r_vucomish_xo VlRegs) (ro MnemonicAvx32.i_vucomish));
  (false, en32 (mkEntry "vcomiss/xo" [cX; cO] (ro i_vcomiss) r_vcomiss_xo VlRegs) (ro Mnemonic32.i_vcomiss));
  (false, en32 (mkEntry "vcomisd/xo" [cX; cO] (ro i_vcomisd) r_vcomisd_xo VlRegs) (ro Mnemonic32.i_vcomisd));
  (false, en32 (mkEntry "vcomish/xo" [cX; cO] (ro i_vcomish) r_vcomish_xo VlRegs) (ro MnemonicAvx32.i_vcomish));
  (false, en32 (mkEntry "vucomxss/xo" [cX; cO] (ro i_vucomxss) r_vucomxss_xo VlRegs) (ro MnemonicAvx32.i_vucomxss));
  (false, en32 (mkEntry "vucomxsd/xo" [cX; cO] (ro i_vucomxsd) r_vucomxsd_xo VlRegs) (ro MnemonicAvx32.i_vucomxsd));
  (false, en32 (mkEntry "vucomxsh/xo" [cX; cO] (ro i_vucomxsh) r_vucomxsh_xo VlRegs) (ro MnemonicAvx32.i_vucomxsh));
  (false, en32 (mkEntry "vcomxss/xo" [cX; cO] (ro i_vcomxss) r_vcomxss_xo VlRegs) (ro MnemonicAvx32.i_vcomxss));
  (false, en32 (mkEntry "vcomxsd/xo" [cX; cO] (ro i_vcomxsd) r_vcomxsd_xo VlRegs) (ro MnemonicAvx32.i_vcomxsd));
  (false, en32 (mkEntry "vcomxsh/xo" [cX; cO] (ro i_vcomxsh) r_vcomxsh_xo VlRegs) (ro MnemonicAvx32.i_vcomxsh));
  (false, en32 (mkEntry "vcomsbf16/xo" [cX; cO] (ro i_vcomsbf16) r_vcomsbf16_xo VlRegs) (ro MnemonicAvx32.i_vcomsbf16));
  (false, en32 (mkEntry "vcvtdq2ps/xo" [cX; cO] (ro i_vcvtdq2ps) r_vcvtdq2ps_xo VlRegs) (ro Mnemonic32.i_vcvtdq2ps));
  (false, en32 (mkEntry "vcvtps2dq/xo" [cX; cO] (ro i_vcvtps2dq) r_vcvtps2dq_xo VlRegs) (ro Mnemonic32.i_vcvtps2dq));
  (false, en32 (mkEntry "vcvttps2dq/xo" [cX; cO] (ro i_vcvttps2dq) r_vcvttps2dq_xo VlRegs) (ro Mnemonic32.i_vcvttps2dq));
  (false, en32 (mkEntry "vmovaps/xo" [cX; cO] (ro i_vmovaps_xo) r_vmovaps_xo VlRegs) (ro Mnemonic32.i_vmovaps_xo));
  (false, en32 (mkEntry "vmovapd/xo" [cX; cO] (ro i_vmovapd_xo) r_vmovapd_xo VlRegs) (ro Mnemonic32.i_vmovapd_xo));
  (false, en32 (mkEntry "vmovups/xo" [cX; cO] (ro i_vmovups_xo) r_vmovups_xo VlRegs) (ro Mnemonic32.i_vmovups_xo));
  (false, en32 (mkEntry "vmovupd/xo" [cX; cO] (ro i_vmovupd_xo) r_vmovupd_xo VlRegs) (ro Mnemonic32.i_vmovupd_xo));
  (false, en32 (mkEntry "vmovshdup/xo" [cX; cO] (ro i_vmovshdup) r_vmovshdup_xo VlRegs) (ro Mnemonic32.i_vmovshdup));
  (false, en32 (mkEntry "vmovsldup/xo" [cX; cO] (ro i_vmovsldup) r_vmovsldup_xo VlRegs) (ro Mnemonic32.i_vmovsldup));
  (false, en32 (mkEntry "vmovdqa/xo" [cX; cO] (ro i_vmovdqa_xo) r_vmovdqa_xo VlRegs) (ro Mnemonic32.i_vmovdqa_xo));
  (false, en32 (mkEntry "vmovdqu/xo" [cX; cO] (ro i_vmovdqu_xo) r_vmovdqu_xo VlRegs) (ro Mnemonic32.i_vmovdqu_xo));
  (false, en32 (mkEntry "vpabsb/xo" [cX; cO] (ro i_vpabsb) r_vpabsb_xo VlRegs) (ro Mnemonic32.i_vpabsb));
  (false, en32 (mkEntry "vpabsw/xo" [cX; cO] (ro i_vpabsw) r_vpabsw_xo VlRegs) (ro Mnemonic32.i_vpabsw));
  (false, en32 (mkEntry "vpabsd/xo" [cX; cO] (ro i_vpabsd) r_vpabsd_xo VlRegs) (ro Mnemonic32.i_vpabsd));
  (false, en32 (mkEntry "vpabsq/xo" [cX; cO] (ro i_vpabsq) r_vpabsq_xo VlRegs) (ro MnemonicAvx32.i_vpabsq));
  (false, en32 (mkEntry "vphminposuw/xo" [cX; cO] (ro i_vphminposuw) r_vphminposuw_xo VlRegs) (ro Mnemonic32.i_vphminposuw))].
Lemma vex32_17_ok : Forall (fun p => implements32 (fst p) (snd p)) (vex32_17).
Proof. unfold vex32_17.
vrow_ tab23_ok 4%nat sims29_ok start29 15%nat.
vrow_ tab23_ok 5%nat sims50_ok start50 2%nat.
vrow_ tab23_ok 6%nat sims50_ok start50 1%nat.
vrow_ tab23_ok 7%nat sims78_ok start78 8%nat.
vrow_ tab23_ok 8%nat sims35_ok start35 14%nat.
vrow_ tab23_ok 9%nat sims35_ok start35 13%nat.
vrow_ tab23_ok 10%nat sims59_ok start59 13%nat.
vrow_ tab23_ok 11%nat sims78_ok start78 11%nat.
vrow_ tab23_ok 12%nat sims78_ok start78 9%nat.
vrow_ tab23_ok 13%nat sims78_ok start78 10%nat.
vrow_ tab23_ok 14%nat sims59_ok start59 19%nat.
vrow_ tab23_ok 15%nat sims59_ok start59 17%nat.
vrow_ tab23_ok 16%nat sims59_ok start59 18%nat.
vrow_ tab23_ok 17%nat sims59_ok start59 16%nat.
vrow_ tab23_ok 18%nat sims35_ok start35 16%nat.
vrow_ tab23_ok 19%nat sims36_ok start36 0%nat.
vrow_ tab23_ok 20%nat sims36_ok start36 10%nat.
vrow_ tab23_ok 21%nat sims40_ok start40 14%nat.
vrow_ tab23_ok 22%nat sims40_ok start40 12%nat.
vrow_ tab23_ok 23%nat sims41_ok start41 23%nat.
vrow_ tab23_ok 24%nat sims41_ok start41 21%nat.
vrow_ tab23_ok 25%nat sims41_ok start41 15%nat.
vrow_ tab23_ok 26%nat sims41_ok start41 16%nat.
vrow_ tab23_ok 27%nat sims40_ok start40 17%nat.
vrow_ tab23_ok 28%nat sims40_ok start40 19%nat.
vrow_ tab23_ok 29%nat sims42_ok start42 5%nat.
vrow_ tab23_ok 30%nat sims42_ok start42 7%nat.
vrow_ tab23_ok 31%nat sims42_ok start42 6%nat.
vrow_ tab23_ok 32%nat sims69_ok start69 8%nat.
vrow_ tab23_ok 33%nat sims45_ok start45 1%nat.
apply Forall_nil. Qed.
Definition vex32_18 : list (bool * entry) := [
  (false, en32 (mkEntry "vpmovsxbw/xo" [cX; cO] (ro i_vpmovsxbw) r_vpmovsxbw_xo VlRegs) (ro Mnemonic32.i_vpmovsxbw));
  (false, en32 (mkEntry "vpmovsxbd/xo" [cX; cO] (ro i_vpmovsxbd) r_vpmovsxbd_xo VlRegs) (ro Mnemonic32.i_vpmovsxbd));
  (false, en32 (mkEntry "vpmovsxbq/xo" [cX; cO] (ro i_vpmovsxbq) r_vpmovsxbq_xo VlRegs) (ro Mnemonic32.i_vpmovsxbq));
  (false, en32 (mkEntry "vpmovsxwd/xo" [cX; cO] (ro i_vpmovsxwd) r_vpmovsxwd_xo VlRegs) (ro Mnemonic32.i_vpmovsxwd));
  (false, en32 (mkEntry "vpmovsxwq/xo" [cX; cO] (ro i_vpmovsxwq) r_vpmovsxwq_xo VlRegs) (ro Mnemonic32.i_vpmovsxwq));
  (false, en32 (mkEntry "vpmovsxdq/xo" [cX; cO] (ro i_vpmovsxdq) r_vpmovsxdq_xo VlRegs) (ro Mnemonic32.i_vpmovsxdq));
  (false, en32 (mkEntry "vpmovzxbw/xo" [cX; cO] (ro i_vpmovzxbw) r_vpmovzxbw_xo VlRegs) (ro Mnemonic32.i_vpmovzxbw));
  (false, en32 (mkEntry "vpmovzxbd/xo" [cX; cO] (ro i_vpmovzxbd) r_vpmovzxbd_xo VlRegs) (ro Mnemonic32.i_vpmovzxbd));
  (false, en32 (mkEntry "vpmovzxbq/xo" [cX; cO] (ro i_vpmovzxbq) r_vpmovzxbq_xo VlRegs) (ro Mnemonic32.i_vpmovzxbq));
  (false, en32 (mkEntry "vpmovzxwd/xo" [cX; cO] (ro i_vpmovzxwd) r_vpmovzxwd_xo VlRegs) (ro Mnemonic32.i_vpmovzxwd));
  (false, en32 (mkEntry "vpmovzxwq/xo" [cX; cO] (ro i_vpmovzxwq) r_vpmovzxwq_xo VlRegs) (ro Mnemonic32.i_vpmovzxwq));
  (false, en32 (mkEntry "vpmovzxdq/xo" [cX; cO] (ro i_vpmovzxdq) r_vpmovzxdq_xo VlRegs) (ro Mnemonic32.i_vpmovzxdq));
  (false, en32 (mkEntry "vptest/xo" [cX; cO] (ro i_vptest) r_vptest_xo VlRegs) (ro Mnemonic32.i_vptest));
  (false, en32 (mkEntry "vtestps/xo" [cX; cO] (ro i_vtestps) r_vtestps_xo VlRegs) (ro Mnemonic32.i_vtestps));
  (false, en32 (mkEntry "vtestpd/xo" [cX; cO] (ro i_vtestpd) r_vtestpd_xo VlRegs) (ro Mnemonic32.i_vtestpd));
  (false, en32 (mkEntry "vrcpps/xo" [cX; cO] (ro i_vrcpps) r_vrcpps_xo VlRegs) (ro Mnemonic32.i_vrcpps));
  (false, en32 (mkEntry "vrsqrtps/xo" [cX; cO] (ro i_vrsqrtps) r_vrsqrtps_xo VlRegs) (ro Mnemonic32.i_vrsqrtps));
  (false, en32 (mkEntry "vsqrtps/xo" [cX; cO] (ro i_vsqrtps) r_vsqrtps_xo VlRegs) (ro Mnemonic32.i_vsqrtps));
  (false, en32 (mkEntry "vsqrtpd/xo" [cX; cO] (ro i_vsqrtpd) r_vsqrtpd_xo VlRegs) (ro Mnemonic32.i_vsqrtpd));
  (false, en32 (mkEntry "vsqrtph/xo" [cX; cO] (ro i_vsqrtph) r_vsqrtph_xo VlRegs) (ro MnemonicAvx32.i_vsqrtph));
  (false, en32 (mkEntry "vsqrtnepbf16/xo" [cX; cO] (ro i_vsqrtnepbf16) r_vsqrtnepbf16_xo VlRegs) (ro MnemonicAvx32.i_vsqrtnepbf16));
  (false, en32 (mkEntry "vbroadcastf32x2/yo" [cY; cO] (ro i_vbroadcastf32x2) r_vbroadcastf32x2_yo VlRegs) (ro MnemonicAvx32.i_vbroadcastf32x2));
  (false, en32 (mkEntry "vbroadcasti32x2/xo" [cX; cO] (ro i_vbroadcasti32x2) r_vbroadcasti32x2_xo VlRegs) (ro MnemonicAvx32.i_vbroadcasti32x2));
  (false, en32 (mkEntry "vbroadcasti32x4/yo" [cY; cO] (ro i_vbroadcasti32x4) r_vbroadcasti32x4_yo VlRegs) (ro MnemonicAvx32.i_vbroadcasti32x4));
  (false, en32 (mkEntry "vbroadcasti64x2/yo" [cY; cO] (ro i_vbroadcasti64x2) r_vbroadcasti64x2_yo VlRegs) (ro MnemonicAvx32.i_vbroadcasti64x2));
  (false, en32 (mkEntry "vbroadcasti32x8/zo" [cZ; cO] (ro i_vbroadcasti32x8) r_vbroadcasti32x8_zo VlRegs) (ro MnemonicAvx32.i_vbroadcasti32x8));
  (false, en32 (mkEntry "vbroadcasti64x4/zo" [cZ; cO] (ro i_vbroadcasti64x4) r_vbroadcasti64x4_zo VlRegs) (ro MnemonicAvx32.i_vbroadcasti64x4));
  (false, en32 (mkEntry "vexpandps/xo" [cX; cO] (ro i_vexpandps) r_vexpandps_xo VlRegs) (ro MnemonicAvx32.i_vexpandps));
  (false, en32 (mkEntry "vexpandpd/xo" [cX; cO] (ro i_vexpandpd) r_vexpandpd_xo VlRegs) (ro MnemonicAvx32.i_vexpandpd));
  (false, en32 (mkEntry "vpexpandd/xo" [cX; cO] (ro i_vpexpandd) r_vpexpandd_xo VlRegs) (ro MnemonicAvx32.i_vpexpandd))].
Lemma vex32_18_ok : Forall (fun p => implements32 (fst p) (snd p)) (vex32_18).
Proof. unfold vex32_18.
vrow_ tab23_ok 34%nat sims46_ok start46 5%nat.
vrow_ tab23_ok 35%nat sims46_ok start46 3%nat.
vrow_ tab23_ok 36%nat sims46_ok start46 4%nat.
vrow_ tab23_ok 37%nat sims46_ok start46 7%nat.
vrow_ tab23_ok 38%nat sims46_ok start46 8%nat.
vrow_ tab23_ok 39%nat sims46_ok start46 6%nat.
vrow_ tab23_ok 40%nat sims46_ok start46 11%nat.
vrow_ tab23_ok 41%nat sims46_ok start46 9%nat.
vrow_ tab23_ok 42%nat sims46_ok start46 10%nat.
vrow_ tab23_ok 43%nat sims46_ok start46 13%nat.
vrow_ tab23_ok 44%nat sims46_ok start46 14%nat.
vrow_ tab23_ok 45%nat sims46_ok start46 12%nat.
vrow_ tab23_ok 46%nat sims48_ok start48 12%nat.
vrow_ tab23_ok 47%nat sims50_ok start50 0%nat.
vrow_ tab23_ok 48%nat sims49_ok start49 24%nat.
vrow_ tab23_ok 49%nat sims48_ok start48 22%nat.
vrow_ tab23_ok 50%nat sims49_ok start49 3%nat.
vrow_ tab23_ok 51%nat sims49_ok start49 16%nat.
vrow_ tab23_ok 52%nat sims49_ok start49 15%nat.
vrow_ tab23_ok 53%nat sims78_ok start78 3%nat.
vrow_ tab23_ok 54%nat sims78_ok start78 2%nat.
vrow_ tab23_ok 55%nat sims53_ok start53 18%nat.
vrow_ tab23_ok 56%nat sims53_ok start53 23%nat.
vrow_ tab23_ok 57%nat sims53_ok start53 24%nat.
vrow_ tab23_ok 58%nat sims54_ok start54 1%nat.
vrow_ tab23_ok 59%nat sims54_ok start54 0%nat.
vrow_ tab23_ok 60%nat sims54_ok start54 2%nat.
vrow_ tab23_ok 61%nat sims63_ok start63 24%nat.
vrow_ tab23_ok 62%nat sims63_ok start63 23%nat.
vrow_ tab23_ok 63%nat sims71_ok start71 21%nat.
apply Forall_nil. Qed.
Definition vex32_19 : list (bool * entry) := [
  (false, en32 (mkEntry "vpexpandq/xo" [cX; cO] (ro i_vpexpandq) r_vpexpandq_xo VlRegs) (ro MnemonicAvx32.i_vpexpandq));
  (false, en32 (mkEntry "vcvtpd2qq/xo" [cX; cO] (ro i_vcvtpd2qq) r_vcvtpd2qq_xo VlRegs) (ro MnemonicAvx32.i_vcvtpd2qq));
  (false, en32 (mkEntry "vcvtpd2uqq/xo" [cX; cO] (ro i_vcvtpd2uqq) r_vcvtpd2uqq_xo VlRegs) (ro MnemonicAvx32.i_vcvtpd2uqq));
  (false, en32 (mkEntry "vcvttpd2qq/xo" [cX; cO] (ro i_vcvttpd2qq) r_vcvttpd2qq_xo VlRegs) (ro MnemonicAvx32.i_vcvttpd2qq));
  (false, en32 (mkEntry "vcvttpd2uqq/xo" [cX; cO] (ro i_vcvttpd2uqq) r_vcvttpd2uqq_xo VlRegs) (ro MnemonicAvx32.i_vcvttpd2uqq));
  (false, en32 (mkEntry "vcvtps2udq/xo" [cX; cO] (ro i_vcvtps2udq) r_vcvtps2udq_xo VlRegs) (ro MnemonicAvx32.i_vcvtps2udq));
  (false, en32 (mkEntry "vcvttps2udq/xo" [cX; cO] (ro i_vcvttps2udq) r_vcvttps2udq_xo VlRegs) (ro MnemonicAvx32.i_vcvttps2udq));
  (false, en32 (mkEntry "vcvtqq2pd/xo" [cX; cO] (ro i_vcvtqq2pd) r_vcvtqq2pd_xo VlRegs) (ro MnemonicAvx32.i_vcvtqq2pd));
  (false, en32 (mkEntry "vcvtuqq2pd/xo" [cX; cO] (ro i_vcvtuqq2pd) r_vcvtuqq2pd_xo VlRegs) (ro MnemonicAvx32.i_vcvtuqq2pd));
  (false, en32 (mkEntry "vcvtudq2ps/xo" [cX; cO] (ro i_vcvtudq2ps) r_vcvtudq2ps_xo VlRegs) (ro MnemonicAvx32.i_vcvtudq2ps));
  (false, en32 (mkEntry "vcvtph2w/xo" [cX; cO] (ro i_vcvtph2w) r_vcvtph2w_xo VlRegs) (ro MnemonicAvx32.i_vcvtph2w));
  (false, en32 (mkEntry "vcvtph2uw/xo" [cX; cO] (ro i_vcvtph2uw) r_vcvtph2uw_xo VlRegs) (ro MnemonicAvx32.i_vcvtph2uw));
  (false, en32 (mkEntry "vcvttph2w/xo" [cX; cO] (ro i_vcvttph2w) r_vcvttph2w_xo VlRegs) (ro MnemonicAvx32.i_vcvttph2w));
  (false, en32 (mkEntry "vcvttph2uw/xo" [cX; cO] (ro i_vcvttph2uw) r_vcvttph2uw_xo VlRegs) (ro MnemonicAvx32.i_vcvttph2uw));
  (false, en32 (mkEntry "vcvtw2ph/xo" [cX; cO] (ro i_vcvtw2ph) r_vcvtw2ph_xo VlRegs) (ro MnemonicAvx32.i_vcvtw2ph));
  (false, en32 (mkEntry "vcvtuw2ph/xo" [cX; cO] (ro i_vcvtuw2ph) r_vcvtuw2ph_xo VlRegs) (ro MnemonicAvx32.i_vcvtuw2ph));
  (false, en32 (mkEntry "vcvtps2ibs/xo" [cX; cO] (ro i_vcvtps2ibs) r_vcvtps2ibs_xo VlRegs) (ro MnemonicAvx32.i_vcvtps2ibs));
  (false, en32 (mkEntry "vcvtps2iubs/xo" [cX; cO] (ro i_vcvtps2iubs) r_vcvtps2iubs_xo VlRegs) (ro MnemonicAvx32.i_vcvtps2iubs));
  (false, en32 (mkEntry "vcvtph2ibs/xo" [cX; cO] (ro i_vcvtph2ibs) r_vcvtph2ibs_xo VlRegs) (ro MnemonicAvx32.i_vcvtph2ibs));
  (false, en32 (mkEntry "vcvtph2iubs/xo" [cX; cO] (ro i_vcvtph2iubs) r_vcvtph2iubs_xo VlRegs) (ro MnemonicAvx32.i_vcvtph2iubs));
  (false, en32 (mkEntry "vcvtnebf162ibs/xo" [cX; cO] (ro i_vcvtnebf162ibs) r_vcvtnebf162ibs_xo VlRegs) (ro MnemonicAvx32.i_vcvtnebf162ibs));
  (false, en32 (mkEntry "vcvtnebf162iubs/xo" [cX; cO] (ro i_vcvtnebf162iubs) r_vcvtnebf162iubs_xo VlRegs) (ro MnemonicAvx32.i_vcvtnebf162iubs));
  (false, en32 (mkEntry "vcvttnebf162ibs/xo" [cX; cO] (ro i_vcvttnebf162ibs) r_vcvttnebf162ibs_xo VlRegs) (ro MnemonicAvx32.i_vcvttnebf162ibs));
  (false, en32 (mkEntry "vcvttnebf162iubs/xo" [cX; cO] (ro i_vcvttnebf162iubs) r_vcvttnebf162iubs_xo VlRegs) (ro MnemonicAvx32.i_vcvttnebf162iubs));
  (false, en32 (mkEntry "vcvttps2dqs/xo" [cX; cO] (ro i_vcvttps2dqs) r_vcvttps2dqs_xo VlRegs) (ro MnemonicAvx32.i_vcvttps2dqs));
  (false, en32 (mkEntry "vcvttps2udqs/xo" [cX; cO] (ro i_vcvttps2udqs) r_vcvttps2udqs_xo VlRegs) (ro MnemonicAvx32.i_vcvttps2udqs));
  (false, en32 (mkEntry "vcvttpd2qqs/xo" [cX; cO] (ro i_vcvttpd2qqs) r_vcvttpd2qqs_xo VlRegs) (ro MnemonicAvx32.i_vcvttpd2qqs));
  (false, en32 (mkEntry "vcvttpd2uqqs/xo" [cX; cO] (ro i_vcvttpd2uqqs) r_vcvttpd2uqqs_xo VlRegs) (ro MnemonicAvx32.i_vcvttpd2uqqs));
  (false, en32 (mkEntry "vexp2ps/zo" [cZ; cO] (ro i_vexp2ps) r_vexp2ps_zo VlRegs) (ro MnemonicAvx32.i_vexp2ps));
  (false, en32 (mkEntry "vexp2pd/zo" [cZ; cO] (ro i_vexp2pd) r_vexp2pd_zo VlRegs) (ro MnemonicAvx32.i_vexp2pd))].
Lemma vex32_19_ok : Forall (fun p => implements32 (fst p) (snd p)) (vex32_19).
Proof. unfold vex32_19.
vrow_ tab23_ok 64%nat sims71_ok start71 22%nat.
vrow_ tab23_ok 65%nat sims60_ok start60 14%nat.
vrow_ tab23_ok 66%nat sims60_ok start60 16%nat.
vrow_ tab23_ok 67%nat sims61_ok start61 23%nat.
vrow_ tab23_ok 68%nat sims62_ok start62 2%nat.
vrow_ tab23_ok 69%nat sims61_ok start61 6%nat.
vrow_ tab23_ok 70%nat sims62_ok start62 17%nat.
vrow_ tab23_ok 71%nat sims61_ok start61 8%nat.
vrow_ tab23_ok 72%nat sims63_ok start63 7%nat.
vrow_ tab23_ok 73%nat sims63_ok start63 6%nat.
vrow_ tab23_ok 74%nat sims61_ok start61 1%nat.
vrow_ tab23_ok 75%nat sims61_ok start61 0%nat.
vrow_ tab23_ok 76%nat sims62_ok start62 11%nat.
vrow_ tab23_ok 77%nat sims62_ok start62 10%nat.
vrow_ tab23_ok 78%nat sims63_ok start63 14%nat.
vrow_ tab23_ok 79%nat sims63_ok start63 13%nat.
vrow_ tab23_ok 80%nat sims61_ok start61 2%nat.
vrow_ tab23_ok 81%nat sims61_ok start61 3%nat.
vrow_ tab23_ok 82%nat sims60_ok start60 18%nat.
vrow_ tab23_ok 83%nat sims60_ok start60 19%nat.
vrow_ tab23_ok 84%nat sims60_ok start60 7%nat.
vrow_ tab23_ok 85%nat sims60_ok start60 8%nat.
vrow_ tab23_ok 86%nat sims61_ok start61 20%nat.
vrow_ tab23_ok 87%nat sims61_ok start61 21%nat.
vrow_ tab23_ok 88%nat sims62_ok start62 12%nat.
vrow_ tab23_ok 89%nat sims62_ok start62 18%nat.
vrow_ tab23_ok 90%nat sims61_ok start61 24%nat.
vrow_ tab23_ok 91%nat sims62_ok start62 3%nat.
vrow_ tab23_ok 92%nat sims63_ok start63 22%nat.
vrow_ tab23_ok 93%nat sims63_ok start63 21%nat.
apply Forall_nil. Qed.
Definition vex32_20 : list (bool * entry) := [
  (false, en32 (mkEntry "vrcp28ps/zo" [cZ; cO] (ro i_vrcp28ps) r_vrcp28ps_zo VlRegs) (ro MnemonicAvx32.i_vrcp28ps));
  (false, en32 (mkEntry "vrcp28pd/zo" [cZ; cO] (ro i_vrcp28pd) r_vrcp28pd_zo VlRegs) (ro MnemonicAvx32.i_vrcp28pd));
  (false, en32 (mkEntry "vrsqrt28ps/zo" [cZ; cO] (ro i_vrsqrt28ps) r_vrsqrt28ps_zo VlRegs) (ro MnemonicAvx32.i_vrsqrt28ps));
  (false, en32 (mkEntry "vrsqrt28pd/zo" [cZ; cO] (ro i_vrsqrt28pd) r_vrsqrt28pd_zo VlRegs) (ro MnemonicAvx32.i_vrsqrt28pd));
  (false, en32 (mkEntry "vrcp14ps/xo" [cX; cO] (ro i_vrcp14ps) r_vrcp14ps_xo VlRegs) (ro MnemonicAvx32.i_vrcp14ps));
  (false, en32 (mkEntry "vrcp14pd/xo" [cX; cO] (ro i_vrcp14pd) r_vrcp14pd_xo VlRegs) (ro MnemonicAvx32.i_vrcp14pd));
  (false, en32 (mkEntry "vrsqrt14ps/xo" [cX; cO] (ro i_vrsqrt14ps) r_vrsqrt14ps_xo VlRegs) (ro MnemonicAvx32.i_vrsqrt14ps));
  (false, en32 (mkEntry "vrsqrt14pd/xo" [cX; cO] (ro i_vrsqrt14pd) r_vrsqrt14pd_xo VlRegs) (ro MnemonicAvx32.i_vrsqrt14pd));
  (false, en32 (mkEntry "vrcpph/xo" [cX; cO] (ro i_vrcpph) r_vrcpph_xo VlRegs) (ro MnemonicAvx32.i_vrcpph));
  (false, en32 (mkEntry "vrsqrtph/xo" [cX; cO] (ro i_vrsqrtph) r_vrsqrtph_xo VlRegs) (ro MnemonicAvx32.i_vrsqrtph));
  (false, en32 (mkEntry "vrcppbf16/xo" [cX; cO] (ro i_vrcppbf16) r_vrcppbf16_xo VlRegs) (ro MnemonicAvx32.i_vrcppbf16));
  (false, en32 (mkEntry "vrsqrtpbf16/xo" [cX; cO] (ro i_vrsqrtpbf16) r_vrsqrtpbf16_xo VlRegs) (ro MnemonicAvx32.i_vrsqrtpbf16));
  (false, en32 (mkEntry "vpconflictd/xo" [cX; cO] (ro i_vpconflictd) r_vpconflictd_xo VlRegs) (ro MnemonicAvx32.i_vpconflictd));
  (false, en32 (mkEntry "vpconflictq/xo" [cX; cO] (ro i_vpconflictq) r_vpconflictq_xo VlRegs) (ro MnemonicAvx32.i_vpconflictq));
  (false, en32 (mkEntry "vplzcntd/xo" [cX; cO] (ro i_vplzcntd) r_vplzcntd_xo VlRegs) (ro MnemonicAvx32.i_vplzcntd));
  (false, en32 (mkEntry "vplzcntq/xo" [cX; cO] (ro i_vplzcntq) r_vplzcntq_xo VlRegs) (ro MnemonicAvx32.i_vplzcntq));
  (false, en32 (mkEntry "vmovsh/ax" [cA; cX] (ar i_vmovsh_ax) r_vmovsh_ax VlRegs) (ar MnemonicAvx32.i_vmovsh_ax));
  (false, en32 (mkEntry "vmovaps/ax" [cA; cX] (ar i_vmovaps_ax) r_vmovaps_ax VlRegs) (ar Mnemonic32.i_vmovaps_ax));
  (false, en32 (mkEntry "vmovapd/ax" [cA; cX] (ar i_vmovapd_ax) r_vmovapd_ax VlRegs) (ar Mnemonic32.i_vmovapd_ax));
  (false, en32 (mkEntry "vmovups/ax" [cA; cX] (ar i_vmovups_ax) r_vmovups_ax VlRegs) (ar Mnemonic32.i_vmovups_ax));
  (false, en32 (mkEntry "vmovupd/ax" [cA; cX] (ar i_vmovupd_ax) r_vmovupd_ax VlRegs) (ar Mnemonic32.i_vmovupd_ax));
  (false, en32 (mkEntry "vmovdqa/ax" [cA; cX] (ar i_vmovdqa_ax) r_vmovdqa_ax VlRegs) (ar Mnemonic32.i_vmovdqa_ax));
  (false, en32 (mkEntry "vmovdqu/ax" [cA; cX] (ar i_vmovdqu_ax) r_vmovdqu_ax VlRegs) (ar Mnemonic32.i_vmovdqu_ax));
  (false, en32 (mkEntry "vmovsh/xxx" [cX; cX; cX] (rrr i_vmovsh_xxx) r_vmovsh_xxx VlRegs) (rrr MnemonicAvx32.i_vmovsh_xxx));
  (false, en32 (mkEntry "vbroadcastf128/ya" [cY; cA] (ra i_vbroadcastf128) r_vbroadcastf128_ya VlRegs) (ra Mnemonic32.i_vbroadcastf128));
  (false, en32 (mkEntry "vbroadcasti128/ya" [cY; cA] (ra i_vbroadcasti128) r_vbroadcasti128_ya VlRegs) (ra Mnemonic32.i_vbroadcasti128));
  (false, en32 (mkEntry "vbroadcastf32x4/ya" [cY; cA] (ra i_vbroadcastf32x4) r_vbroadcastf32x4_ya VlRegs) (ra MnemonicAvx32.i_vbroadcastf32x4));
  (false, en32 (mkEntry "vbroadcastf64x2/ya" [cY; cA] (ra i_vbroadcastf64x2) r_vbroadcastf64x2_ya VlRegs) (ra MnemonicAvx32.i_vbroadcastf64x2));
  (false, en32 (mkEntry "vbroadcastf32x8/za" [cZ; cA] (ra i_vbroadcastf32x8) r_vbroadcastf32x8_za VlRegs) (ra MnemonicAvx32.i_vbroadcastf32x8));
  (false, en32 (mkEntry "vbroadcastf64x4/za" [cZ; cA] (ra i_vbroadcastf64x4) r_vbroadcastf64x4_za VlRegs) (ra MnemonicAvx32.i_vbroadcastf64x4))].
Lemma vex32_20_ok : Forall (fun p => implements32 (fst p) (snd p)) (vex32_20).
Proof. unfold vex32_20.
vrow_ tab23_ok 94%nat sims75_ok start75 22%nat.
vrow_ tab23_ok 95%nat sims75_ok start75 21%nat.
vrow_ tab23_ok 96%nat sims76_ok start76 22%nat.
vrow_ tab23_ok 97%nat sims76_ok start76 21%nat.
vrow_ tab23_ok 98%nat sims75_ok start75 18%nat.
vrow_ tab23_ok 99%nat sims75_ok start75 17%nat.
vrow_ tab23_ok 100%nat sims76_ok start76 18%nat.
vrow_ tab23_ok 101%nat sims76_ok start76 17%nat.
vrow_ tab23_ok 102%nat sims76_ok start76 1%nat.
vrow_ tab23_ok 103%nat sims77_ok start77 1%nat.
vrow_ tab23_ok 104%nat sims76_ok start76 0%nat.
vrow_ tab23_ok 105%nat sims77_ok start77 0%nat.
vrow_ tab23_ok 106%nat sims70_ok start70 17%nat.
vrow_ tab23_ok 107%nat sims70_ok start70 18%nat.
vrow_ tab23_ok 108%nat sims72_ok start72 3%nat.
vrow_ tab23_ok 109%nat sims72_ok start72 4%nat.
vrow_ tab24_ok 0%nat sims68_ok start68 23%nat.
vrow_ tab24_ok 1%nat sims40_ok start40 13%nat.
vrow_ tab24_ok 2%nat sims40_ok start40 11%nat.
vrow_ tab24_ok 3%nat sims41_ok start41 22%nat.
vrow_ tab24_ok 4%nat sims41_ok start41 20%nat.
vrow_ tab24_ok 5%nat sims40_ok start40 16%nat.
vrow_ tab24_ok 6%nat sims40_ok start40 18%nat.
vrow_ tab25_ok 0%nat sims69_ok start69 0%nat.
vrow_ tab26_ok 0%nat sims30_ok start30 2%nat.
vrow_ tab26_ok 1%nat sims30_ok start30 3%nat.
vrow_ tab26_ok 2%nat sims53_ok start53 19%nat.
vrow_ tab26_ok 3%nat sims53_ok start53 21%nat.
vrow_ tab26_ok 4%nat sims53_ok start53 20%nat.
vrow_ tab26_ok 5%nat sims53_ok start53 22%nat.
apply Forall_nil. Qed.
Definition vex32_21 : list (bool * entry) := [
  (false, en32 (mkEntry "vbroadcastsd/yo" [cY; cO] (ro i_vbroadcastsd) r_vbroadcastsd_yo VlRegs) (ro Mnemonic32.i_vbroadcastsd));
  (false, en32 (mkEntry "vbroadcastss/xo" [cX; cO] (ro i_vbroadcastss) r_vbroadcastss_xo VlRegs) (ro Mnemonic32.i_vbroadcastss));
  (false, en32 (mkEntry "vpbroadcastb/xo" [cX; cO] (ro i_vpbroadcastb_xo) r_vpbroadcastb_xo VlRegs) (ro Mnemonic32.i_vpbroadcastb_xo));
  (false, en32 (mkEntry "vpbroadcastw/xo" [cX; cO] (ro i_vpbroadcastw_xo) r_vpbroadcastw_xo VlRegs) (ro Mnemonic32.i_vpbroadcastw_xo));
  (false, en32 (mkEntry "vpbroadcastd/xo" [cX; cO] (ro i_vpbroadcastd_xo) r_vpbroadcastd_xo VlRegs) (ro Mnemonic32.i_vpbroadcastd_xo));
  (false, en32 (mkEntry "vpbroadcastq/xo" [cX; cO] (ro i_vpbroadcastq_xo) r_vpbroadcastq_xo VlRegs) (ro Mnemonic32.i_vpbroadcastq_xo));
  (false, en32 (mkEntry "vmovddup/xo" [cX; cO] (ro i_vmovddup) r_vmovddup_xo VlRegs) (ro Mnemonic32.i_vmovddup));
  (false, en32 (mkEntry "vmovdqa32/xo" [cX; cO] (ro i_vmovdqa32_xo) r_vmovdqa32_xo VlRegs) (ro MnemonicAvx32.i_vmovdqa32_xo));
  (false, en32 (mkEntry "vmovdqa64/xo" [cX; cO] (ro i_vmovdqa64_xo) r_vmovdqa64_xo VlRegs) (ro MnemonicAvx32.i_vmovdqa64_xo));
  (false, en32 (mkEntry "vmovdqu8/xo" [cX; cO] (ro i_vmovdqu8_xo) r_vmovdqu8_xo VlRegs) (ro MnemonicAvx32.i_vmovdqu8_xo));
  (false, en32 (mkEntry "vmovdqu16/xo" [cX; cO] (ro i_vmovdqu16_xo) r_vmovdqu16_xo VlRegs) (ro MnemonicAvx32.i_vmovdqu16_xo));
  (false, en32 (mkEntry "vmovdqu32/xo" [cX; cO] (ro i_vmovdqu32_xo) r_vmovdqu32_xo VlRegs) (ro MnemonicAvx32.i_vmovdqu32_xo));
  (false, en32 (mkEntry "vmovdqu64/xo" [cX; cO] (ro i_vmovdqu64_xo) r_vmovdqu64_xo VlRegs) (ro MnemonicAvx32.i_vmovdqu64_xo));
  (false, en32 (mkEntry "vpexpandb/xo" [cX; cO] (ro i_vpexpandb) r_vpexpandb_xo VlRegs) (ro MnemonicAvx32.i_vpexpandb));
  (false, en32 (mkEntry "vpexpandw/xo" [cX; cO] (ro i_vpexpandw) r_vpexpandw_xo VlRegs) (ro MnemonicAvx32.i_vpexpandw));
  (false, en32 (mkEntry "vcvttps2ibs/xo" [cX; cO] (ro i_vcvttps2ibs) r_vcvttps2ibs_xo VlRegs) (ro MnemonicAvx32.i_vcvttps2ibs));
  (false, en32 (mkEntry "vcvttps2iubs/xo" [cX; cO] (ro i_vcvttps2iubs) r_vcvttps2iubs_xo VlRegs) (ro MnemonicAvx32.i_vcvttps2iubs));
  (false, en32 (mkEntry "vcvttph2ibs/xo" [cX; cO] (ro i_vcvttph2ibs) r_vcvttph2ibs_xo VlRegs) (ro MnemonicAvx32.i_vcvttph2ibs));
  (false, en32 (mkEntry "vcvttph2iubs/xo" [cX; cO] (ro i_vcvttph2iubs) r_vcvttph2iubs_xo VlRegs) (ro MnemonicAvx32.i_vcvttph2iubs));
  (false, en32 (mkEntry "vpopcntb/xo" [cX; cO] (ro i_vpopcntb) r_vpopcntb_xo VlRegs) (ro MnemonicAvx32.i_vpopcntb));
  (false, en32 (mkEntry "vpopcntw/xo" [cX; cO] (ro i_vpopcntw) r_vpopcntw_xo VlRegs) (ro MnemonicAvx32.i_vpopcntw));
  (false, en32 (mkEntry "vpopcntd/xo" [cX; cO] (ro i_vpopcntd) r_vpopcntd_xo VlRegs) (ro MnemonicAvx32.i_vpopcntd));
  (false, en32 (mkEntry "vpopcntq/xo" [cX; cO] (ro i_vpopcntq) r_vpopcntq_xo VlRegs) (ro MnemonicAvx32.i_vpopcntq));
  (false, en32 (mkEntry "vmovdqa32/ax" [cA; cX] (ar i_vmovdqa32_ax) r_vmovdqa32_ax VlRegs) (ar MnemonicAvx32.i_vmovdqa32_ax));
  (false, en32 (mkEntry "vmovdqa64/ax" [cA; cX] (ar i_vmovdqa64_ax) r_vmovdqa64_ax VlRegs) (ar MnemonicAvx32.i_vmovdqa64_ax));
  (false, en32 (mkEntry "vmovdqu8/ax" [cA; cX] (ar i_vmovdqu8_ax) r_vmovdqu8_ax VlRegs) (ar MnemonicAvx32.i_vmovdqu8_ax));
  (false, en32 (mkEntry "vmovdqu16/ax" [cA; cX] (ar i_vmovdqu16_ax) r_vmovdqu16_ax VlRegs) (ar MnemonicAvx32.i_vmovdqu16_ax));
  (false, en32 (mkEntry "vmovdqu32/ax" [cA; cX] (ar i_vmovdqu32_ax) r_vmovdqu32_ax VlRegs) (ar MnemonicAvx32.i_vmovdqu32_ax));
  (false, en32 (mkEntry "vmovdqu64/ax" [cA; cX] (ar i_vmovdqu64_ax) r_vmovdqu64_ax VlRegs) (ar MnemonicAvx32.i_vmovdqu64_ax));
  (false, en32 (mkEntry "vcompressps/ox" [cO; cX] (or_ i_vcompressps) r_vcompressps_ox VlRegs) (or_ MnemonicAvx32.i_vcompressps))].
Lemma vex32_21_ok : Forall (fun p => implements32 (fst p) (snd p)) (vex32_21).
Proof. unfold vex32_21.
vrow_ tab27_ok 0%nat sims30_ok start30 4%nat.
vrow_ tab28_ok 0%nat sims30_ok start30 5%nat.
vrow_ tab28_ok 1%nat sims43_ok start43 3%nat.
vrow_ tab28_ok 2%nat sims43_ok start43 6%nat.
vrow_ tab28_ok 3%nat sims43_ok start43 4%nat.
vrow_ tab28_ok 4%nat sims43_ok start43 5%nat.
vrow_ tab29_ok 0%nat sims40_ok start40 15%nat.
vrow_ tab29_ok 1%nat sims68_ok start68 12%nat.
vrow_ tab29_ok 2%nat sims68_ok start68 14%nat.
vrow_ tab29_ok 3%nat sims68_ok start68 22%nat.
vrow_ tab29_ok 4%nat sims68_ok start68 16%nat.
vrow_ tab29_ok 5%nat sims68_ok start68 18%nat.
vrow_ tab29_ok 6%nat sims68_ok start68 20%nat.
vrow_ tab29_ok 7%nat sims71_ok start71 20%nat.
vrow_ tab29_ok 8%nat sims71_ok start71 23%nat.
vrow_ tab29_ok 9%nat sims62_ok start62 13%nat.
vrow_ tab29_ok 10%nat sims62_ok start62 14%nat.
vrow_ tab29_ok 11%nat sims62_ok start62 5%nat.
vrow_ tab29_ok 12%nat sims62_ok start62 6%nat.
vrow_ tab29_ok 13%nat sims73_ok start73 14%nat.
vrow_ tab29_ok 14%nat sims73_ok start73 17%nat.
vrow_ tab29_ok 15%nat sims73_ok start73 15%nat.
vrow_ tab29_ok 16%nat sims73_ok start73 16%nat.
vrow_ tab30_ok 0%nat sims68_ok start68 11%nat.
vrow_ tab30_ok 1%nat sims68_ok start68 13%nat.
vrow_ tab30_ok 2%nat sims68_ok start68 21%nat.
vrow_ tab30_ok 3%nat sims68_ok start68 15%nat.
vrow_ tab30_ok 4%nat sims68_ok start68 17%nat.
vrow_ tab30_ok 5%nat sims68_ok start68 19%nat.
vrow_ tab31_ok 0%nat sims59_ok start59 15%nat.
apply Forall_nil. Qed.
Definition vex32_22 : list (bool * entry) := [
  (false, en32 (mkEntry "vcompresspd/ox" [cO; cX] (or_ i_vcompresspd) r_vcompresspd_ox VlRegs) (or_ MnemonicAvx32.i_vcompresspd));
  (false, en32 (mkEntry "vpcompressd/ox" [cO; cX] (or_ i_vpcompressd) r_vpcompressd_ox VlRegs) (or_ MnemonicAvx32.i_vpcompressd));
  (false, en32 (mkEntry "vpcompressq/ox" [cO; cX] (or_ i_vpcompressq) r_vpcompressq_ox VlRegs) (or_ MnemonicAvx32.i_vpcompressq));
  (false, en32 (mkEntry "vpcompressb/ox" [cO; cX] (or_ i_vpcompressb) r_vpcompressb_ox VlRegs) (or_ MnemonicAvx32.i_vpcompressb));
  (false, en32 (mkEntry "vpcompressw/ox" [cO; cX] (or_ i_vpcompressw) r_vpcompressw_ox VlRegs) (or_ MnemonicAvx32.i_vpcompressw));
  (false, en32 (mkEntry "vcvtps2qq/xo" [cX; cO] (ro i_vcvtps2qq) r_vcvtps2qq_xo VlRegs) (ro MnemonicAvx32.i_vcvtps2qq));
  (false, en32 (mkEntry "vcvtps2uqq/xo" [cX; cO] (ro i_vcvtps2uqq) r_vcvtps2uqq_xo VlRegs) (ro MnemonicAvx32.i_vcvtps2uqq));
  (false, en32 (mkEntry "vcvttps2qq/xo" [cX; cO] (ro i_vcvttps2qq) r_vcvttps2qq_xo VlRegs) (ro MnemonicAvx32.i_vcvttps2qq));
  (false, en32 (mkEntry "vcvttps2uqq/xo" [cX; cO] (ro i_vcvttps2uqq) r_vcvttps2uqq_xo VlRegs) (ro MnemonicAvx32.i_vcvttps2uqq));
  (false, en32 (mkEntry "vcvtudq2pd/xo" [cX; cO] (ro i_vcvtudq2pd) r_vcvtudq2pd_xo VlRegs) (ro MnemonicAvx32.i_vcvtudq2pd));
  (false, en32 (mkEntry "vcvtph2dq/xo" [cX; cO] (ro i_vcvtph2dq) r_vcvtph2dq_xo VlRegs) (ro MnemonicAvx32.i_vcvtph2dq));
  (false, en32 (mkEntry "vcvttph2dq/xo" [cX; cO] (ro i_vcvttph2dq) r_vcvttph2dq_xo VlRegs) (ro MnemonicAvx32.i_vcvttph2dq));
  (false, en32 (mkEntry "vcvtph2udq/xo" [cX; cO] (ro i_vcvtph2udq) r_vcvtph2udq_xo VlRegs) (ro MnemonicAvx32.i_vcvtph2udq));
  (false, en32 (mkEntry "vcvttph2udq/xo" [cX; cO] (ro i_vcvttph2udq) r_vcvttph2udq_xo VlRegs) (ro MnemonicAvx32.i_vcvttph2udq));
  (false, en32 (mkEntry "vcvtph2psx/xo" [cX; cO] (ro i_vcvtph2psx) r_vcvtph2psx_xo VlRegs) (ro MnemonicAvx32.i_vcvtph2psx));
  (false, en32 (mkEntry "vcvttps2qqs/xo" [cX; cO] (ro i_vcvttps2qqs) r_vcvttps2qqs_xo VlRegs) (ro MnemonicAvx32.i_vcvttps2qqs));
  (false, en32 (mkEntry "vcvttps2uqqs/xo" [cX; cO] (ro i_vcvttps2uqqs) r_vcvttps2uqqs_xo VlRegs) (ro MnemonicAvx32.i_vcvttps2uqqs));
  (false, en32 (mkEntry "vcvtdq2pd/xo" [cX; cO] (ro i_vcvtdq2pd) r_vcvtdq2pd_xo VlRegs) (ro Mnemonic32.i_vcvtdq2pd));
  (false, en32 (mkEntry "vcvtps2pd/xo" [cX; cO] (ro i_vcvtps2pd) r_vcvtps2pd_xo VlRegs) (ro Mnemonic32.i_vcvtps2pd));
  (false, en32 (mkEntry "vcvtph2ps/xo" [cX; cO] (ro i_vcvtph2ps) r_vcvtph2ps_xo VlRegs) (ro Mnemonic32.i_vcvtph2ps));
  (false, en32 (mkEntry "vcvtph2qq/xo" [cX; cO] (ro i_vcvtph2qq) r_vcvtph2qq_xo VlRegs) (ro MnemonicAvx32.i_vcvtph2qq));
  (false, en32 (mkEntry "vcvttph2qq/xo" [cX; cO] (ro i_vcvttph2qq) r_vcvttph2qq_xo VlRegs) (ro MnemonicAvx32.i_vcvttph2qq));
  (false, en32 (mkEntry "vcvtph2uqq/xo" [cX; cO] (ro i_vcvtph2uqq) r_vcvtph2uqq_xo VlRegs) (ro MnemonicAvx32.i_vcvtph2uqq));
  (false, en32 (mkEntry "vcvttph2uqq/xo" [cX; cO] (ro i_vcvttph2uqq) r_vcvttph2uqq_xo VlRegs) (ro MnemonicAvx32.i_vcvttph2uqq));
  (false, en32 (mkEntry "vcvtph2pd/xo" [cX; cO] (ro i_vcvtph2pd) r_vcvtph2pd_xo VlRegs) (ro MnemonicAvx32.i_vcvtph2pd));
  (false, en32 (mkEntry "vcvtdq2ph/xo" [cX; cO] (ro i_vcvtdq2ph) r_vcvtdq2ph_xo VlHalf) (ro MnemonicAvx32.i_vcvtdq2ph));
  (false, en32 (mkEntry "vcvtps2phx/xo" [cX; cO] (ro i_vcvtps2phx) r_vcvtps2phx_xo VlHalf) (ro MnemonicAvx32.i_vcvtps2phx));
  (false, en32 (mkEntry "vcvtudq2ph/xo" [cX; cO] (ro i_vcvtudq2ph) r_vcvtudq2ph_xo VlHalf) (ro MnemonicAvx32.i_vcvtudq2ph));
  (false, en32 (mkEntry "vcvtpd2ph/xo" [cX; cO] (ro i_vcvtpd2ph) r_vcvtpd2ph_xo VlMem) (ro MnemonicAvx32.i_vcvtpd2ph));
  (false, en32 (mkEntry "vcvtqq2ph/xo" [cX; cO] (ro i_vcvtqq2ph) r_vcvtqq2ph_xo VlMem) (ro MnemonicAvx32.i_vcvtqq2ph))].
Lemma vex32_22_ok : Forall (fun p => implements32 (fst p) (snd p)) (vex32_22).
Proof. unfold vex32_22.
vrow_ tab31_ok 1%nat sims59_ok start59 14%nat.
vrow_ tab31_ok 2%nat sims70_ok start70 14%nat.
vrow_ tab31_ok 3%nat sims70_ok start70 15%nat.
vrow_ tab31_ok 4%nat sims70_ok start70 13%nat.
vrow_ tab31_ok 5%nat sims70_ok start70 16%nat.
vrow_ tab32_ok 0%nat sims61_ok start61 5%nat.
vrow_ tab32_ok 1%nat sims61_ok start61 7%nat.
vrow_ tab32_ok 2%nat sims62_ok start62 15%nat.
vrow_ tab32_ok 3%nat sims62_ok start62 19%nat.
vrow_ tab32_ok 4%nat sims63_ok start63 4%nat.
vrow_ tab32_ok 5%nat sims60_ok start60 17%nat.
vrow_ tab32_ok 6%nat sims62_ok start62 4%nat.
vrow_ tab32_ok 7%nat sims60_ok start60 23%nat.
vrow_ tab32_ok 8%nat sims62_ok start62 8%nat.
vrow_ tab32_ok 9%nat sims60_ok start60 21%nat.
vrow_ tab32_ok 10%nat sims62_ok start62 16%nat.
vrow_ tab32_ok 11%nat sims62_ok start62 20%nat.
vrow_ tab32_ok 12%nat sims35_ok start35 15%nat.
vrow_ tab32_ok 13%nat sims36_ok start36 1%nat.
vrow_ tab32_ok 14%nat sims35_ok start35 24%nat.
vrow_ tab33_ok 0%nat sims60_ok start60 22%nat.
vrow_ tab33_ok 1%nat sims62_ok start62 7%nat.
vrow_ tab33_ok 2%nat sims60_ok start60 24%nat.
vrow_ tab33_ok 3%nat sims62_ok start62 9%nat.
vrow_ tab33_ok 4%nat sims60_ok start60 20%nat.
vrow_ tab34_ok 0%nat sims60_ok start60 0%nat.
vrow_ tab34_ok 1%nat sims61_ok start61 4%nat.
vrow_ tab34_ok 2%nat sims63_ok start63 5%nat.
vrow_ tab35_ok 0%nat sims60_ok start60 13%nat.
vrow_ tab35_ok 1%nat sims61_ok start61 9%nat.
apply Forall_nil. Qed.
Definition vex32_23 : list (bool * entry) := [
  (false, en32 (mkEntry "vcvtuqq2ph/xo" [cX; cO] (ro i_vcvtuqq2ph) r_vcvtuqq2ph_xo VlMem) (ro MnemonicAvx32.i_vcvtuqq2ph));
  (false, en32 (mkEntry "vcvtps2ph/oxi" [cO; cX] (ori i_vcvtps2ph) r_vcvtps2ph_oxi VlRegs) (ori Mnemonic32.i_vcvtps2ph));
  (false, en32 (mkEntry "vcmpps/kxoi" [cK; cX; cO] (rroi i_vcmpps_kxoi) r_vcmpps_kxoi VlRegs) (rroi MnemonicAvx32.i_vcmpps_kxoi));
  (false, en32 (mkEntry "vcmppd/kxoi" [cK; cX; cO] (rroi i_vcmppd_kxoi) r_vcmppd_kxoi VlRegs) (rroi MnemonicAvx32.i_vcmppd_kxoi));
  (false, en32 (mkEntry "vcmpss/kxoi" [cK; cX; cO] (rroi i_vcmpss_kxoi) r_vcmpss_kxoi VlRegs) (rroi MnemonicAvx32.i_vcmpss_kxoi));
  (false, en32 (mkEntry "vcmpsd/kxoi" [cK; cX; cO] (rroi i_vcmpsd_kxoi) r_vcmpsd_kxoi VlRegs) (rroi MnemonicAvx32.i_vcmpsd_kxoi));
  (false, en32 (mkEntry "vcmpph/kxoi" [cK; cX; cO] (rroi i_vcmpph) r_vcmpph_kxoi VlRegs) (rroi MnemonicAvx32.i_vcmpph));
  (false, en32 (mkEntry "vcmpsh/kxoi" [cK; cX; cO] (rroi i_vcmpsh) r_vcmpsh_kxoi VlRegs) (rroi MnemonicAvx32.i_vcmpsh));
  (false, en32 (mkEntry "vpcmpb/kxoi" [cK; cX; cO] (rroi i_vpcmpb) r_vpcmpb_kxoi VlRegs) (rroi MnemonicAvx32.i_vpcmpb));
  (false, en32 (mkEntry "vpcmpw/kxoi" [cK; cX; cO] (rroi i_vpcmpw) r_vpcmpw_kxoi VlRegs) (rroi MnemonicAvx32.i_vpcmpw));
  (false, en32 (mkEntry "vpcmpub/kxoi" [cK; cX; cO] (rroi i_vpcmpub) r_vpcmpub_kxoi VlRegs) (rroi MnemonicAvx32.i_vpcmpub));
  (false, en32 (mkEntry "vpcmpuw/kxoi" [cK; cX; cO] (rroi i_vpcmpuw) r_vpcmpuw_kxoi VlRegs) (rroi MnemonicAvx32.i_vpcmpuw));
  (false, en32 (mkEntry "vpcmpd/kxoi" [cK; cX; cO] (rroi i_vpcmpd) r_vpcmpd_kxoi VlRegs) (rroi MnemonicAvx32.i_vpcmpd));
  (false, en32 (mkEntry "vpcmpq/kxoi" [cK; cX; cO] (rroi i_vpcmpq) r_vpcmpq_kxoi VlRegs) (rroi MnemonicAvx32.i_vpcmpq));
  (false, en32 (mkEntry "vpcmpud/kxoi" [cK; cX; cO] (rroi i_vpcmpud) r_vpcmpud_kxoi VlRegs) (rroi MnemonicAvx32.i_vpcmpud));
  (false, en32 (mkEntry "vpcmpuq/kxoi" [cK; cX; cO] (rroi i_vpcmpuq) r_vpcmpuq_kxoi VlRegs) (rroi MnemonicAvx32.i_vpcmpuq));
  (false, en32 (mkEntry "vcmppbf16/kxoi" [cK; cX; cO] (rroi i_vcmppbf16) r_vcmppbf16_kxoi VlRegs) (rroi MnemonicAvx32.i_vcmppbf16));
  (false, en32 (mkEntry "vpcmpeqb/kxo" [cK; cX; cO] (rro i_vpcmpeqb_kxo) r_vpcmpeqb_kxo VlRegs) (rro MnemonicAvx32.i_vpcmpeqb_kxo));
  (false, en32 (mkEntry "vpcmpeqw/kxo" [cK; cX; cO] (rro i_vpcmpeqw_kxo) r_vpcmpeqw_kxo VlRegs) (rro MnemonicAvx32.i_vpcmpeqw_kxo));
  (false, en32 (mkEntry "vpcmpeqd/kxo" [cK; cX; cO] (rro i_vpcmpeqd_kxo) r_vpcmpeqd_kxo VlRegs) (rro MnemonicAvx32.i_vpcmpeqd_kxo));
  (false, en32 (mkEntry "vpcmpeqq/kxo" [cK; cX; cO] (rro i_vpcmpeqq_kxo) r_vpcmpeqq_kxo VlRegs) (rro MnemonicAvx32.i_vpcmpeqq_kxo));
  (false, en32 (mkEntry "vpcmpgtb/kxo" [cK; cX; cO] (rro i_vpcmpgtb_kxo) r_vpcmpgtb_kxo VlRegs) (rro MnemonicAvx32.i_vpcmpgtb_kxo));
  (false, en32 (mkEntry "vpcmpgtw/kxo" [cK; cX; cO] (rro i_vpcmpgtw_kxo) r_vpcmpgtw_kxo VlRegs) (rro MnemonicAvx32.i_vpcmpgtw_kxo));
  (false, en32 (mkEntry "vpcmpgtd/kxo" [cK; cX; cO] (rro i_vpcmpgtd_kxo) r_vpcmpgtd_kxo VlRegs) (rro MnemonicAvx32.i_vpcmpgtd_kxo));
  (false, en32 (mkEntry "vpcmpgtq/kxo" [cK; cX; cO] (rro i_vpcmpgtq_kxo) r_vpcmpgtq_kxo VlRegs) (rro MnemonicAvx32.i_vpcmpgtq_kxo));
  (false, en32 (mkEntry "vptestmb/kxo" [cK; cX; cO] (rro i_vptestmb) r_vptestmb_kxo VlRegs) (rro MnemonicAvx32.i_vptestmb));
  (false, en32 (mkEntry "vptestmw/kxo" [cK; cX; cO] (rro i_vptestmw) r_vptestmw_kxo VlRegs) (rro MnemonicAvx32.i_vptestmw));
  (false, en32 (mkEntry "vptestmd/kxo" [cK; cX; cO] (rro i_vptestmd) r_vptestmd_kxo VlRegs) (rro MnemonicAvx32.i_vptestmd));
  (false, en32 (mkEntry "vptestmq/kxo" [cK; cX; cO] (rro i_vptestmq) r_vptestmq_kxo VlRegs) (rro MnemonicAvx32.i_vptestmq));
  (false, en32 (mkEntry "vptestnmb/kxo" [cK; cX; cO] (rro i_vptestnmb) r_vptestnmb_kxo VlRegs) (rro MnemonicAvx32.i_vptestnmb))].
Lemma vex32_23_ok : Forall (fun p => implements32 (fst p) (snd p)) (vex32_23).
Proof. unfold vex32_23.
vrow_ tab35_ok 2%nat sims63_ok start63 8%nat.
vrow_ tab36_ok 0%nat sims36_ok start36 2%nat.
vrow_ tab37_ok 0%nat sims54_ok start54 5%nat.
vrow_ tab37_ok 1%nat sims54_ok start54 3%nat.
vrow_ tab37_ok 2%nat sims54_ok start54 9%nat.
vrow_ tab37_ok 3%nat sims54_ok start54 7%nat.
vrow_ tab37_ok 4%nat sims58_ok start58 20%nat.
vrow_ tab37_ok 5%nat sims58_ok start58 21%nat.
vrow_ tab37_ok 6%nat sims69_ok start69 22%nat.
vrow_ tab37_ok 7%nat sims70_ok start70 12%nat.
vrow_ tab37_ok 8%nat sims70_ok start70 8%nat.
vrow_ tab37_ok 9%nat sims70_ok start70 11%nat.
vrow_ tab37_ok 10%nat sims69_ok start69 23%nat.
vrow_ tab37_ok 11%nat sims70_ok start70 7%nat.
vrow_ tab37_ok 12%nat sims70_ok start70 9%nat.
vrow_ tab37_ok 13%nat sims70_ok start70 10%nat.
vrow_ tab38_ok 0%nat sims58_ok start58 19%nat.
vrow_ tab39_ok 0%nat sims69_ok start69 24%nat.
vrow_ tab39_ok 1%nat sims70_ok start70 2%nat.
vrow_ tab39_ok 2%nat sims70_ok start70 0%nat.
vrow_ tab39_ok 3%nat sims70_ok start70 1%nat.
vrow_ tab39_ok 4%nat sims70_ok start70 3%nat.
vrow_ tab39_ok 5%nat sims70_ok start70 6%nat.
vrow_ tab39_ok 6%nat sims70_ok start70 4%nat.
vrow_ tab39_ok 7%nat sims70_ok start70 5%nat.
vrow_ tab39_ok 8%nat sims75_ok start75 3%nat.
vrow_ tab39_ok 9%nat sims75_ok start75 6%nat.
vrow_ tab39_ok 10%nat sims75_ok start75 4%nat.
vrow_ tab39_ok 11%nat sims75_ok start75 5%nat.
vrow_ tab39_ok 12%nat sims75_ok start75 7%nat.
apply Forall_nil. Qed.
Definition vex32_24 : list (bool * entry) := [
  (false, en32 (mkEntry "vptestnmw/kxo" [cK; cX; cO] (rro i_vptestnmw) r_vptestnmw_kxo VlRegs) (rro MnemonicAvx32.i_vptestnmw));
  (false, en32 (mkEntry "vptestnmd/kxo" [cK; cX; cO] (rro i_vptestnmd) r_vptestnmd_kxo VlRegs) (rro MnemonicAvx32.i_vptestnmd));
  (false, en32 (mkEntry "vptestnmq/kxo" [cK; cX; cO] (rro i_vptestnmq) r_vptestnmq_kxo VlRegs) (rro MnemonicAvx32.i_vptestnmq));
  (false, en32 (mkEntry "vfpclassps/koi" [cK; cO] (roi i_vfpclassps) r_vfpclassps_koi VlMem) (roi MnemonicAvx32.i_vfpclassps));
  (false, en32 (mkEntry "vfpclasspd/koi" [cK; cO] (roi i_vfpclasspd) r_vfpclasspd_koi VlMem) (roi MnemonicAvx32.i_vfpclasspd));
  (false, en32 (mkEntry "vfpclassph/koi" [cK; cO] (roi i_vfpclassph) r_vfpclassph_koi VlMem) (roi MnemonicAvx32.i_vfpclassph));
  (false, en32 (mkEntry "vfpclassss/koi" [cK; cO] (roi i_vfpclassss) r_vfpclassss_koi VlAll) (roi MnemonicAvx32.i_vfpclassss));
  (false, en32 (mkEntry "vfpclasssd/koi" [cK; cO] (roi i_vfpclasssd) r_vfpclasssd_koi VlAll) (roi MnemonicAvx32.i_vfpclasssd));
  (false, en32 (mkEntry "vfpclasssh/koi" [cK; cO] (roi i_vfpclasssh) r_vfpclasssh_koi VlAll) (roi MnemonicAvx32.i_vfpclasssh));
  (false, en32 (mkEntry "vpshufbitqmb/kxo" [cK; cX; cO] (rro i_vpshufbitqmb) r_vpshufbitqmb_kxo VlRegs) (rro MnemonicAvx32.i_vpshufbitqmb));
  (false, en32 (mkEntry "vpmovb2m/kx" [cK; cX] (rr i_vpmovb2m) r_vpmovb2m_kx VlAll) (rr MnemonicAvx32.i_vpmovb2m));
  (false, en32 (mkEntry "vpmovw2m/kx" [cK; cX] (rr i_vpmovw2m) r_vpmovw2m_kx VlAll) (rr MnemonicAvx32.i_vpmovw2m));
  (false, en32 (mkEntry "vpmovd2m/kx" [cK; cX] (rr i_vpmovd2m) r_vpmovd2m_kx VlAll) (rr MnemonicAvx32.i_vpmovd2m));
  (false, en32 (mkEntry "vpmovq2m/kx" [cK; cX] (rr i_vpmovq2m) r_vpmovq2m_kx VlAll) (rr MnemonicAvx32.i_vpmovq2m));
  (false, en32 (mkEntry "vpmovm2b/xk" [cX; cK] (rr i_vpmovm2b) r_vpmovm2b_xk VlRegs) (rr MnemonicAvx32.i_vpmovm2b));
  (false, en32 (mkEntry "vpmovm2w/xk" [cX; cK] (rr i_vpmovm2w) r_vpmovm2w_xk VlRegs) (rr MnemonicAvx32.i_vpmovm2w));
  (false, en32 (mkEntry "vpmovm2d/xk" [cX; cK] (rr i_vpmovm2d) r_vpmovm2d_xk VlRegs) (rr MnemonicAvx32.i_vpmovm2d));
  (false, en32 (mkEntry "vpmovm2q/xk" [cX; cK] (rr i_vpmovm2q) r_vpmovm2q_xk VlRegs) (rr MnemonicAvx32.i_vpmovm2q));
  (false, en32 (mkEntry "vpbroadcastmb2q/xk" [cX; cK] (rr i_vpbroadcastmb2q) r_vpbroadcastmb2q_xk VlRegs) (rr MnemonicAvx32.i_vpbroadcastmb2q));
  (false, en32 (mkEntry "vpbroadcastmw2d/xk" [cX; cK] (rr i_vpbroadcastmw2d) r_vpbroadcastmw2d_xk VlRegs) (rr MnemonicAvx32.i_vpbroadcastmw2d));
  (false, en32 (mkEntry "vpbroadcastb/xb" [cX; cR 8] (rr i_vpbroadcastb_xb) r_vpbroadcastb_xb VlRegs) (rr MnemonicAvx32.i_vpbroadcastb_xb));
  (false, en32 (mkEntry "vpbroadcastw/xw" [cX; cR 16] (rr i_vpbroadcastw_xw) r_vpbroadcastw_xw VlRegs) (rr MnemonicAvx32.i_vpbroadcastw_xw));
  (false, en32 (mkEntry "vpbroadcastd/xd" [cX; cR 32] (rr i_vpbroadcastd_xd) r_vpbroadcastd_xd VlRegs) (rr MnemonicAvx32.i_vpbroadcastd_xd));
  (false, en32 (mkEntry "vbcstnesh2ps/xa" [cX; cA] (ra i_vbcstnesh2ps) r_vbcstnesh2ps_xa VlRegs) (ra Mnemonic32.i_vbcstnesh2ps));
  (false, en32 (mkEntry "vbcstnebf162ps/xa" [cX; cA] (ra i_vbcstnebf162ps) r_vbcstnebf162ps_xa VlRegs) (ra Mnemonic32.i_vbcstnebf162ps));
  (false, en32 (mkEntry "vcvtneeph2ps/xa" [cX; cA] (ra i_vcvtneeph2ps) r_vcvtneeph2ps_xa VlRegs) (ra Mnemonic32.i_vcvtneeph2ps));
  (false, en32 (mkEntry "vcvtneebf162ps/xa" [cX; cA] (ra i_vcvtneebf162ps) r_vcvtneebf162ps_xa VlRegs) (ra Mnemonic32.i_vcvtneebf162ps));
  (false, en32 (mkEntry "vcvtneobf162ps/xa" [cX; cA] (ra i_vcvtneobf162ps) r_vcvtneobf162ps_xa VlRegs) (ra Mnemonic32.i_vcvtneobf162ps));
  (false, en32 (mkEntry "vcvtneoph2ps/xa" [cX; cA] (ra i_vcvtneoph2ps) r_vcvtneoph2ps_xa VlRegs) (ra Mnemonic32.i_vcvtneoph2ps));
  (false, en32 (mkEntry "vmovntdqa/xa" [cX; cA] (ra i_vmovntdqa) r_vmovntdqa_xa VlRegs) (ra Mnemonic32.i_vmovntdqa))].
Lemma vex32_24_ok : Forall (fun p => implements32 (fst p) (snd p)) (vex32_24).
Proof. unfold vex32_24.
vrow_ tab39_ok 13%nat sims75_ok start75 10%nat.
vrow_ tab39_ok 14%nat sims75_ok start75 8%nat.
vrow_ tab39_ok 15%nat sims75_ok start75 9%nat.
vrow_ tab40_ok 0%nat sims66_ok start66 10%nat.
vrow_ tab40_ok 1%nat sims66_ok start66 8%nat.
vrow_ tab40_ok 2%nat sims66_ok start66 9%nat.
vrow_ tab41_ok 0%nat sims66_ok start66 13%nat.
vrow_ tab41_ok 1%nat sims66_ok start66 11%nat.
vrow_ tab41_ok 2%nat sims66_ok start66 12%nat.
vrow_ tab43_ok 0%nat sims74_ok start74 19%nat.
vrow_ tab44_ok 0%nat sims72_ok start72 11%nat.
vrow_ tab44_ok 1%nat sims73_ok start73 10%nat.
vrow_ tab44_ok 2%nat sims72_ok start72 12%nat.
vrow_ tab44_ok 3%nat sims72_ok start72 19%nat.
vrow_ tab45_ok 0%nat sims72_ok start72 15%nat.
vrow_ tab45_ok 1%nat sims72_ok start72 18%nat.
vrow_ tab45_ok 2%nat sims72_ok start72 16%nat.
vrow_ tab45_ok 3%nat sims72_ok start72 17%nat.
vrow_ tab45_ok 4%nat sims69_ok start69 19%nat.
vrow_ tab45_ok 5%nat sims69_ok start69 20%nat.
vrow_ tab45_ok 6%nat sims69_ok start69 17%nat.
vrow_ tab45_ok 7%nat sims69_ok start69 21%nat.
vrow_ tab45_ok 8%nat sims69_ok start69 18%nat.
vrow_ tab46_ok 0%nat sims29_ok start29 22%nat.
vrow_ tab46_ok 1%nat sims29_ok start29 21%nat.
vrow_ tab46_ok 2%nat sims35_ok start35 18%nat.
vrow_ tab46_ok 3%nat sims35_ok start35 17%nat.
vrow_ tab46_ok 4%nat sims35_ok start35 19%nat.
vrow_ tab46_ok 5%nat sims35_ok start35 20%nat.
vrow_ tab46_ok 6%nat sims41_ok start41 6%nat.
apply Forall_nil. Qed.
Definition vex32_25 : list (bool * entry) := [
  (false, en32 (mkEntry "vextractf128/oyi" [cO; cY] (ori i_vextractf128) r_vextractf128_oyi VlRegs) (ori Mnemonic32.i_vextractf128));
  (false, en32 (mkEntry "vextracti128/oyi" [cO; cY] (ori i_vextracti128) r_vextracti128_oyi VlRegs) (ori Mnemonic32.i_vextracti128));
  (false, en32 (mkEntry "vinsertf128/yyoi" [cY; cY; cO] (rroi i_vinsertf128) r_vinsertf128_yyoi VlRegs) (rroi Mnemonic32.i_vinsertf128));
  (false, en32 (mkEntry "vinserti128/yyoi" [cY; cY; cO] (rroi i_vinserti128) r_vinserti128_yyoi VlRegs) (rroi Mnemonic32.i_vinserti128));
  (false, en32 (mkEntry "vperm2f128/yyoi" [cY; cY; cO] (rroi i_vperm2f128) r_vperm2f128_yyoi VlRegs) (rroi Mnemonic32.i_vperm2f128));
  (false, en32 (mkEntry "vperm2i128/yyoi" [cY; cY; cO] (rroi i_vperm2i128) r_vperm2i128_yyoi VlRegs) (rroi Mnemonic32.i_vperm2i128));
  (false, en32 (mkEntry "vextractps/oxi" [cO; cX] (ori i_vextractps) r_vextractps_oxi VlRegs) (ori Mnemonic32.i_vextractps));
  (false, en32 (mkEntry "vpextrd/oxi" [cO; cX] (ori i_vpextrd) r_vpextrd_oxi VlRegs) (ori Mnemonic32.i_vpextrd));
  (false, en32 (mkEntry "vpextrq/oxi" [cO; cX] (ori i_vpextrq) r_vpextrq_oxi VlRegs) (ori Mnemonic32.i_vpextrq));
  (false, en32 (mkEntry "vmovntdq/ax" [cA; cX] (ar i_vmovntdq) r_vmovntdq_ax VlRegs) (ar Mnemonic32.i_vmovntdq));
  (false, en32 (mkEntry "vmovntpd/ax" [cA; cX] (ar i_vmovntpd) r_vmovntpd_ax VlRegs) (ar Mnemonic32.i_vmovntpd));
  (false, en32 (mkEntry "vmovntps/ax" [cA; cX] (ar i_vmovntps) r_vmovntps_ax VlRegs) (ar Mnemonic32.i_vmovntps));
  (false, en32 (mkEntry "vpextrb/oxi" [cO; cX] (ori i_vpextrb) r_vpextrb_oxi VlRegs) (ori Mnemonic32.i_vpextrb));
  (false, en32 (mkEntry "vpinsrb/xxoi" [cX; cX; cO] (rroi i_vpinsrb_xxoi) r_vpinsrb_xxoi VlRegs) (rroi Mnemonic32.i_vpinsrb_xxoi));
  (false, en32 (mkEntry "vpinsrw/xxoi" [cX; cX; cO] (rroi i_vpinsrw_xxoi) r_vpinsrw_xxoi VlRegs) (rroi Mnemonic32.i_vpinsrw_xxoi));
  (false, en32 (mkEntry "vpinsrd/xxoi" [cX; cX; cO] (rroi i_vpinsrd_xxoi) r_vpinsrd_xxoi VlRegs) (rroi Mnemonic32.i_vpinsrd_xxoi));
  (false, en32 (mkEntry "vpinsrq/xxoi" [cX; cX; cO] (rroi i_vpinsrq_xxoi) r_vpinsrq_xxoi VlRegs) (rroi Mnemonic32.i_vpinsrq_xxoi));
  (false, en32 (mkEntry "vpmovmskb/ex" [cRe; cX] (rr i_vpmovmskb) r_vpmovmskb_ex VlAll) (rr Mnemonic32.i_vpmovmskb));
  (false, en32 (mkEntry "vsha512msg1/yx" [cY; cX] (rr i_vsha512msg1) r_vsha512msg1_yx VlRegs) (rr Mnemonic32.i_vsha512msg1));
  (false, en32 (mkEntry "vsha512msg2/yy" [cY; cY] (rr i_vsha512msg2) r_vsha512msg2_yy VlRegs) (rr Mnemonic32.i_vsha512msg2));
  (false, en32 (mkEntry "vsha512rnds2/yyx" [cY; cY; cX] (rrr i_vsha512rnds2) r_vsha512rnds2_yyx VlRegs) (rrr Mnemonic32.i_vsha512rnds2));
  (false, en32 (mkEntry "vextractf32x4/oyi" [cO; cY] (ori i_vextractf32x4) r_vextractf32x4_oyi VlRegs) (ori MnemonicAvx32.i_vextractf32x4));
  (false, en32 (mkEntry "vextracti32x4/oyi" [cO; cY] (ori i_vextracti32x4) r_vextracti32x4_oyi VlRegs) (ori MnemonicAvx32.i_vextracti32x4));
  (false, en32 (mkEntry "vextractf64x2/oyi" [cO; cY] (ori i_vextractf64x2) r_vextractf64x2_oyi VlRegs) (ori MnemonicAvx32.i_vextractf64x2));
  (false, en32 (mkEntry "vextracti64x2/oyi" [cO; cY] (ori i_vextracti64x2) r_vextracti64x2_oyi VlRegs) (ori MnemonicAvx32.i_vextracti64x2));
  (false, en32 (mkEntry "vinsertf32x4/yyoi" [cY; cY; cO] (rroi i_vinsertf32x4) r_vinsertf32x4_yyoi VlRegs) (rroi MnemonicAvx32.i_vinsertf32x4));
  (false, en32 (mkEntry "vinserti32x4/yyoi" [cY; cY; cO] (rroi i_vinserti32x4) r_vinserti32x4_yyoi VlRegs) (rroi MnemonicAvx32.i_vinserti32x4));
  (false, en32 (mkEntry "vinsertf64x2/yyoi" [cY; cY; cO] (rroi i_vinsertf64x2) r_vinsertf64x2_yyoi VlRegs) (rroi MnemonicAvx32.i_vinsertf64x2));
  (false, en32 (mkEntry "vinserti64x2/yyoi" [cY; cY; cO] (rroi i_vinserti64x2) r_vinserti64x2_yyoi VlRegs) (rroi MnemonicAvx32.i_vinserti64x2));
  (false, en32 (mkEntry "vextractf32x8/ozi" [cO; cZ] (ori i_vextractf32x8) r_vextractf32x8_ozi VlRegs) (ori MnemonicAvx32.i_vextractf32x8))].
Lemma vex32_25_ok : Forall (fun p => implements32 (fst p) (snd p)) (vex32_25).
Proof. unfold vex32_25.
vrow_ tab47_ok 0%nat sims36_ok start36 19%nat.
vrow_ tab47_ok 1%nat sims36_ok start36 20%nat.
vrow_ tab48_ok 0%nat sims39_ok start39 18%nat.
vrow_ tab48_ok 1%nat sims39_ok start39 19%nat.
vrow_ tab49_ok 0%nat sims44_ok start44 3%nat.
vrow_ tab49_ok 1%nat sims44_ok start44 4%nat.
vrow_ tab50_ok 0%nat sims36_ok start36 21%nat.
vrow_ tab50_ok 1%nat sims44_ok start44 16%nat.
vrow_ tab50_ok 2%nat sims44_ok start44 17%nat.
vrow_ tab51_ok 0%nat sims41_ok start41 5%nat.
vrow_ tab51_ok 1%nat sims41_ok start41 7%nat.
vrow_ tab51_ok 2%nat sims41_ok start41 8%nat.
vrow_ tab52_ok 0%nat sims44_ok start44 15%nat.
vrow_ tab53_ok 0%nat sims45_ok start45 5%nat.
vrow_ tab53_ok 1%nat sims45_ok start45 8%nat.
vrow_ tab53_ok 2%nat sims45_ok start45 6%nat.
vrow_ tab53_ok 3%nat sims45_ok start45 7%nat.
vrow_ tab54_ok 0%nat sims46_ok start46 2%nat.
vrow_ tab55_ok 0%nat sims49_ok start49 5%nat.
vrow_ tab56_ok 0%nat sims49_ok start49 6%nat.
vrow_ tab57_ok 0%nat sims49_ok start49 7%nat.
vrow_ tab58_ok 0%nat sims64_ok start64 0%nat.
vrow_ tab58_ok 1%nat sims64_ok start64 4%nat.
vrow_ tab58_ok 2%nat sims64_ok start64 2%nat.
vrow_ tab58_ok 3%nat sims64_ok start64 6%nat.
vrow_ tab59_ok 0%nat sims67_ok start67 15%nat.
vrow_ tab59_ok 1%nat sims67_ok start67 19%nat.
vrow_ tab59_ok 2%nat sims67_ok start67 17%nat.
vrow_ tab59_ok 3%nat sims67_ok start67 21%nat.
vrow_ tab60_ok 0%nat sims64_ok start64 1%nat.
apply Forall_nil. Qed.
Definition vex32_26 : list (bool * entry) := [
  (false, en32 (mkEntry "vextracti32x8/ozi" [cO; cZ] (ori i_vextracti32x8) r_vextracti32x8_ozi VlRegs) (ori MnemonicAvx32.i_vextracti32x8));
  (false, en32 (mkEntry "vextractf64x4/ozi" [cO; cZ] (ori i_vextractf64x4) r_vextractf64x4_ozi VlRegs) (ori MnemonicAvx32.i_vextractf64x4));
  (false, en32 (mkEntry "vextracti64x4/ozi" [cO; cZ] (ori i_vextracti64x4) r_vextracti64x4_ozi VlRegs) (ori MnemonicAvx32.i_vextracti64x4));
  (false, en32 (mkEntry "vinsertf32x8/zzoi" [cZ; cZ; cO] (rroi i_vinsertf32x8) r_vinsertf32x8_zzoi VlRegs) (rroi MnemonicAvx32.i_vinsertf32x8));
  (false, en32 (mkEntry "vinserti32x8/zzoi" [cZ; cZ; cO] (rroi i_vinserti32x8) r_vinserti32x8_zzoi VlRegs) (rroi MnemonicAvx32.i_vinserti32x8));
  (false, en32 (mkEntry "vinsertf64x4/zzoi" [cZ; cZ; cO] (rroi i_vinsertf64x4) r_vinsertf64x4_zzoi VlRegs) (rroi MnemonicAvx32.i_vinsertf64x4));
  (false, en32 (mkEntry "vinserti64x4/zzoi" [cZ; cZ; cO] (rroi i_vinserti64x4) r_vinserti64x4_zzoi VlRegs) (rroi MnemonicAvx32.i_vinserti64x4));
  (false, en32 (mkEntry "vcvtsd2usi/eo" [cR 32; cO] (ro i_vcvtsd2usi) r_vcvtsd2usi_eo32 VlAll) (ro MnemonicAvx32.i_vcvtsd2usi));
  (false, en32 (mkEntry "vcvttsd2usi/eo" [cR 32; cO] (ro i_vcvttsd2usi) r_vcvttsd2usi_eo32 VlAll) (ro MnemonicAvx32.i_vcvttsd2usi));
  (false, en32 (mkEntry "vcvtss2usi/eo" [cR 32; cO] (ro i_vcvtss2usi) r_vcvtss2usi_eo32 VlAll) (ro MnemonicAvx32.i_vcvtss2usi));
  (false, en32 (mkEntry "vcvttss2usi/eo" [cR 32; cO] (ro i_vcvttss2usi) r_vcvttss2usi_eo32 VlAll) (ro MnemonicAvx32.i_vcvttss2usi));
  (false, en32 (mkEntry "vcvtsh2si/eo" [cR 32; cO] (ro i_vcvtsh2si) r_vcvtsh2si_eo32 VlAll) (ro MnemonicAvx32.i_vcvtsh2si));
  (false, en32 (mkEntry "vcvtsh2usi/eo" [cR 32; cO] (ro i_vcvtsh2usi) r_vcvtsh2usi_eo32 VlAll) (ro MnemonicAvx32.i_vcvtsh2usi));
  (false, en32 (mkEntry "vcvttsh2si/eo" [cR 32; cO] (ro i_vcvttsh2si) r_vcvttsh2si_eo32 VlAll) (ro MnemonicAvx32.i_vcvttsh2si));
  (false, en32 (mkEntry "vcvttsh2usi/eo" [cR 32; cO] (ro i_vcvttsh2usi) r_vcvttsh2usi_eo32 VlAll) (ro MnemonicAvx32.i_vcvttsh2usi));
  (false, en32 (mkEntry "vcvttsd2sis/eo" [cR 32; cO] (ro i_vcvttsd2sis) r_vcvttsd2sis_eo32 VlAll) (ro MnemonicAvx32.i_vcvttsd2sis));
  (false, en32 (mkEntry "vcvttsd2usis/eo" [cR 32; cO] (ro i_vcvttsd2usis) r_vcvttsd2usis_eo32 VlAll) (ro MnemonicAvx32.i_vcvttsd2usis));
  (false, en32 (mkEntry "vcvttss2sis/eo" [cR 32; cO] (ro i_vcvttss2sis) r_vcvttss2sis_eo32 VlAll) (ro MnemonicAvx32.i_vcvttss2sis));
  (false, en32 (mkEntry "vcvttss2usis/eo" [cR 32; cO] (ro i_vcvttss2usis) r_vcvttss2usis_eo32 VlAll) (ro MnemonicAvx32.i_vcvttss2usis));
  (false, en32 (mkEntry "vcvtsi2ss/xxo" [cX; cX; cG 32] (rro i_vcvtsi2ss_xxo) r_vcvtsi2ss_xxo32 VlRegs) (rro Mnemonic32.i_vcvtsi2ss_xxo));
  (false, en32 (mkEntry "vcvtsi2ss/xxo" [cX; cX; cMn 64] (rro i_vcvtsi2ss_xxo) r_vcvtsi2ss_xxo32 VlRegs) (rro Mnemonic32.i_vcvtsi2ss_xxo));
  (false, en32 (mkEntry "vcvtsi2ss/xxo" [cX; cX; cMs 64] (rro i_vcvtsi2ss_xxo) r_vcvtsi2ss_xxo64 VlRegs) (rro Mnemonic32.i_vcvtsi2ss_xxo));
  (false, en32 (mkEntry "vcvtsi2sd/xxo" [cX; cX; cG 32] (rro i_vcvtsi2sd_xxo) r_vcvtsi2sd_xxo32 VlRegs) (rro Mnemonic32.i_vcvtsi2sd_xxo));
  (false, en32 (mkEntry "vcvtsi2sd/xxo" [cX; cX; cMn 64] (rro i_vcvtsi2sd_xxo) r_vcvtsi2sd_xxo32 VlRegs) (rro Mnemonic32.i_vcvtsi2sd_xxo));
  (false, en32 (mkEntry "vcvtsi2sd/xxo" [cX; cX; cMs 64] (rro i_vcvtsi2sd_xxo) r_vcvtsi2sd_xxo64 VlRegs) (rro Mnemonic32.i_vcvtsi2sd_xxo));
  (false, en32 (mkEntry "vcvtusi2ss/xxo" [cX; cX; cG 32] (rro i_vcvtusi2ss) r_vcvtusi2ss_xxo32 VlRegs) (rro MnemonicAvx32.i_vcvtusi2ss));
  (false, en32 (mkEntry "vcvtusi2ss/xxo" [cX; cX; cMn 64] (rro i_vcvtusi2ss) r_vcvtusi2ss_xxo32 VlRegs) (rro MnemonicAvx32.i_vcvtusi2ss));
  (false, en32 (mkEntry "vcvtusi2ss/xxo" [cX; cX; cMs 64] (rro i_vcvtusi2ss) r_vcvtusi2ss_xxo64 VlRegs) (rro MnemonicAvx32.i_vcvtusi2ss));
  (false, en32 (mkEntry "vcvtusi2sd/xxo" [cX; cX; cG 32] (rro i_vcvtusi2sd) r_vcvtusi2sd_xxo32 VlRegs) (rro MnemonicAvx32.i_vcvtusi2sd));
  (false, en32 (mkEntry "vcvtusi2sd/xxo" [cX; cX; cMn 64] (rro i_vcvtusi2sd) r_vcvtusi2sd_xxo32 VlRegs) (rro MnemonicAvx32.i_vcvtusi2sd))].
Lemma vex32_26_ok : Forall (fun p => implements32 (fst p) (snd p)) (vex32_26).
Proof. unfold vex32_26.
vrow_ tab60_ok 1%nat sims64_ok start64 5%nat.
vrow_ tab60_ok 2%nat sims64_ok start64 3%nat.
vrow_ tab60_ok 3%nat sims64_ok start64 7%nat.
vrow_ tab61_ok 0%nat sims67_ok start67 16%nat.
vrow_ tab61_ok 1%nat sims67_ok start67 20%nat.
vrow_ tab61_ok 2%nat sims67_ok start67 18%nat.
vrow_ tab61_ok 3%nat sims67_ok start67 22%nat.
vrow_ tab62_ok 0%nat sims61_ok start61 12%nat.
vrow_ tab62_ok 2%nat sims62_ok start62 22%nat.
vrow_ tab62_ok 4%nat sims61_ok start61 19%nat.
vrow_ tab62_ok 6%nat sims63_ok start63 2%nat.
vrow_ tab62_ok 8%nat sims61_ok start61 14%nat.
vrow_ tab62_ok 10%nat sims61_ok start61 16%nat.
vrow_ tab62_ok 12%nat sims62_ok start62 24%nat.
vrow_ tab62_ok 14%nat sims63_ok start63 0%nat.
vrow_ tab62_ok 16%nat sims62_ok start62 21%nat.
vrow_ tab62_ok 18%nat sims62_ok start62 23%nat.
vrow_ tab62_ok 20%nat sims63_ok start63 1%nat.
vrow_ tab62_ok 22%nat sims63_ok start63 3%nat.
vrow_ tab63_ok 0%nat sims36_ok start36 6%nat.
vrow_ tab63_ok 2%nat sims36_ok start36 6%nat.
vrow_ tab63_ok 3%nat sims36_ok start36 6%nat.
vrow_ tab63_ok 4%nat sims36_ok start36 5%nat.
vrow_ tab63_ok 6%nat sims36_ok start36 5%nat.
vrow_ tab63_ok 7%nat sims36_ok start36 5%nat.
vrow_ tab63_ok 8%nat sims63_ok start63 12%nat.
vrow_ tab63_ok 10%nat sims63_ok start63 12%nat.
vrow_ tab63_ok 11%nat sims63_ok start63 12%nat.
vrow_ tab63_ok 12%nat sims63_ok start63 10%nat.
vrow_ tab63_ok 14%nat sims63_ok start63 10%nat.
apply Forall_nil. Qed.
Definition vex32_27 : list (bool * entry) := [
  (false, en32 (mkEntry "vcvtusi2sd/xxo" [cX; cX; cMs 64] (rro i_vcvtusi2sd) r_vcvtusi2sd_xxo64 VlRegs) (rro MnemonicAvx32.i_vcvtusi2sd));
  (false, en32 (mkEntry "vcvtsi2sh/xxo" [cX; cX; cR 32] (rro i_vcvtsi2sh) r_vcvtsi2sh_xxo32 VlRegs) (rro MnemonicAvx32.i_vcvtsi2sh));
  (false, en32 (mkEntry "vcvtsi2sh/xxo" [cX; cX; cMs 32] (rro i_vcvtsi2sh) r_vcvtsi2sh_xxo32 VlRegs) (rro MnemonicAvx32.i_vcvtsi2sh));
  (false, en32 (mkEntry "vcvtsi2sh/xxo" [cX; cX; cMs 64] (rro i_vcvtsi2sh) r_vcvtsi2sh_xxo64 VlRegs) (rro MnemonicAvx32.i_vcvtsi2sh));
  (false, en32 (mkEntry "vcvtusi2sh/xxo" [cX; cX; cR 32] (rro i_vcvtusi2sh) r_vcvtusi2sh_xxo32 VlRegs) (rro MnemonicAvx32.i_vcvtusi2sh));
  (false, en32 (mkEntry "vcvtusi2sh/xxo" [cX; cX; cMs 32] (rro i_vcvtusi2sh) r_vcvtusi2sh_xxo32 VlRegs) (rro MnemonicAvx32.i_vcvtusi2sh));
  (false, en32 (mkEntry "vcvtusi2sh/xxo" [cX; cX; cMs 64] (rro i_vcvtusi2sh) r_vcvtusi2sh_xxo64 VlRegs) (rro MnemonicAvx32.i_vcvtusi2sh));
  (false, en32 (mkEntry "vpmovwb/ox" [cO; cX] (or_ i_vpmovwb) r_vpmovwb_ox VlRegs) (or_ MnemonicAvx32.i_vpmovwb));
  (false, en32 (mkEntry "vpmovswb/ox" [cO; cX] (or_ i_vpmovswb) r_vpmovswb_ox VlRegs) (or_ MnemonicAvx32.i_vpmovswb));
  (false, en32 (mkEntry "vpmovuswb/ox" [cO; cX] (or_ i_vpmovuswb) r_vpmovuswb_ox VlRegs) (or_ MnemonicAvx32.i_vpmovuswb));
  (false, en32 (mkEntry "vpmovdw/ox" [cO; cX] (or_ i_vpmovdw) r_vpmovdw_ox VlRegs) (or_ MnemonicAvx32.i_vpmovdw));
  (false, en32 (mkEntry "vpmovsdw/ox" [cO; cX] (or_ i_vpmovsdw) r_vpmovsdw_ox VlRegs) (or_ MnemonicAvx32.i_vpmovsdw));
  (false, en32 (mkEntry "vpmovusdw/ox" [cO; cX] (or_ i_vpmovusdw) r_vpmovusdw_ox VlRegs) (or_ MnemonicAvx32.i_vpmovusdw));
  (false, en32 (mkEntry "vpmovqd/ox" [cO; cX] (or_ i_vpmovqd) r_vpmovqd_ox VlRegs) (or_ MnemonicAvx32.i_vpmovqd));
  (false, en32 (mkEntry "vpmovsqd/ox" [cO; cX] (or_ i_vpmovsqd) r_vpmovsqd_ox VlRegs) (or_ MnemonicAvx32.i_vpmovsqd));
  (false, en32 (mkEntry "vpmovusqd/ox" [cO; cX] (or_ i_vpmovusqd) r_vpmovusqd_ox VlRegs) (or_ MnemonicAvx32.i_vpmovusqd));
  (false, en32 (mkEntry "vpmovdb/ox" [cO; cX] (or_ i_vpmovdb) r_vpmovdb_ox VlRegs) (or_ MnemonicAvx32.i_vpmovdb));
  (false, en32 (mkEntry "vpmovsdb/ox" [cO; cX] (or_ i_vpmovsdb) r_vpmovsdb_ox VlRegs) (or_ MnemonicAvx32.i_vpmovsdb));
  (false, en32 (mkEntry "vpmovusdb/ox" [cO; cX] (or_ i_vpmovusdb) r_vpmovusdb_ox VlRegs) (or_ MnemonicAvx32.i_vpmovusdb));
  (false, en32 (mkEntry "vpmovqb/ox" [cO; cX] (or_ i_vpmovqb) r_vpmovqb_ox VlRegs) (or_ MnemonicAvx32.i_vpmovqb));
  (false, en32 (mkEntry "vpmovsqb/ox" [cO; cX] (or_ i_vpmovsqb) r_vpmovsqb_ox VlRegs) (or_ MnemonicAvx32.i_vpmovsqb));
  (false, en32 (mkEntry "vpmovusqb/ox" [cO; cX] (or_ i_vpmovusqb) r_vpmovusqb_ox VlRegs) (or_ MnemonicAvx32.i_vpmovusqb));
  (false, en32 (mkEntry "vpmovqw/ox" [cO; cX] (or_ i_vpmovqw) r_vpmovqw_ox VlRegs) (or_ MnemonicAvx32.i_vpmovqw));
  (false, en32 (mkEntry "vpmovsqw/ox" [cO; cX] (or_ i_vpmovsqw) r_vpmovsqw_ox VlRegs) (or_ MnemonicAvx32.i_vpmovsqw));
  (false, en32 (mkEntry "vpmovusqw/ox" [cO; cX] (or_ i_vpmovusqw) r_vpmovusqw_ox VlRegs) (or_ MnemonicAvx32.i_vpmovusqw));
  (false, en32 (mkEntry "kaddb/kkk" [cK; cK; cK] (rrr i_kaddb) r_kaddb_kkk VlAll) (rrr MnemonicAvx32.i_kaddb));
  (false, en32 (mkEntry "kaddw/kkk" [cK; cK; cK] (rrr i_kaddw) r_kaddw_kkk VlAll) (rrr MnemonicAvx32.i_kaddw));
  (false, en32 (mkEntry "kaddd/kkk" [cK; cK; cK] (rrr i_kaddd) r_kaddd_kkk VlAll) (rrr MnemonicAvx32.i_kaddd));
  (false, en32 (mkEntry "kaddq/kkk" [cK; cK; cK] (rrr i_kaddq) r_kaddq_kkk VlAll) (rrr MnemonicAvx32.i_kaddq));
  (false, en32 (mkEntry "kandb/kkk" [cK; cK; cK] (rrr i_kandb) r_kandb_kkk VlAll) (rrr MnemonicAvx32.i_kandb))].
Lemma vex32_27_ok : Forall (fun p => implements32 (fst p) (snd p)) (vex32_27).
Proof. unfold vex32_27.
vrow_ tab63_ok 15%nat sims63_ok start63 10%nat.
vrow_ tab64_ok 0%nat sims61_ok start61 17%nat.
vrow_ tab64_ok 2%nat sims61_ok start61 17%nat.
vrow_ tab64_ok 3%nat sims61_ok start61 17%nat.
vrow_ tab64_ok 4%nat sims63_ok start63 11%nat.
vrow_ tab64_ok 6%nat sims63_ok start63 11%nat.
vrow_ tab64_ok 7%nat sims63_ok start63 11%nat.
vrow_ tab65_ok 0%nat sims73_ok start73 11%nat.
vrow_ tab65_ok 1%nat sims73_ok start73 3%nat.
vrow_ tab65_ok 2%nat sims73_ok start73 9%nat.
vrow_ tab65_ok 3%nat sims72_ok start72 14%nat.
vrow_ tab65_ok 4%nat sims72_ok start72 24%nat.
vrow_ tab65_ok 5%nat sims73_ok start73 5%nat.
vrow_ tab65_ok 6%nat sims72_ok start72 21%nat.
vrow_ tab65_ok 7%nat sims73_ok start73 1%nat.
vrow_ tab65_ok 8%nat sims73_ok start73 7%nat.
vrow_ tab66_ok 0%nat sims72_ok start72 13%nat.
vrow_ tab66_ok 1%nat sims72_ok start72 23%nat.
vrow_ tab66_ok 2%nat sims73_ok start73 4%nat.
vrow_ tab66_ok 3%nat sims72_ok start72 20%nat.
vrow_ tab66_ok 4%nat sims73_ok start73 0%nat.
vrow_ tab66_ok 5%nat sims73_ok start73 6%nat.
vrow_ tab66_ok 6%nat sims72_ok start72 22%nat.
vrow_ tab66_ok 7%nat sims73_ok start73 2%nat.
vrow_ tab66_ok 8%nat sims73_ok start73 8%nat.
vrow_ tab68_ok 0%nat sims50_ok start50 24%nat.
vrow_ tab68_ok 1%nat sims51_ok start51 2%nat.
vrow_ tab68_ok 2%nat sims51_ok start51 0%nat.
vrow_ tab68_ok 3%nat sims51_ok start51 1%nat.
vrow_ tab68_ok 4%nat sims51_ok start51 3%nat.
apply Forall_nil. Qed.
Definition vex32_28 : list (bool * entry) := [
  (false, en32 (mkEntry "kandw/kkk" [cK; cK; cK] (rrr i_kandw) r_kandw_kkk VlAll) (rrr MnemonicAvx32.i_kandw));
  (false, en32 (mkEntry "kandd/kkk" [cK; cK; cK] (rrr i_kandd) r_kandd_kkk VlAll) (rrr MnemonicAvx32.i_kandd));
  (false, en32 (mkEntry "kandq/kkk" [cK; cK; cK] (rrr i_kandq) r_kandq_kkk VlAll) (rrr MnemonicAvx32.i_kandq));
  (false, en32 (mkEntry "kandnb/kkk" [cK; cK; cK] (rrr i_kandnb) r_kandnb_kkk VlAll) (rrr MnemonicAvx32.i_kandnb));
  (false, en32 (mkEntry "kandnw/kkk" [cK; cK; cK] (rrr i_kandnw) r_kandnw_kkk VlAll) (rrr MnemonicAvx32.i_kandnw));
  (false, en32 (mkEntry "kandnd/kkk" [cK; cK; cK] (rrr i_kandnd) r_kandnd_kkk VlAll) (rrr MnemonicAvx32.i_kandnd));
  (false, en32 (mkEntry "kandnq/kkk" [cK; cK; cK] (rrr i_kandnq) r_kandnq_kkk VlAll) (rrr MnemonicAvx32.i_kandnq));
  (false, en32 (mkEntry "korb/kkk" [cK; cK; cK] (rrr i_korb) r_korb_kkk VlAll) (rrr MnemonicAvx32.i_korb));
  (false, en32 (mkEntry "korw/kkk" [cK; cK; cK] (rrr i_korw) r_korw_kkk VlAll) (rrr MnemonicAvx32.i_korw));
  (false, en32 (mkEntry "kord/kkk" [cK; cK; cK] (rrr i_kord) r_kord_kkk VlAll) (rrr MnemonicAvx32.i_kord));
  (false, en32 (mkEntry "korq/kkk" [cK; cK; cK] (rrr i_korq) r_korq_kkk VlAll) (rrr MnemonicAvx32.i_korq));
  (false, en32 (mkEntry "kxnorb/kkk" [cK; cK; cK] (rrr i_kxnorb) r_kxnorb_kkk VlAll) (rrr MnemonicAvx32.i_kxnorb));
  (false, en32 (mkEntry "kxnorw/kkk" [cK; cK; cK] (rrr i_kxnorw) r_kxnorw_kkk VlAll) (rrr MnemonicAvx32.i_kxnorw));
  (false, en32 (mkEntry "kxnord/kkk" [cK; cK; cK] (rrr i_kxnord) r_kxnord_kkk VlAll) (rrr MnemonicAvx32.i_kxnord));
  (false, en32 (mkEntry "kxnorq/kkk" [cK; cK; cK] (rrr i_kxnorq) r_kxnorq_kkk VlAll) (rrr MnemonicAvx32.i_kxnorq));
  (false, en32 (mkEntry "kxorb/kkk" [cK; cK; cK] (rrr i_kxorb) r_kxorb_kkk VlAll) (rrr MnemonicAvx32.i_kxorb));
  (false, en32 (mkEntry "kxorw/kkk" [cK; cK; cK] (rrr i_kxorw) r_kxorw_kkk VlAll) (rrr MnemonicAvx32.i_kxorw));
  (false, en32 (mkEntry "kxord/kkk" [cK; cK; cK] (rrr i_kxord) r_kxord_kkk VlAll) (rrr MnemonicAvx32.i_kxord));
  (false, en32 (mkEntry "kxorq/kkk" [cK; cK; cK] (rrr i_kxorq) r_kxorq_kkk VlAll) (rrr MnemonicAvx32.i_kxorq));
  (false, en32 (mkEntry "kunpckbw/kkk" [cK; cK; cK] (rrr i_kunpckbw) r_kunpckbw_kkk VlAll) (rrr MnemonicAvx32.i_kunpckbw));
  (false, en32 (mkEntry "kunpckwd/kkk" [cK; cK; cK] (rrr i_kunpckwd) r_kunpckwd_kkk VlAll) (rrr MnemonicAvx32.i_kunpckwd));
  (false, en32 (mkEntry "kunpckdq/kkk" [cK; cK; cK] (rrr i_kunpckdq) r_kunpckdq_kkk VlAll) (rrr MnemonicAvx32.i_kunpckdq));
  (false, en32 (mkEntry "knotb/kk" [cK; cK] (rr i_knotb) r_knotb_kk VlAll) (rr MnemonicAvx32.i_knotb));
  (false, en32 (mkEntry "knotw/kk" [cK; cK] (rr i_knotw) r_knotw_kk VlAll) (rr MnemonicAvx32.i_knotw));
  (false, en32 (mkEntry "knotd/kk" [cK; cK] (rr i_knotd) r_knotd_kk VlAll) (rr MnemonicAvx32.i_knotd));
  (false, en32 (mkEntry "knotq/kk" [cK; cK] (rr i_knotq) r_knotq_kk VlAll) (rr MnemonicAvx32.i_knotq));
  (false, en32 (mkEntry "kortestb/kk" [cK; cK] (rr i_kortestb) r_kortestb_kk VlAll) (rr MnemonicAvx32.i_kortestb));
  (false, en32 (mkEntry "kortestw/kk" [cK; cK] (rr i_kortestw) r_kortestw_kk VlAll) (rr MnemonicAvx32.i_kortestw));
  (false, en32 (mkEntry "kortestd/kk" [cK; cK] (rr i_kortestd) r_kortestd_kk VlAll) (rr MnemonicAvx32.i_kortestd));
  (false, en32 (mkEntry "kortestq/kk" [cK; cK] (rr i_kortestq) r_kortestq_kk VlAll) (rr MnemonicAvx32.i_kortestq))].
Lemma vex32_28_ok : Forall (fun p => implements32 (fst p) (snd p)) (vex32_28).
Proof. unfold vex32_28.
vrow_ tab68_ok 5%nat sims51_ok start51 10%nat.
vrow_ tab68_ok 6%nat sims51_ok start51 4%nat.
vrow_ tab68_ok 7%nat sims51_ok start51 9%nat.
vrow_ tab68_ok 8%nat sims51_ok start51 5%nat.
vrow_ tab68_ok 9%nat sims51_ok start51 8%nat.
vrow_ tab68_ok 10%nat sims51_ok start51 6%nat.
vrow_ tab68_ok 11%nat sims51_ok start51 7%nat.
vrow_ tab68_ok 12%nat sims52_ok start52 1%nat.
vrow_ tab68_ok 13%nat sims52_ok start52 8%nat.
vrow_ tab68_ok 14%nat sims52_ok start52 2%nat.
vrow_ tab68_ok 15%nat sims52_ok start52 3%nat.
vrow_ tab68_ok 16%nat sims52_ok start52 24%nat.
vrow_ tab68_ok 17%nat sims53_ok start53 2%nat.
vrow_ tab68_ok 18%nat sims53_ok start53 0%nat.
vrow_ tab68_ok 19%nat sims53_ok start53 1%nat.
vrow_ tab68_ok 20%nat sims53_ok start53 3%nat.
vrow_ tab68_ok 21%nat sims53_ok start53 6%nat.
vrow_ tab68_ok 22%nat sims53_ok start53 4%nat.
vrow_ tab68_ok 23%nat sims53_ok start53 5%nat.
vrow_ tab68_ok 24%nat sims52_ok start52 21%nat.
vrow_ tab68_ok 25%nat sims52_ok start52 23%nat.
vrow_ tab68_ok 26%nat sims52_ok start52 22%nat.
vrow_ tab69_ok 0%nat sims51_ok start51 22%nat.
vrow_ tab69_ok 1%nat sims52_ok start52 0%nat.
vrow_ tab69_ok 2%nat sims51_ok start51 23%nat.
vrow_ tab69_ok 3%nat sims51_ok start51 24%nat.
vrow_ tab69_ok 4%nat sims52_ok start52 4%nat.
vrow_ tab69_ok 5%nat sims52_ok start52 7%nat.
vrow_ tab69_ok 6%nat sims52_ok start52 5%nat.
vrow_ tab69_ok 7%nat sims52_ok start52 6%nat.
apply Forall_nil. Qed.
Definition vex32_29 : list (bool * entry) := [
  (false, en32 (mkEntry "ktestb/kk" [cK; cK] (rr i_ktestb) r_ktestb_kk VlAll) (rr MnemonicAvx32.i_ktestb));
  (false, en32 (mkEntry "ktestw/kk" [cK; cK] (rr i_ktestw) r_ktestw_kk VlAll) (rr MnemonicAvx32.i_ktestw));
  (false, en32 (mkEntry "ktestd/kk" [cK; cK] (rr i_ktestd) r_ktestd_kk VlAll) (rr MnemonicAvx32.i_ktestd));
  (false, en32 (mkEntry "ktestq/kk" [cK; cK] (rr i_ktestq) r_ktestq_kk VlAll) (rr MnemonicAvx32.i_ktestq));
  (false, en32 (mkEntry "kshiftlb/kki" [cK; cK] (rri i_kshiftlb) r_kshiftlb_kki VlAll) (rri MnemonicAvx32.i_kshiftlb));
  (false, en32 (mkEntry "kshiftlw/kki" [cK; cK] (rri i_kshiftlw) r_kshiftlw_kki VlAll) (rri MnemonicAvx32.i_kshiftlw));
  (false, en32 (mkEntry "kshiftld/kki" [cK; cK] (rri i_kshiftld) r_kshiftld_kki VlAll) (rri MnemonicAvx32.i_kshiftld));
  (false, en32 (mkEntry "kshiftlq/kki" [cK; cK] (rri i_kshiftlq) r_kshiftlq_kki VlAll) (rri MnemonicAvx32.i_kshiftlq));
  (false, en32 (mkEntry "kshiftrb/kki" [cK; cK] (rri i_kshiftrb) r_kshiftrb_kki VlAll) (rri MnemonicAvx32.i_kshiftrb));
  (false, en32 (mkEntry "kshiftrw/kki" [cK; cK] (rri i_kshiftrw) r_kshiftrw_kki VlAll) (rri MnemonicAvx32.i_kshiftrw));
  (false, en32 (mkEntry "kshiftrd/kki" [cK; cK] (rri i_kshiftrd) r_kshiftrd_kki VlAll) (rri MnemonicAvx32.i_kshiftrd));
  (false, en32 (mkEntry "kshiftrq/kki" [cK; cK] (rri i_kshiftrq) r_kshiftrq_kki VlAll) (rri MnemonicAvx32.i_kshiftrq))].
Lemma vex32_29_ok : Forall (fun p => implements32 (fst p) (snd p)) (vex32_29).
Proof. unfold vex32_29.
vrow_ tab69_ok 8%nat sims52_ok start52 17%nat.
vrow_ tab69_ok 9%nat sims52_ok start52 20%nat.
vrow_ tab69_ok 10%nat sims52_ok start52 18%nat.
vrow_ tab69_ok 11%nat sims52_ok start52 19%nat.
vrow_ tab70_ok 0%nat sims52_ok start52 9%nat.
vrow_ tab70_ok 1%nat sims52_ok start52 12%nat.
vrow_ tab70_ok 2%nat sims52_ok start52 10%nat.
vrow_ tab70_ok 3%nat sims52_ok start52 11%nat.
vrow_ tab70_ok 4%nat sims52_ok start52 13%nat.
vrow_ tab70_ok 5%nat sims52_ok start52 16%nat.
vrow_ tab70_ok 6%nat sims52_ok start52 14%nat.
vrow_ tab70_ok 7%nat sims52_ok start52 15%nat.
apply Forall_nil. Qed.
Definition vex32_table : list (bool * entry) := vex32_0 ++ vex32_1 ++ vex32_2 ++ vex32_3 ++ vex32_4 ++ vex32_5 ++ vex32_6 ++ vex32_7 ++ vex32_8 ++ vex32_9 ++ vex32_10 ++ vex32_11 ++ vex32_12 ++ vex32_13 ++ vex32_14 ++ vex32_15 ++ vex32_16 ++ vex32_17 ++ vex32_18 ++ vex32_19 ++ vex32_20 ++ vex32_21 ++ vex32_22 ++ vex32_23 ++ vex32_24 ++ vex32_25 ++ vex32_26 ++ vex32_27 ++ vex32_28 ++ vex32_29.
Lemma vex32_ok : Forall (fun p => implements32 (fst p) (snd p)) (vex32_table).
Proof. unfold vex32_table. repeat (apply Forall_app; split); auto using vex32_0_ok, vex32_1_ok, vex32_2_ok, vex32_3_ok, vex32_4_ok, vex32_5_ok, vex32_6_ok, vex32_7_ok, vex32_8_ok, vex32_9_ok, vex32_10_ok, vex32_11_ok, vex32_12_ok, vex32_13_ok, vex32_14_ok, vex32_15_ok, vex32_16_ok, vex32_17_ok, vex32_18_ok, vex32_19_ok, vex32_20_ok, vex32_21_ok, vex32_22_ok, vex32_23_ok, vex32_24_ok, vex32_25_ok, vex32_26_ok, vex32_27_ok, vex32_28_ok, vex32_29_ok. Qed.
Definition vexe32_0 (enc : PreferredEncoding) : list (bool * entry) := [
  (false, en32 (mkEntry "vcvtneps2bf16/xop" [cX; cO] (ro (fun a o => i_vcvtneps2bf16 a o enc)) r_vcvtneps2bf16_xop VlHalf) (ro (fun a o => Mnemonic32.i_vcvtneps2bf16 a o enc)));
  (false, en32 (mkEntry "vpdpbusd/xxop" [cX; cX; cO] (rro (fun a b o => i_vpdpbusd a b o enc)) r_vpdpbusd_xxop VlRegs) (rro (fun a b o => Mnemonic32.i_vpdpbusd a b o enc)));
  (false, en32 (mkEntry "vpdpbusds/xxop" [cX; cX; cO] (rro (fun a b o => i_vpdpbusds a b o enc)) r_vpdpbusds_xxop VlRegs) (rro (fun a b o => Mnemonic32.i_vpdpbusds a b o enc)));
  (false, en32 (mkEntry "vpdpwssd/xxop" [cX; cX; cO] (rro (fun a b o => i_vpdpwssd a b o enc)) r_vpdpwssd_xxop VlRegs) (rro (fun a b o => Mnemonic32.i_vpdpwssd a b o enc)));
  (false, en32 (mkEntry "vpdpwssds/xxop" [cX; cX; cO] (rro (fun a b o => i_vpdpwssds a b o enc)) r_vpdpwssds_xxop VlRegs) (rro (fun a b o => Mnemonic32.i_vpdpwssds a b o enc)));
  (false, en32 (mkEntry "vpdpbssd/xxop" [cX; cX; cO] (rro (fun a b o => i_vpdpbssd a b o enc)) r_vpdpbssd_xxop VlRegs) (rro (fun a b o => MnemonicAvx32.i_vpdpbssd a b o enc)));
  (false, en32 (mkEntry "vpdpbssds/xxop" [cX; cX; cO] (rro (fun a b o => i_vpdpbssds a b o enc)) r_vpdpbssds_xxop VlRegs) (rro (fun a b o => MnemonicAvx32.i_vpdpbssds a b o enc)));
  (false, en32 (mkEntry "vpdpbsud/xxop" [cX; cX; cO] (rro (fun a b o => i_vpdpbsud a b o enc)) r_vpdpbsud_xxop VlRegs) (rro (fun a b o => MnemonicAvx32.i_vpdpbsud a b o enc)));
  (false, en32 (mkEntry "vpdpbsuds/xxop" [cX; cX; cO] (rro (fun a b o => i_vpdpbsuds a b o enc)) r_vpdpbsuds_xxop VlRegs) (rro (fun a b o => MnemonicAvx32.i_vpdpbsuds a b o enc)));
  (false, en32 (mkEntry "vpdpbuud/xxop" [cX; cX; cO] (rro (fun a b o => i_vpdpbuud a b o enc)) r_vpdpbuud_xxop VlRegs) (rro (fun a b o => MnemonicAvx32.i_vpdpbuud a b o enc)));
  (false, en32 (mkEntry "vpdpbuuds/xxop" [cX; cX; cO] (rro (fun a b o => i_vpdpbuuds a b o enc)) r_vpdpbuuds_xxop VlRegs) (rro (fun a b o => MnemonicAvx32.i_vpdpbuuds a b o enc)));
  (false, en32 (mkEntry "vpdpwsud/xxop" [cX; cX; cO] (rro (fun a b o => i_vpdpwsud a b o enc)) r_vpdpwsud_xxop VlRegs) (rro (fun a b o => MnemonicAvx32.i_vpdpwsud a b o enc)));
  (false, en32 (mkEntry "vpdpwsuds/xxop" [cX; cX; cO] (rro (fun a b o => i_vpdpwsuds a b o enc)) r_vpdpwsuds_xxop VlRegs) (rro (fun a b o => MnemonicAvx32.i_vpdpwsuds a b o enc)));
  (false, en32 (mkEntry "vpdpwusd/xxop" [cX; cX; cO] (rro (fun a b o => i_vpdpwusd a b o enc)) r_vpdpwusd_xxop VlRegs) (rro (fun a b o => MnemonicAvx32.i_vpdpwusd a b o enc)));
  (false, en32 (mkEntry "vpdpwusds/xxop" [cX; cX; cO] (rro (fun a b o => i_vpdpwusds a b o enc)) r_vpdpwusds_xxop VlRegs) (rro (fun a b o => MnemonicAvx32.i_vpdpwusds a b o enc)));
  (false, en32 (mkEntry "vpdpwuud/xxop" [cX; cX; cO] (rro (fun a b o => i_vpdpwuud a b o enc)) r_vpdpwuud_xxop VlRegs) (rro (fun a b o => MnemonicAvx32.i_vpdpwuud a b o enc)));
  (false, en32 (mkEntry "vpdpwuuds/xxop" [cX; cX; cO] (rro (fun a b o => i_vpdpwuuds a b o enc)) r_vpdpwuuds_xxop VlRegs) (rro (fun a b o => MnemonicAvx32.i_vpdpwuuds a b o enc)))].
Lemma vexe32_0_ok (enc : PreferredEncoding) : Forall (fun p => implements32 (fst p) (snd p)) (vexe32_0 enc).
Proof. unfold vexe32_0.
verow (tab22_ok enc) 0%nat sims35_ok start35 21%nat enc.
verow (tab22_ok enc) 1%nat sims43_ok start43 24%nat enc.
verow (tab22_ok enc) 2%nat sims44_ok start44 0%nat enc.
verow (tab22_ok enc) 3%nat sims44_ok start44 1%nat enc.
verow (tab22_ok enc) 4%nat sims44_ok start44 2%nat enc.
verow (tab67_ok enc) 0%nat sims70_ok start70 19%nat enc.
verow (tab67_ok enc) 1%nat sims70_ok start70 20%nat enc.
verow (tab67_ok enc) 2%nat sims70_ok start70 21%nat enc.
verow (tab67_ok enc) 3%nat sims70_ok start70 22%nat enc.
verow (tab67_ok enc) 4%nat sims70_ok start70 23%nat enc.
verow (tab67_ok enc) 5%nat sims70_ok start70 24%nat enc.
verow (tab67_ok enc) 6%nat sims71_ok start71 0%nat enc.
verow (tab67_ok enc) 7%nat sims71_ok start71 1%nat enc.
verow (tab67_ok enc) 8%nat sims71_ok start71 2%nat enc.
verow (tab67_ok enc) 9%nat sims71_ok start71 3%nat enc.
verow (tab67_ok enc) 10%nat sims71_ok start71 4%nat enc.
verow (tab67_ok enc) 11%nat sims71_ok start71 5%nat enc.
apply Forall_nil. Qed.
Definition vexe32_table (enc : PreferredEncoding) : list (bool * entry) := vexe32_0 enc.
Lemma vexe32_ok (enc : PreferredEncoding) : Forall (fun p => implements32 (fst p) (snd p)) (vexe32_table enc).
Proof. unfold vexe32_table. repeat (apply Forall_app; split); auto using vexe32_0_ok. Qed.
