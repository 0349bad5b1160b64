(* Generated by tools/aliastab.py: the pseudo-operations of xbyak_mnemonic.h (SpecAlias.v) and the methods with an omitted
   operand, each with the method it stands for. *)
From Coq Require Import ZArith List Bool String Lia.
From Verif Require Import Base Types Emit Encode Mnemonic MnemonicAvx MnemonicOmit SpecAlias.
Import ListNotations.
Open Scope Z_scope.
Open Scope string_scope.
Ltac cmp_row n := apply Forall_cons; [split; [reflexivity|exists n; split; [reflexivity|intros; reflexivity]]|].

Definition sse_compare_base (t : ftype) (a : (Reg * Operand)%type) (imm : Z) : E unit :=
  match t with Fps => let (x, op) := a in i_cmpps x op imm | Fpd => let (x, op) := a in i_cmppd x op imm | Fss => let (x, op) := a in i_cmpss x op imm | Fsd => let (x, op) := a in i_cmpsd_xoi x op imm end.
Definition sse_compare_0 : list (string * (prel * psuffix * ftype) * ((Reg * Operand)%type -> E unit)) := [
  ("cmpeqpd", (Req, Dflt, Fpd), fun '(x, op) => i_cmpeqpd x op);
  ("cmpeqps", (Req, Dflt, Fps), fun '(x, op) => i_cmpeqps x op);
  ("cmpeqsd", (Req, Dflt, Fsd), fun '(x, op) => i_cmpeqsd x op);
  ("cmpeqss", (Req, Dflt, Fss), fun '(x, op) => i_cmpeqss x op);
  ("cmplepd", (Rle, Dflt, Fpd), fun '(x, op) => i_cmplepd x op);
  ("cmpleps", (Rle, Dflt, Fps), fun '(x, op) => i_cmpleps x op);
  ("cmplesd", (Rle, Dflt, Fsd), fun '(x, op) => i_cmplesd x op);
  ("cmpless", (Rle, Dflt, Fss), fun '(x, op) => i_cmpless x op);
  ("cmpltpd", (Rlt, Dflt, Fpd), fun '(x, op) => i_cmpltpd x op);
  ("cmpltps", (Rlt, Dflt, Fps), fun '(x, op) => i_cmpltps x op);
  ("cmpltsd", (Rlt, Dflt, Fsd), fun '(x, op) => i_cmpltsd x op);
  ("cmpltss", (Rlt, Dflt, Fss), fun '(x, op) => i_cmpltss x op);
  ("cmpneqpd", (Rneq, Dflt, Fpd), fun '(x, op) => i_cmpneqpd x op);
  ("cmpneqps", (Rneq, Dflt, Fps), fun '(x, op) => i_cmpneqps x op);
  ("cmpneqsd", (Rneq, Dflt, Fsd), fun '(x, op) => i_cmpneqsd x op);
  ("cmpneqss", (Rneq, Dflt, Fss), fun '(x, op) => i_cmpneqss x op)
].
Lemma sse_compare_0_ok : Forall (compares sse_compare_base "cmp") sse_compare_0.
Proof.
  cmp_row 0.
  cmp_row 0.
  cmp_row 0.
  cmp_row 0.
  cmp_row 2.
  cmp_row 2.
  cmp_row 2.
  cmp_row 2.
  cmp_row 1.
  cmp_row 1.
  cmp_row 1.
  cmp_row 1.
  cmp_row 4.
  cmp_row 4.
  cmp_row 4.
  cmp_row 4.
  apply Forall_nil.
Qed.
Definition sse_compare_1 : list (string * (prel * psuffix * ftype) * ((Reg * Operand)%type -> E unit)) := [
  ("cmpnlepd", (Rnle, Dflt, Fpd), fun '(x, op) => i_cmpnlepd x op);
  ("cmpnleps", (Rnle, Dflt, Fps), fun '(x, op) => i_cmpnleps x op);
  ("cmpnlesd", (Rnle, Dflt, Fsd), fun '(x, op) => i_cmpnlesd x op);
  ("cmpnless", (Rnle, Dflt, Fss), fun '(x, op) => i_cmpnless x op);
  ("cmpnltpd", (Rnlt, Dflt, Fpd), fun '(x, op) => i_cmpnltpd x op);
  ("cmpnltps", (Rnlt, Dflt, Fps), fun '(x, op) => i_cmpnltps x op);
  ("cmpnltsd", (Rnlt, Dflt, Fsd), fun '(x, op) => i_cmpnltsd x op);
  ("cmpnltss", (Rnlt, Dflt, Fss), fun '(x, op) => i_cmpnltss x op);
  ("cmpordpd", (Rord, Dflt, Fpd), fun '(x, op) => i_cmpordpd x op);
  ("cmpordps", (Rord, Dflt, Fps), fun '(x, op) => i_cmpordps x op);
  ("cmpordsd", (Rord, Dflt, Fsd), fun '(x, op) => i_cmpordsd x op);
  ("cmpordss", (Rord, Dflt, Fss), fun '(x, op) => i_cmpordss x op);
  ("cmpunordpd", (Runord, Dflt, Fpd), fun '(x, op) => i_cmpunordpd x op);
  ("cmpunordps", (Runord, Dflt, Fps), fun '(x, op) => i_cmpunordps x op);
  ("cmpunordsd", (Runord, Dflt, Fsd), fun '(x, op) => i_cmpunordsd x op);
  ("cmpunordss", (Runord, Dflt, Fss), fun '(x, op) => i_cmpunordss x op)
].
Lemma sse_compare_1_ok : Forall (compares sse_compare_base "cmp") sse_compare_1.
Proof.
  cmp_row 6.
  cmp_row 6.
  cmp_row 6.
  cmp_row 6.
  cmp_row 5.
  cmp_row 5.
  cmp_row 5.
  cmp_row 5.
  cmp_row 7.
  cmp_row 7.
  cmp_row 7.
  cmp_row 7.
  cmp_row 3.
  cmp_row 3.
  cmp_row 3.
  cmp_row 3.
  apply Forall_nil.
Qed.
Definition sse_compare := (sse_compare_0 ++ sse_compare_1)%list.
Lemma sse_compare_ok : Forall (compares sse_compare_base "cmp") sse_compare.
Proof. unfold sse_compare. repeat (apply Forall_app; split). exact sse_compare_0_ok. exact sse_compare_1_ok. Qed.
Definition avx_compare_base (t : ftype) (a : (Reg * Reg * Operand)%type) (imm : Z) : E unit :=
  match t with Fps => let '(x1, x2, op) := a in i_vcmpps_xxoi x1 x2 op imm | Fpd => let '(x1, x2, op) := a in i_vcmppd_xxoi x1 x2 op imm | Fss => let '(x1, x2, op) := a in i_vcmpss_xxoi x1 x2 op imm | Fsd => let '(x1, x2, op) := a in i_vcmpsd_xxoi x1 x2 op imm end.
Definition avx_compare_0 : list (string * (prel * psuffix * ftype) * ((Reg * Reg * Operand)%type -> E unit)) := [
  ("vcmpeq_ospd", (Req, Os, Fpd), fun '(x1, x2, op) => i_vcmpeq_ospd_xxo x1 x2 op);
  ("vcmpeq_osps", (Req, Os, Fps), fun '(x1, x2, op) => i_vcmpeq_osps_xxo x1 x2 op);
  ("vcmpeq_ossd", (Req, Os, Fsd), fun '(x1, x2, op) => i_vcmpeq_ossd_xxo x1 x2 op);
  ("vcmpeq_osss", (Req, Os, Fss), fun '(x1, x2, op) => i_vcmpeq_osss_xxo x1 x2 op);
  ("vcmpeq_uqpd", (Req, Uq, Fpd), fun '(x1, x2, op) => i_vcmpeq_uqpd_xxo x1 x2 op);
  ("vcmpeq_uqps", (Req, Uq, Fps), fun '(x1, x2, op) => i_vcmpeq_uqps_xxo x1 x2 op);
  ("vcmpeq_uqsd", (Req, Uq, Fsd), fun '(x1, x2, op) => i_vcmpeq_uqsd_xxo x1 x2 op);
  ("vcmpeq_uqss", (Req, Uq, Fss), fun '(x1, x2, op) => i_vcmpeq_uqss_xxo x1 x2 op);
  ("vcmpeq_uspd", (Req, Us, Fpd), fun '(x1, x2, op) => i_vcmpeq_uspd_xxo x1 x2 op);
  ("vcmpeq_usps", (Req, Us, Fps), fun '(x1, x2, op) => i_vcmpeq_usps_xxo x1 x2 op);
  ("vcmpeq_ussd", (Req, Us, Fsd), fun '(x1, x2, op) => i_vcmpeq_ussd_xxo x1 x2 op);
  ("vcmpeq_usss", (Req, Us, Fss), fun '(x1, x2, op) => i_vcmpeq_usss_xxo x1 x2 op);
  ("vcmpeqpd", (Req, Dflt, Fpd), fun '(x1, x2, op) => i_vcmpeqpd_xxo x1 x2 op);
  ("vcmpeqps", (Req, Dflt, Fps), fun '(x1, x2, op) => i_vcmpeqps_xxo x1 x2 op);
  ("vcmpeqsd", (Req, Dflt, Fsd), fun '(x1, x2, op) => i_vcmpeqsd_xxo x1 x2 op);
  ("vcmpeqss", (Req, Dflt, Fss), fun '(x1, x2, op) => i_vcmpeqss_xxo x1 x2 op)
].
Lemma avx_compare_0_ok : Forall (compares avx_compare_base "vcmp") avx_compare_0.
Proof.
  cmp_row 16.
  cmp_row 16.
  cmp_row 16.
  cmp_row 16.
  cmp_row 8.
  cmp_row 8.
  cmp_row 8.
  cmp_row 8.
  cmp_row 24.
  cmp_row 24.
  cmp_row 24.
  cmp_row 24.
  cmp_row 0.
  cmp_row 0.
  cmp_row 0.
  cmp_row 0.
  apply Forall_nil.
Qed.
Definition avx_compare_1 : list (string * (prel * psuffix * ftype) * ((Reg * Reg * Operand)%type -> E unit)) := [
  ("vcmpfalse_ospd", (Rfalse, Os, Fpd), fun '(x1, x2, op) => i_vcmpfalse_ospd_xxo x1 x2 op);
  ("vcmpfalse_osps", (Rfalse, Os, Fps), fun '(x1, x2, op) => i_vcmpfalse_osps_xxo x1 x2 op);
  ("vcmpfalse_ossd", (Rfalse, Os, Fsd), fun '(x1, x2, op) => i_vcmpfalse_ossd_xxo x1 x2 op);
  ("vcmpfalse_osss", (Rfalse, Os, Fss), fun '(x1, x2, op) => i_vcmpfalse_osss_xxo x1 x2 op);
  ("vcmpfalsepd", (Rfalse, Dflt, Fpd), fun '(x1, x2, op) => i_vcmpfalsepd_xxo x1 x2 op);
  ("vcmpfalseps", (Rfalse, Dflt, Fps), fun '(x1, x2, op) => i_vcmpfalseps_xxo x1 x2 op);
  ("vcmpfalsesd", (Rfalse, Dflt, Fsd), fun '(x1, x2, op) => i_vcmpfalsesd_xxo x1 x2 op);
  ("vcmpfalsess", (Rfalse, Dflt, Fss), fun '(x1, x2, op) => i_vcmpfalsess_xxo x1 x2 op);
  ("vcmpge_oqpd", (Rge, Oq, Fpd), fun '(x1, x2, op) => i_vcmpge_oqpd_xxo x1 x2 op);
  ("vcmpge_oqps", (Rge, Oq, Fps), fun '(x1, x2, op) => i_vcmpge_oqps_xxo x1 x2 op);
  ("vcmpge_oqsd", (Rge, Oq, Fsd), fun '(x1, x2, op) => i_vcmpge_oqsd_xxo x1 x2 op);
  ("vcmpge_oqss", (Rge, Oq, Fss), fun '(x1, x2, op) => i_vcmpge_oqss_xxo x1 x2 op);
  ("vcmpgepd", (Rge, Dflt, Fpd), fun '(x1, x2, op) => i_vcmpgepd_xxo x1 x2 op);
  ("vcmpgeps", (Rge, Dflt, Fps), fun '(x1, x2, op) => i_vcmpgeps_xxo x1 x2 op);
  ("vcmpgesd", (Rge, Dflt, Fsd), fun '(x1, x2, op) => i_vcmpgesd_xxo x1 x2 op);
  ("vcmpgess", (Rge, Dflt, Fss), fun '(x1, x2, op) => i_vcmpgess_xxo x1 x2 op)
].
Lemma avx_compare_1_ok : Forall (compares avx_compare_base "vcmp") avx_compare_1.
Proof.
  cmp_row 27.
  cmp_row 27.
  cmp_row 27.
  cmp_row 27.
  cmp_row 11.
  cmp_row 11.
  cmp_row 11.
  cmp_row 11.
  cmp_row 29.
  cmp_row 29.
  cmp_row 29.
  cmp_row 29.
  cmp_row 13.
  cmp_row 13.
  cmp_row 13.
  cmp_row 13.
  apply Forall_nil.
Qed.
Definition avx_compare_2 : list (string * (prel * psuffix * ftype) * ((Reg * Reg * Operand)%type -> E unit)) := [
  ("vcmpgt_oqpd", (Rgt, Oq, Fpd), fun '(x1, x2, op) => i_vcmpgt_oqpd_xxo x1 x2 op);
  ("vcmpgt_oqps", (Rgt, Oq, Fps), fun '(x1, x2, op) => i_vcmpgt_oqps_xxo x1 x2 op);
  ("vcmpgt_oqsd", (Rgt, Oq, Fsd), fun '(x1, x2, op) => i_vcmpgt_oqsd_xxo x1 x2 op);
  ("vcmpgt_oqss", (Rgt, Oq, Fss), fun '(x1, x2, op) => i_vcmpgt_oqss_xxo x1 x2 op);
  ("vcmpgtpd", (Rgt, Dflt, Fpd), fun '(x1, x2, op) => i_vcmpgtpd_xxo x1 x2 op);
  ("vcmpgtps", (Rgt, Dflt, Fps), fun '(x1, x2, op) => i_vcmpgtps_xxo x1 x2 op);
  ("vcmpgtsd", (Rgt, Dflt, Fsd), fun '(x1, x2, op) => i_vcmpgtsd_xxo x1 x2 op);
  ("vcmpgtss", (Rgt, Dflt, Fss), fun '(x1, x2, op) => i_vcmpgtss_xxo x1 x2 op);
  ("vcmple_oqpd", (Rle, Oq, Fpd), fun '(x1, x2, op) => i_vcmple_oqpd_xxo x1 x2 op);
  ("vcmple_oqps", (Rle, Oq, Fps), fun '(x1, x2, op) => i_vcmple_oqps_xxo x1 x2 op);
  ("vcmple_oqsd", (Rle, Oq, Fsd), fun '(x1, x2, op) => i_vcmple_oqsd_xxo x1 x2 op);
  ("vcmple_oqss", (Rle, Oq, Fss), fun '(x1, x2, op) => i_vcmple_oqss_xxo x1 x2 op);
  ("vcmplepd", (Rle, Dflt, Fpd), fun '(x1, x2, op) => i_vcmplepd_xxo x1 x2 op);
  ("vcmpleps", (Rle, Dflt, Fps), fun '(x1, x2, op) => i_vcmpleps_xxo x1 x2 op);
  ("vcmplesd", (Rle, Dflt, Fsd), fun '(x1, x2, op) => i_vcmplesd_xxo x1 x2 op);
  ("vcmpless", (Rle, Dflt, Fss), fun '(x1, x2, op) => i_vcmpless_xxo x1 x2 op)
].
Lemma avx_compare_2_ok : Forall (compares avx_compare_base "vcmp") avx_compare_2.
Proof.
  cmp_row 30.
  cmp_row 30.
  cmp_row 30.
  cmp_row 30.
  cmp_row 14.
  cmp_row 14.
  cmp_row 14.
  cmp_row 14.
  cmp_row 18.
  cmp_row 18.
  cmp_row 18.
  cmp_row 18.
  cmp_row 2.
  cmp_row 2.
  cmp_row 2.
  cmp_row 2.
  apply Forall_nil.
Qed.
Definition avx_compare_3 : list (string * (prel * psuffix * ftype) * ((Reg * Reg * Operand)%type -> E unit)) := [
  ("vcmplt_oqpd", (Rlt, Oq, Fpd), fun '(x1, x2, op) => i_vcmplt_oqpd_xxo x1 x2 op);
  ("vcmplt_oqps", (Rlt, Oq, Fps), fun '(x1, x2, op) => i_vcmplt_oqps_xxo x1 x2 op);
  ("vcmplt_oqsd", (Rlt, Oq, Fsd), fun '(x1, x2, op) => i_vcmplt_oqsd_xxo x1 x2 op);
  ("vcmplt_oqss", (Rlt, Oq, Fss), fun '(x1, x2, op) => i_vcmplt_oqss_xxo x1 x2 op);
  ("vcmpltpd", (Rlt, Dflt, Fpd), fun '(x1, x2, op) => i_vcmpltpd_xxo x1 x2 op);
  ("vcmpltps", (Rlt, Dflt, Fps), fun '(x1, x2, op) => i_vcmpltps_xxo x1 x2 op);
  ("vcmpltsd", (Rlt, Dflt, Fsd), fun '(x1, x2, op) => i_vcmpltsd_xxo x1 x2 op);
  ("vcmpltss", (Rlt, Dflt, Fss), fun '(x1, x2, op) => i_vcmpltss_xxo x1 x2 op);
  ("vcmpneq_oqpd", (Rneq, Oq, Fpd), fun '(x1, x2, op) => i_vcmpneq_oqpd_xxo x1 x2 op);
  ("vcmpneq_oqps", (Rneq, Oq, Fps), fun '(x1, x2, op) => i_vcmpneq_oqps_xxo x1 x2 op);
  ("vcmpneq_oqsd", (Rneq, Oq, Fsd), fun '(x1, x2, op) => i_vcmpneq_oqsd_xxo x1 x2 op);
  ("vcmpneq_oqss", (Rneq, Oq, Fss), fun '(x1, x2, op) => i_vcmpneq_oqss_xxo x1 x2 op);
  ("vcmpneq_ospd", (Rneq, Os, Fpd), fun '(x1, x2, op) => i_vcmpneq_ospd_xxo x1 x2 op);
  ("vcmpneq_osps", (Rneq, Os, Fps), fun '(x1, x2, op) => i_vcmpneq_osps_xxo x1 x2 op);
  ("vcmpneq_ossd", (Rneq, Os, Fsd), fun '(x1, x2, op) => i_vcmpneq_ossd_xxo x1 x2 op);
  ("vcmpneq_osss", (Rneq, Os, Fss), fun '(x1, x2, op) => i_vcmpneq_osss_xxo x1 x2 op)
].
Lemma avx_compare_3_ok : Forall (compares avx_compare_base "vcmp") avx_compare_3.
Proof.
  cmp_row 17.
  cmp_row 17.
  cmp_row 17.
  cmp_row 17.
  cmp_row 1.
  cmp_row 1.
  cmp_row 1.
  cmp_row 1.
  cmp_row 12.
  cmp_row 12.
  cmp_row 12.
  cmp_row 12.
  cmp_row 28.
  cmp_row 28.
  cmp_row 28.
  cmp_row 28.
  apply Forall_nil.
Qed.
Definition avx_compare_4 : list (string * (prel * psuffix * ftype) * ((Reg * Reg * Operand)%type -> E unit)) := [
  ("vcmpneq_uspd", (Rneq, Us, Fpd), fun '(x1, x2, op) => i_vcmpneq_uspd_xxo x1 x2 op);
  ("vcmpneq_usps", (Rneq, Us, Fps), fun '(x1, x2, op) => i_vcmpneq_usps_xxo x1 x2 op);
  ("vcmpneq_ussd", (Rneq, Us, Fsd), fun '(x1, x2, op) => i_vcmpneq_ussd_xxo x1 x2 op);
  ("vcmpneq_usss", (Rneq, Us, Fss), fun '(x1, x2, op) => i_vcmpneq_usss_xxo x1 x2 op);
  ("vcmpneqpd", (Rneq, Dflt, Fpd), fun '(x1, x2, op) => i_vcmpneqpd_xxo x1 x2 op);
  ("vcmpneqps", (Rneq, Dflt, Fps), fun '(x1, x2, op) => i_vcmpneqps_xxo x1 x2 op);
  ("vcmpneqsd", (Rneq, Dflt, Fsd), fun '(x1, x2, op) => i_vcmpneqsd_xxo x1 x2 op);
  ("vcmpneqss", (Rneq, Dflt, Fss), fun '(x1, x2, op) => i_vcmpneqss_xxo x1 x2 op);
  ("vcmpnge_uqpd", (Rnge, Uq, Fpd), fun '(x1, x2, op) => i_vcmpnge_uqpd_xxo x1 x2 op);
  ("vcmpnge_uqps", (Rnge, Uq, Fps), fun '(x1, x2, op) => i_vcmpnge_uqps_xxo x1 x2 op);
  ("vcmpnge_uqsd", (Rnge, Uq, Fsd), fun '(x1, x2, op) => i_vcmpnge_uqsd_xxo x1 x2 op);
  ("vcmpnge_uqss", (Rnge, Uq, Fss), fun '(x1, x2, op) => i_vcmpnge_uqss_xxo x1 x2 op);
  ("vcmpngepd", (Rnge, Dflt, Fpd), fun '(x1, x2, op) => i_vcmpngepd_xxo x1 x2 op);
  ("vcmpngeps", (Rnge, Dflt, Fps), fun '(x1, x2, op) => i_vcmpngeps_xxo x1 x2 op);
  ("vcmpngesd", (Rnge, Dflt, Fsd), fun '(x1, x2, op) => i_vcmpngesd_xxo x1 x2 op);
  ("vcmpngess", (Rnge, Dflt, Fss), fun '(x1, x2, op) => i_vcmpngess_xxo x1 x2 op)
].
Lemma avx_compare_4_ok : Forall (compares avx_compare_base "vcmp") avx_compare_4.
Proof.
  cmp_row 20.
  cmp_row 20.
  cmp_row 20.
  cmp_row 20.
  cmp_row 4.
  cmp_row 4.
  cmp_row 4.
  cmp_row 4.
  cmp_row 25.
  cmp_row 25.
  cmp_row 25.
  cmp_row 25.
  cmp_row 9.
  cmp_row 9.
  cmp_row 9.
  cmp_row 9.
  apply Forall_nil.
Qed.
Definition avx_compare_5 : list (string * (prel * psuffix * ftype) * ((Reg * Reg * Operand)%type -> E unit)) := [
  ("vcmpngt_uqpd", (Rngt, Uq, Fpd), fun '(x1, x2, op) => i_vcmpngt_uqpd_xxo x1 x2 op);
  ("vcmpngt_uqps", (Rngt, Uq, Fps), fun '(x1, x2, op) => i_vcmpngt_uqps_xxo x1 x2 op);
  ("vcmpngt_uqsd", (Rngt, Uq, Fsd), fun '(x1, x2, op) => i_vcmpngt_uqsd_xxo x1 x2 op);
  ("vcmpngt_uqss", (Rngt, Uq, Fss), fun '(x1, x2, op) => i_vcmpngt_uqss_xxo x1 x2 op);
  ("vcmpngtpd", (Rngt, Dflt, Fpd), fun '(x1, x2, op) => i_vcmpngtpd_xxo x1 x2 op);
  ("vcmpngtps", (Rngt, Dflt, Fps), fun '(x1, x2, op) => i_vcmpngtps_xxo x1 x2 op);
  ("vcmpngtsd", (Rngt, Dflt, Fsd), fun '(x1, x2, op) => i_vcmpngtsd_xxo x1 x2 op);
  ("vcmpngtss", (Rngt, Dflt, Fss), fun '(x1, x2, op) => i_vcmpngtss_xxo x1 x2 op);
  ("vcmpnle_uqpd", (Rnle, Uq, Fpd), fun '(x1, x2, op) => i_vcmpnle_uqpd_xxo x1 x2 op);
  ("vcmpnle_uqps", (Rnle, Uq, Fps), fun '(x1, x2, op) => i_vcmpnle_uqps_xxo x1 x2 op);
  ("vcmpnle_uqsd", (Rnle, Uq, Fsd), fun '(x1, x2, op) => i_vcmpnle_uqsd_xxo x1 x2 op);
  ("vcmpnle_uqss", (Rnle, Uq, Fss), fun '(x1, x2, op) => i_vcmpnle_uqss_xxo x1 x2 op);
  ("vcmpnlepd", (Rnle, Dflt, Fpd), fun '(x1, x2, op) => i_vcmpnlepd_xxo x1 x2 op);
  ("vcmpnleps", (Rnle, Dflt, Fps), fun '(x1, x2, op) => i_vcmpnleps_xxo x1 x2 op);
  ("vcmpnlesd", (Rnle, Dflt, Fsd), fun '(x1, x2, op) => i_vcmpnlesd_xxo x1 x2 op);
  ("vcmpnless", (Rnle, Dflt, Fss), fun '(x1, x2, op) => i_vcmpnless_xxo x1 x2 op)
].
Lemma avx_compare_5_ok : Forall (compares avx_compare_base "vcmp") avx_compare_5.
Proof.
  cmp_row 26.
  cmp_row 26.
  cmp_row 26.
  cmp_row 26.
  cmp_row 10.
  cmp_row 10.
  cmp_row 10.
  cmp_row 10.
  cmp_row 22.
  cmp_row 22.
  cmp_row 22.
  cmp_row 22.
  cmp_row 6.
  cmp_row 6.
  cmp_row 6.
  cmp_row 6.
  apply Forall_nil.
Qed.
Definition avx_compare_6 : list (string * (prel * psuffix * ftype) * ((Reg * Reg * Operand)%type -> E unit)) := [
  ("vcmpnlt_uqpd", (Rnlt, Uq, Fpd), fun '(x1, x2, op) => i_vcmpnlt_uqpd_xxo x1 x2 op);
  ("vcmpnlt_uqps", (Rnlt, Uq, Fps), fun '(x1, x2, op) => i_vcmpnlt_uqps_xxo x1 x2 op);
  ("vcmpnlt_uqsd", (Rnlt, Uq, Fsd), fun '(x1, x2, op) => i_vcmpnlt_uqsd_xxo x1 x2 op);
  ("vcmpnlt_uqss", (Rnlt, Uq, Fss), fun '(x1, x2, op) => i_vcmpnlt_uqss_xxo x1 x2 op);
  ("vcmpnltpd", (Rnlt, Dflt, Fpd), fun '(x1, x2, op) => i_vcmpnltpd_xxo x1 x2 op);
  ("vcmpnltps", (Rnlt, Dflt, Fps), fun '(x1, x2, op) => i_vcmpnltps_xxo x1 x2 op);
  ("vcmpnltsd", (Rnlt, Dflt, Fsd), fun '(x1, x2, op) => i_vcmpnltsd_xxo x1 x2 op);
  ("vcmpnltss", (Rnlt, Dflt, Fss), fun '(x1, x2, op) => i_vcmpnltss_xxo x1 x2 op);
  ("vcmpord_spd", (Rord, Ss, Fpd), fun '(x1, x2, op) => i_vcmpord_spd_xxo x1 x2 op);
  ("vcmpord_sps", (Rord, Ss, Fps), fun '(x1, x2, op) => i_vcmpord_sps_xxo x1 x2 op);
  ("vcmpord_ssd", (Rord, Ss, Fsd), fun '(x1, x2, op) => i_vcmpord_ssd_xxo x1 x2 op);
  ("vcmpord_sss", (Rord, Ss, Fss), fun '(x1, x2, op) => i_vcmpord_sss_xxo x1 x2 op);
  ("vcmpordpd", (Rord, Dflt, Fpd), fun '(x1, x2, op) => i_vcmpordpd_xxo x1 x2 op);
  ("vcmpordps", (Rord, Dflt, Fps), fun '(x1, x2, op) => i_vcmpordps_xxo x1 x2 op);
  ("vcmpordsd", (Rord, Dflt, Fsd), fun '(x1, x2, op) => i_vcmpordsd_xxo x1 x2 op);
  ("vcmpordss", (Rord, Dflt, Fss), fun '(x1, x2, op) => i_vcmpordss_xxo x1 x2 op)
].
Lemma avx_compare_6_ok : Forall (compares avx_compare_base "vcmp") avx_compare_6.
Proof.
  cmp_row 21.
  cmp_row 21.
  cmp_row 21.
  cmp_row 21.
  cmp_row 5.
  cmp_row 5.
  cmp_row 5.
  cmp_row 5.
  cmp_row 23.
  cmp_row 23.
  cmp_row 23.
  cmp_row 23.
  cmp_row 7.
  cmp_row 7.
  cmp_row 7.
  cmp_row 7.
  apply Forall_nil.
Qed.
Definition avx_compare_7 : list (string * (prel * psuffix * ftype) * ((Reg * Reg * Operand)%type -> E unit)) := [
  ("vcmptrue_uspd", (Rtrue, Us, Fpd), fun '(x1, x2, op) => i_vcmptrue_uspd_xxo x1 x2 op);
  ("vcmptrue_usps", (Rtrue, Us, Fps), fun '(x1, x2, op) => i_vcmptrue_usps_xxo x1 x2 op);
  ("vcmptrue_ussd", (Rtrue, Us, Fsd), fun '(x1, x2, op) => i_vcmptrue_ussd_xxo x1 x2 op);
  ("vcmptrue_usss", (Rtrue, Us, Fss), fun '(x1, x2, op) => i_vcmptrue_usss_xxo x1 x2 op);
  ("vcmptruepd", (Rtrue, Dflt, Fpd), fun '(x1, x2, op) => i_vcmptruepd_xxo x1 x2 op);
  ("vcmptrueps", (Rtrue, Dflt, Fps), fun '(x1, x2, op) => i_vcmptrueps_xxo x1 x2 op);
  ("vcmptruesd", (Rtrue, Dflt, Fsd), fun '(x1, x2, op) => i_vcmptruesd_xxo x1 x2 op);
  ("vcmptruess", (Rtrue, Dflt, Fss), fun '(x1, x2, op) => i_vcmptruess_xxo x1 x2 op);
  ("vcmpunord_spd", (Runord, Ss, Fpd), fun '(x1, x2, op) => i_vcmpunord_spd_xxo x1 x2 op);
  ("vcmpunord_sps", (Runord, Ss, Fps), fun '(x1, x2, op) => i_vcmpunord_sps_xxo x1 x2 op);
  ("vcmpunord_ssd", (Runord, Ss, Fsd), fun '(x1, x2, op) => i_vcmpunord_ssd_xxo x1 x2 op);
  ("vcmpunord_sss", (Runord, Ss, Fss), fun '(x1, x2, op) => i_vcmpunord_sss_xxo x1 x2 op);
  ("vcmpunordpd", (Runord, Dflt, Fpd), fun '(x1, x2, op) => i_vcmpunordpd_xxo x1 x2 op);
  ("vcmpunordps", (Runord, Dflt, Fps), fun '(x1, x2, op) => i_vcmpunordps_xxo x1 x2 op);
  ("vcmpunordsd", (Runord, Dflt, Fsd), fun '(x1, x2, op) => i_vcmpunordsd_xxo x1 x2 op);
  ("vcmpunordss", (Runord, Dflt, Fss), fun '(x1, x2, op) => i_vcmpunordss_xxo x1 x2 op)
].
Lemma avx_compare_7_ok : Forall (compares avx_compare_base "vcmp") avx_compare_7.
Proof.
  cmp_row 31.
  cmp_row 31.
  cmp_row 31.
  cmp_row 31.
  cmp_row 15.
  cmp_row 15.
  cmp_row 15.
  cmp_row 15.
  cmp_row 19.
  cmp_row 19.
  cmp_row 19.
  cmp_row 19.
  cmp_row 3.
  cmp_row 3.
  cmp_row 3.
  cmp_row 3.
  apply Forall_nil.
Qed.
Definition avx_compare := (avx_compare_0 ++ avx_compare_1 ++ avx_compare_2 ++ avx_compare_3 ++ avx_compare_4 ++ avx_compare_5 ++ avx_compare_6 ++ avx_compare_7)%list.
Lemma avx_compare_ok : Forall (compares avx_compare_base "vcmp") avx_compare.
Proof. unfold avx_compare. repeat (apply Forall_app; split). exact avx_compare_0_ok. exact avx_compare_1_ok. exact avx_compare_2_ok. exact avx_compare_3_ok. exact avx_compare_4_ok. exact avx_compare_5_ok. exact avx_compare_6_ok. exact avx_compare_7_ok. Qed.
Definition mask_compare_base (t : ftype) (a : (Reg * Reg * Operand)%type) (imm : Z) : E unit :=
  match t with Fps => let '(k, x, op) := a in i_vcmpps_kxoi k x op imm | Fpd => let '(k, x, op) := a in i_vcmppd_kxoi k x op imm | Fss => let '(k, x, op) := a in i_vcmpss_kxoi k x op imm | Fsd => let '(k, x, op) := a in i_vcmpsd_kxoi k x op imm end.
Definition mask_compare_0 : list (string * (prel * psuffix * ftype) * ((Reg * Reg * Operand)%type -> E unit)) := [
  ("vcmpeq_ospd", (Req, Os, Fpd), fun '(k, x, op) => i_vcmpeq_ospd_kxo k x op);
  ("vcmpeq_osps", (Req, Os, Fps), fun '(k, x, op) => i_vcmpeq_osps_kxo k x op);
  ("vcmpeq_ossd", (Req, Os, Fsd), fun '(k, x, op) => i_vcmpeq_ossd_kxo k x op);
  ("vcmpeq_osss", (Req, Os, Fss), fun '(k, x, op) => i_vcmpeq_osss_kxo k x op);
  ("vcmpeq_uqpd", (Req, Uq, Fpd), fun '(k, x, op) => i_vcmpeq_uqpd_kxo k x op);
  ("vcmpeq_uqps", (Req, Uq, Fps), fun '(k, x, op) => i_vcmpeq_uqps_kxo k x op);
  ("vcmpeq_uqsd", (Req, Uq, Fsd), fun '(k, x, op) => i_vcmpeq_uqsd_kxo k x op);
  ("vcmpeq_uqss", (Req, Uq, Fss), fun '(k, x, op) => i_vcmpeq_uqss_kxo k x op);
  ("vcmpeq_uspd", (Req, Us, Fpd), fun '(k, x, op) => i_vcmpeq_uspd_kxo k x op);
  ("vcmpeq_usps", (Req, Us, Fps), fun '(k, x, op) => i_vcmpeq_usps_kxo k x op);
  ("vcmpeq_ussd", (Req, Us, Fsd), fun '(k, x, op) => i_vcmpeq_ussd_kxo k x op);
  ("vcmpeq_usss", (Req, Us, Fss), fun '(k, x, op) => i_vcmpeq_usss_kxo k x op);
  ("vcmpeqpd", (Req, Dflt, Fpd), fun '(k, x, op) => i_vcmpeqpd_kxo k x op);
  ("vcmpeqps", (Req, Dflt, Fps), fun '(k, x, op) => i_vcmpeqps_kxo k x op);
  ("vcmpeqsd", (Req, Dflt, Fsd), fun '(k, x, op) => i_vcmpeqsd_kxo k x op);
  ("vcmpeqss", (Req, Dflt, Fss), fun '(k, x, op) => i_vcmpeqss_kxo k x op)
].
Lemma mask_compare_0_ok : Forall (compares mask_compare_base "vcmp") mask_compare_0.
Proof.
  cmp_row 16.
  cmp_row 16.
  cmp_row 16.
  cmp_row 16.
  cmp_row 8.
  cmp_row 8.
  cmp_row 8.
  cmp_row 8.
  cmp_row 24.
  cmp_row 24.
  cmp_row 24.
  cmp_row 24.
  cmp_row 0.
  cmp_row 0.
  cmp_row 0.
  cmp_row 0.
  apply Forall_nil.
Qed.
Definition mask_compare_1 : list (string * (prel * psuffix * ftype) * ((Reg * Reg * Operand)%type -> E unit)) := [
  ("vcmpfalse_ospd", (Rfalse, Os, Fpd), fun '(k, x, op) => i_vcmpfalse_ospd_kxo k x op);
  ("vcmpfalse_osps", (Rfalse, Os, Fps), fun '(k, x, op) => i_vcmpfalse_osps_kxo k x op);
  ("vcmpfalse_ossd", (Rfalse, Os, Fsd), fun '(k, x, op) => i_vcmpfalse_ossd_kxo k x op);
  ("vcmpfalse_osss", (Rfalse, Os, Fss), fun '(k, x, op) => i_vcmpfalse_osss_kxo k x op);
  ("vcmpfalsepd", (Rfalse, Dflt, Fpd), fun '(k, x, op) => i_vcmpfalsepd_kxo k x op);
  ("vcmpfalseps", (Rfalse, Dflt, Fps), fun '(k, x, op) => i_vcmpfalseps_kxo k x op);
  ("vcmpfalsesd", (Rfalse, Dflt, Fsd), fun '(k, x, op) => i_vcmpfalsesd_kxo k x op);
  ("vcmpfalsess", (Rfalse, Dflt, Fss), fun '(k, x, op) => i_vcmpfalsess_kxo k x op);
  ("vcmpge_oqpd", (Rge, Oq, Fpd), fun '(k, x, op) => i_vcmpge_oqpd_kxo k x op);
  ("vcmpge_oqps", (Rge, Oq, Fps), fun '(k, x, op) => i_vcmpge_oqps_kxo k x op);
  ("vcmpge_oqsd", (Rge, Oq, Fsd), fun '(k, x, op) => i_vcmpge_oqsd_kxo k x op);
  ("vcmpge_oqss", (Rge, Oq, Fss), fun '(k, x, op) => i_vcmpge_oqss_kxo k x op);
  ("vcmpgepd", (Rge, Dflt, Fpd), fun '(k, x, op) => i_vcmpgepd_kxo k x op);
  ("vcmpgeps", (Rge, Dflt, Fps), fun '(k, x, op) => i_vcmpgeps_kxo k x op);
  ("vcmpgesd", (Rge, Dflt, Fsd), fun '(k, x, op) => i_vcmpgesd_kxo k x op);
  ("vcmpgess", (Rge, Dflt, Fss), fun '(k, x, op) => i_vcmpgess_kxo k x op)
].
Lemma mask_compare_1_ok : Forall (compares mask_compare_base "vcmp") mask_compare_1.
Proof.
  cmp_row 27.
  cmp_row 27.
  cmp_row 27.
  cmp_row 27.
  cmp_row 11.
  cmp_row 11.
  cmp_row 11.
  cmp_row 11.
  cmp_row 29.
  cmp_row 29.
  cmp_row 29.
  cmp_row 29.
  cmp_row 13.
  cmp_row 13.
  cmp_row 13.
  cmp_row 13.
  apply Forall_nil.
Qed.
Definition mask_compare_2 : list (string * (prel * psuffix * ftype) * ((Reg * Reg * Operand)%type -> E unit)) := [
  ("vcmpgt_oqpd", (Rgt, Oq, Fpd), fun '(k, x, op) => i_vcmpgt_oqpd_kxo k x op);
  ("vcmpgt_oqps", (Rgt, Oq, Fps), fun '(k, x, op) => i_vcmpgt_oqps_kxo k x op);
  ("vcmpgt_oqsd", (Rgt, Oq, Fsd), fun '(k, x, op) => i_vcmpgt_oqsd_kxo k x op);
  ("vcmpgt_oqss", (Rgt, Oq, Fss), fun '(k, x, op) => i_vcmpgt_oqss_kxo k x op);
  ("vcmpgtpd", (Rgt, Dflt, Fpd), fun '(k, x, op) => i_vcmpgtpd_kxo k x op);
  ("vcmpgtps", (Rgt, Dflt, Fps), fun '(k, x, op) => i_vcmpgtps_kxo k x op);
  ("vcmpgtsd", (Rgt, Dflt, Fsd), fun '(k, x, op) => i_vcmpgtsd_kxo k x op);
  ("vcmpgtss", (Rgt, Dflt, Fss), fun '(k, x, op) => i_vcmpgtss_kxo k x op);
  ("vcmple_oqpd", (Rle, Oq, Fpd), fun '(k, x, op) => i_vcmple_oqpd_kxo k x op);
  ("vcmple_oqps", (Rle, Oq, Fps), fun '(k, x, op) => i_vcmple_oqps_kxo k x op);
  ("vcmple_oqsd", (Rle, Oq, Fsd), fun '(k, x, op) => i_vcmple_oqsd_kxo k x op);
  ("vcmple_oqss", (Rle, Oq, Fss), fun '(k, x, op) => i_vcmple_oqss_kxo k x op);
  ("vcmplepd", (Rle, Dflt, Fpd), fun '(k, x, op) => i_vcmplepd_kxo k x op);
  ("vcmpleps", (Rle, Dflt, Fps), fun '(k, x, op) => i_vcmpleps_kxo k x op);
  ("vcmplesd", (Rle, Dflt, Fsd), fun '(k, x, op) => i_vcmplesd_kxo k x op);
  ("vcmpless", (Rle, Dflt, Fss), fun '(k, x, op) => i_vcmpless_kxo k x op)
].
Lemma mask_compare_2_ok : Forall (compares mask_compare_base "vcmp") mask_compare_2.
Proof.
  cmp_row 30.
  cmp_row 30.
  cmp_row 30.
  cmp_row 30.
  cmp_row 14.
  cmp_row 14.
  cmp_row 14.
  cmp_row 14.
  cmp_row 18.
  cmp_row 18.
  cmp_row 18.
  cmp_row 18.
  cmp_row 2.
  cmp_row 2.
  cmp_row 2.
  cmp_row 2.
  apply Forall_nil.
Qed.
Definition mask_compare_3 : list (string * (prel * psuffix * ftype) * ((Reg * Reg * Operand)%type -> E unit)) := [
  ("vcmplt_oqpd", (Rlt, Oq, Fpd), fun '(k, x, op) => i_vcmplt_oqpd_kxo k x op);
  ("vcmplt_oqps", (Rlt, Oq, Fps), fun '(k, x, op) => i_vcmplt_oqps_kxo k x op);
  ("vcmplt_oqsd", (Rlt, Oq, Fsd), fun '(k, x, op) => i_vcmplt_oqsd_kxo k x op);
  ("vcmplt_oqss", (Rlt, Oq, Fss), fun '(k, x, op) => i_vcmplt_oqss_kxo k x op);
  ("vcmpltpd", (Rlt, Dflt, Fpd), fun '(k, x, op) => i_vcmpltpd_kxo k x op);
  ("vcmpltps", (Rlt, Dflt, Fps), fun '(k, x, op) => i_vcmpltps_kxo k x op);
  ("vcmpltsd", (Rlt, Dflt, Fsd), fun '(k, x, op) => i_vcmpltsd_kxo k x op);
  ("vcmpltss", (Rlt, Dflt, Fss), fun '(k, x, op) => i_vcmpltss_kxo k x op);
  ("vcmpneq_oqpd", (Rneq, Oq, Fpd), fun '(k, x, op) => i_vcmpneq_oqpd_kxo k x op);
  ("vcmpneq_oqps", (Rneq, Oq, Fps), fun '(k, x, op) => i_vcmpneq_oqps_kxo k x op);
  ("vcmpneq_oqsd", (Rneq, Oq, Fsd), fun '(k, x, op) => i_vcmpneq_oqsd_kxo k x op);
  ("vcmpneq_oqss", (Rneq, Oq, Fss), fun '(k, x, op) => i_vcmpneq_oqss_kxo k x op);
  ("vcmpneq_ospd", (Rneq, Os, Fpd), fun '(k, x, op) => i_vcmpneq_ospd_kxo k x op);
  ("vcmpneq_osps", (Rneq, Os, Fps), fun '(k, x, op) => i_vcmpneq_osps_kxo k x op);
  ("vcmpneq_ossd", (Rneq, Os, Fsd), fun '(k, x, op) => i_vcmpneq_ossd_kxo k x op);
  ("vcmpneq_osss", (Rneq, Os, Fss), fun '(k, x, op) => i_vcmpneq_osss_kxo k x op)
].
Lemma mask_compare_3_ok : Forall (compares mask_compare_base "vcmp") mask_compare_3.
Proof.
  cmp_row 17.
  cmp_row 17.
  cmp_row 17.
  cmp_row 17.
  cmp_row 1.
  cmp_row 1.
  cmp_row 1.
  cmp_row 1.
  cmp_row 12.
  cmp_row 12.
  cmp_row 12.
  cmp_row 12.
  cmp_row 28.
  cmp_row 28.
  cmp_row 28.
  cmp_row 28.
  apply Forall_nil.
Qed.
Definition mask_compare_4 : list (string * (prel * psuffix * ftype) * ((Reg * Reg * Operand)%type -> E unit)) := [
  ("vcmpneq_uspd", (Rneq, Us, Fpd), fun '(k, x, op) => i_vcmpneq_uspd_kxo k x op);
  ("vcmpneq_usps", (Rneq, Us, Fps), fun '(k, x, op) => i_vcmpneq_usps_kxo k x op);
  ("vcmpneq_ussd", (Rneq, Us, Fsd), fun '(k, x, op) => i_vcmpneq_ussd_kxo k x op);
  ("vcmpneq_usss", (Rneq, Us, Fss), fun '(k, x, op) => i_vcmpneq_usss_kxo k x op);
  ("vcmpneqpd", (Rneq, Dflt, Fpd), fun '(k, x, op) => i_vcmpneqpd_kxo k x op);
  ("vcmpneqps", (Rneq, Dflt, Fps), fun '(k, x, op) => i_vcmpneqps_kxo k x op);
  ("vcmpneqsd", (Rneq, Dflt, Fsd), fun '(k, x, op) => i_vcmpneqsd_kxo k x op);
  ("vcmpneqss", (Rneq, Dflt, Fss), fun '(k, x, op) => i_vcmpneqss_kxo k x op);
  ("vcmpnge_uqpd", (Rnge, Uq, Fpd), fun '(k, x, op) => i_vcmpnge_uqpd_kxo k x op);
  ("vcmpnge_uqps", (Rnge, Uq, Fps), fun '(k, x, op) => i_vcmpnge_uqps_kxo k x op);
  ("vcmpnge_uqsd", (Rnge, Uq, Fsd), fun '(k, x, op) => i_vcmpnge_uqsd_kxo k x op);
  ("vcmpnge_uqss", (Rnge, Uq, Fss), fun '(k, x, op) => i_vcmpnge_uqss_kxo k x op);
  ("vcmpngepd", (Rnge, Dflt, Fpd), fun '(k, x, op) => i_vcmpngepd_kxo k x op);
  ("vcmpngeps", (Rnge, Dflt, Fps), fun '(k, x, op) => i_vcmpngeps_kxo k x op);
  ("vcmpngesd", (Rnge, Dflt, Fsd), fun '(k, x, op) => i_vcmpngesd_kxo k x op);
  ("vcmpngess", (Rnge, Dflt, Fss), fun '(k, x, op) => i_vcmpngess_kxo k x op)
].
Lemma mask_compare_4_ok : Forall (compares mask_compare_base "vcmp") mask_compare_4.
Proof.
  cmp_row 20.
  cmp_row 20.
  cmp_row 20.
  cmp_row 20.
  cmp_row 4.
  cmp_row 4.
  cmp_row 4.
  cmp_row 4.
  cmp_row 25.
  cmp_row 25.
  cmp_row 25.
  cmp_row 25.
  cmp_row 9.
  cmp_row 9.
  cmp_row 9.
  cmp_row 9.
  apply Forall_nil.
Qed.
Definition mask_compare_5 : list (string * (prel * psuffix * ftype) * ((Reg * Reg * Operand)%type -> E unit)) := [
  ("vcmpngt_uqpd", (Rngt, Uq, Fpd), fun '(k, x, op) => i_vcmpngt_uqpd_kxo k x op);
  ("vcmpngt_uqps", (Rngt, Uq, Fps), fun '(k, x, op) => i_vcmpngt_uqps_kxo k x op);
  ("vcmpngt_uqsd", (Rngt, Uq, Fsd), fun '(k, x, op) => i_vcmpngt_uqsd_kxo k x op);
  ("vcmpngt_uqss", (Rngt, Uq, Fss), fun '(k, x, op) => i_vcmpngt_uqss_kxo k x op);
  ("vcmpngtpd", (Rngt, Dflt, Fpd), fun '(k, x, op) => i_vcmpngtpd_kxo k x op);
  ("vcmpngtps", (Rngt, Dflt, Fps), fun '(k, x, op) => i_vcmpngtps_kxo k x op);
  ("vcmpngtsd", (Rngt, Dflt, Fsd), fun '(k, x, op) => i_vcmpngtsd_kxo k x op);
  ("vcmpngtss", (Rngt, Dflt, Fss), fun '(k, x, op) => i_vcmpngtss_kxo k x op);
  ("vcmpnle_uqpd", (Rnle, Uq, Fpd), fun '(k, x, op) => i_vcmpnle_uqpd_kxo k x op);
  ("vcmpnle_uqps", (Rnle, Uq, Fps), fun '(k, x, op) => i_vcmpnle_uqps_kxo k x op);
  ("vcmpnle_uqsd", (Rnle, Uq, Fsd), fun '(k, x, op) => i_vcmpnle_uqsd_kxo k x op);
  ("vcmpnle_uqss", (Rnle, Uq, Fss), fun '(k, x, op) => i_vcmpnle_uqss_kxo k x op);
  ("vcmpnlepd", (Rnle, Dflt, Fpd), fun '(k, x, op) => i_vcmpnlepd_kxo k x op);
  ("vcmpnleps", (Rnle, Dflt, Fps), fun '(k, x, op) => i_vcmpnleps_kxo k x op);
  ("vcmpnlesd", (Rnle, Dflt, Fsd), fun '(k, x, op) => i_vcmpnlesd_kxo k x op);
  ("vcmpnless", (Rnle, Dflt, Fss), fun '(k, x, op) => i_vcmpnless_kxo k x op)
].
Lemma mask_compare_5_ok : Forall (compares mask_compare_base "vcmp") mask_compare_5.
Proof.
  cmp_row 26.
  cmp_row 26.
  cmp_row 26.
  cmp_row 26.
  cmp_row 10.
  cmp_row 10.
  cmp_row 10.
  cmp_row 10.
  cmp_row 22.
  cmp_row 22.
  cmp_row 22.
  cmp_row 22.
  cmp_row 6.
  cmp_row 6.
  cmp_row 6.
  cmp_row 6.
  apply Forall_nil.
Qed.
Definition mask_compare_6 : list (string * (prel * psuffix * ftype) * ((Reg * Reg * Operand)%type -> E unit)) := [
  ("vcmpnlt_uqpd", (Rnlt, Uq, Fpd), fun '(k, x, op) => i_vcmpnlt_uqpd_kxo k x op);
  ("vcmpnlt_uqps", (Rnlt, Uq, Fps), fun '(k, x, op) => i_vcmpnlt_uqps_kxo k x op);
  ("vcmpnlt_uqsd", (Rnlt, Uq, Fsd), fun '(k, x, op) => i_vcmpnlt_uqsd_kxo k x op);
  ("vcmpnlt_uqss", (Rnlt, Uq, Fss), fun '(k, x, op) => i_vcmpnlt_uqss_kxo k x op);
  ("vcmpnltpd", (Rnlt, Dflt, Fpd), fun '(k, x, op) => i_vcmpnltpd_kxo k x op);
  ("vcmpnltps", (Rnlt, Dflt, Fps), fun '(k, x, op) => i_vcmpnltps_kxo k x op);
  ("vcmpnltsd", (Rnlt, Dflt, Fsd), fun '(k, x, op) => i_vcmpnltsd_kxo k x op);
  ("vcmpnltss", (Rnlt, Dflt, Fss), fun '(k, x, op) => i_vcmpnltss_kxo k x op);
  ("vcmpord_spd", (Rord, Ss, Fpd), fun '(k, x, op) => i_vcmpord_spd_kxo k x op);
  ("vcmpord_sps", (Rord, Ss, Fps), fun '(k, x, op) => i_vcmpord_sps_kxo k x op);
  ("vcmpord_ssd", (Rord, Ss, Fsd), fun '(k, x, op) => i_vcmpord_ssd_kxo k x op);
  ("vcmpord_sss", (Rord, Ss, Fss), fun '(k, x, op) => i_vcmpord_sss_kxo k x op);
  ("vcmpordpd", (Rord, Dflt, Fpd), fun '(k, x, op) => i_vcmpordpd_kxo k x op);
  ("vcmpordps", (Rord, Dflt, Fps), fun '(k, x, op) => i_vcmpordps_kxo k x op);
  ("vcmpordsd", (Rord, Dflt, Fsd), fun '(k, x, op) => i_vcmpordsd_kxo k x op);
  ("vcmpordss", (Rord, Dflt, Fss), fun '(k, x, op) => i_vcmpordss_kxo k x op)
].
Lemma mask_compare_6_ok : Forall (compares mask_compare_base "vcmp") mask_compare_6.
Proof.
  cmp_row 21.
  cmp_row 21.
  cmp_row 21.
  cmp_row 21.
  cmp_row 5.
  cmp_row 5.
  cmp_row 5.
  cmp_row 5.
  cmp_row 23.
  cmp_row 23.
  cmp_row 23.
  cmp_row 23.
  cmp_row 7.
  cmp_row 7.
  cmp_row 7.
  cmp_row 7.
  apply Forall_nil.
Qed.
Definition mask_compare_7 : list (string * (prel * psuffix * ftype) * ((Reg * Reg * Operand)%type -> E unit)) := [
  ("vcmptrue_uspd", (Rtrue, Us, Fpd), fun '(k, x, op) => i_vcmptrue_uspd_kxo k x op);
  ("vcmptrue_usps", (Rtrue, Us, Fps), fun '(k, x, op) => i_vcmptrue_usps_kxo k x op);
  ("vcmptrue_ussd", (Rtrue, Us, Fsd), fun '(k, x, op) => i_vcmptrue_ussd_kxo k x op);
  ("vcmptrue_usss", (Rtrue, Us, Fss), fun '(k, x, op) => i_vcmptrue_usss_kxo k x op);
  ("vcmptruepd", (Rtrue, Dflt, Fpd), fun '(k, x, op) => i_vcmptruepd_kxo k x op);
  ("vcmptrueps", (Rtrue, Dflt, Fps), fun '(k, x, op) => i_vcmptrueps_kxo k x op);
  ("vcmptruesd", (Rtrue, Dflt, Fsd), fun '(k, x, op) => i_vcmptruesd_kxo k x op);
  ("vcmptruess", (Rtrue, Dflt, Fss), fun '(k, x, op) => i_vcmptruess_kxo k x op);
  ("vcmpunord_spd", (Runord, Ss, Fpd), fun '(k, x, op) => i_vcmpunord_spd_kxo k x op);
  ("vcmpunord_sps", (Runord, Ss, Fps), fun '(k, x, op) => i_vcmpunord_sps_kxo k x op);
  ("vcmpunord_ssd", (Runord, Ss, Fsd), fun '(k, x, op) => i_vcmpunord_ssd_kxo k x op);
  ("vcmpunord_sss", (Runord, Ss, Fss), fun '(k, x, op) => i_vcmpunord_sss_kxo k x op);
  ("vcmpunordpd", (Runord, Dflt, Fpd), fun '(k, x, op) => i_vcmpunordpd_kxo k x op);
  ("vcmpunordps", (Runord, Dflt, Fps), fun '(k, x, op) => i_vcmpunordps_kxo k x op);
  ("vcmpunordsd", (Runord, Dflt, Fsd), fun '(k, x, op) => i_vcmpunordsd_kxo k x op);
  ("vcmpunordss", (Runord, Dflt, Fss), fun '(k, x, op) => i_vcmpunordss_kxo k x op)
].
Lemma mask_compare_7_ok : Forall (compares mask_compare_base "vcmp") mask_compare_7.
Proof.
  cmp_row 31.
  cmp_row 31.
  cmp_row 31.
  cmp_row 31.
  cmp_row 15.
  cmp_row 15.
  cmp_row 15.
  cmp_row 15.
  cmp_row 19.
  cmp_row 19.
  cmp_row 19.
  cmp_row 19.
  cmp_row 3.
  cmp_row 3.
  cmp_row 3.
  cmp_row 3.
  apply Forall_nil.
Qed.
Definition mask_compare := (mask_compare_0 ++ mask_compare_1 ++ mask_compare_2 ++ mask_compare_3 ++ mask_compare_4 ++ mask_compare_5 ++ mask_compare_6 ++ mask_compare_7)%list.
Lemma mask_compare_ok : Forall (compares mask_compare_base "vcmp") mask_compare.
Proof. unfold mask_compare. repeat (apply Forall_app; split). exact mask_compare_0_ok. exact mask_compare_1_ok. exact mask_compare_2_ok. exact mask_compare_3_ok. exact mask_compare_4_ok. exact mask_compare_5_ok. exact mask_compare_6_ok. exact mask_compare_7_ok. Qed.
Definition sse_clmul_base (a : (Reg * Operand)%type) (imm : Z) : E unit := let (x, op) := a in i_pclmulqdq x op imm.
Definition sse_clmul : list (string * (bool * bool) * ((Reg * Operand)%type -> E unit)) := [
  ("pclmullqlqdq", (false, false), fun '(x, op) => i_pclmullqlqdq x op);
  ("pclmullqhqdq", (false, true), fun '(x, op) => i_pclmullqhqdq x op);
  ("pclmulhqlqdq", (true, false), fun '(x, op) => i_pclmulhqlqdq x op);
  ("pclmulhqhqdq", (true, true), fun '(x, op) => i_pclmulhqhqdq x op)
].
Lemma sse_clmul_ok : Forall (multiplies sse_clmul_base "pclmul") sse_clmul.
Proof.
  apply Forall_cons; [split; [reflexivity|exists 0; split; [lia|split; [reflexivity|split; [reflexivity|intros; reflexivity]]]]|].
  apply Forall_cons; [split; [reflexivity|exists 16; split; [lia|split; [reflexivity|split; [reflexivity|intros; reflexivity]]]]|].
  apply Forall_cons; [split; [reflexivity|exists 1; split; [lia|split; [reflexivity|split; [reflexivity|intros; reflexivity]]]]|].
  apply Forall_cons; [split; [reflexivity|exists 17; split; [lia|split; [reflexivity|split; [reflexivity|intros; reflexivity]]]]|].
  apply Forall_nil.
Qed.
Definition avx_clmul_base (a : (Reg * Reg * Operand)%type) (imm : Z) : E unit := let '(x1, x2, op) := a in i_vpclmulqdq_xxoi x1 x2 op imm.
Definition avx_clmul : list (string * (bool * bool) * ((Reg * Reg * Operand)%type -> E unit)) := [
  ("vpclmullqlqdq", (false, false), fun '(x1, x2, op) => i_vpclmullqlqdq x1 x2 op);
  ("vpclmullqhqdq", (false, true), fun '(x1, x2, op) => i_vpclmullqhqdq x1 x2 op);
  ("vpclmulhqlqdq", (true, false), fun '(x1, x2, op) => i_vpclmulhqlqdq x1 x2 op);
  ("vpclmulhqhqdq", (true, true), fun '(x1, x2, op) => i_vpclmulhqhqdq x1 x2 op)
].
Lemma avx_clmul_ok : Forall (multiplies avx_clmul_base "vpclmul") avx_clmul.
Proof.
  apply Forall_cons; [split; [reflexivity|exists 0; split; [lia|split; [reflexivity|split; [reflexivity|intros; reflexivity]]]]|].
  apply Forall_cons; [split; [reflexivity|exists 16; split; [lia|split; [reflexivity|split; [reflexivity|intros; reflexivity]]]]|].
  apply Forall_cons; [split; [reflexivity|exists 1; split; [lia|split; [reflexivity|split; [reflexivity|intros; reflexivity]]]]|].
  apply Forall_cons; [split; [reflexivity|exists 17; split; [lia|split; [reflexivity|split; [reflexivity|intros; reflexivity]]]]|].
  apply Forall_nil.
Qed.
Lemma w8_w8 x : w8 (w8 x) = w8 x. Proof. unfold w8. now rewrite Z.mod_mod by lia. Qed.
Ltac omit_row := cbv beta iota delta [omits]; intros; try reflexivity;
  repeat match goal with |- (let (_, _) := ?a in _) = _ => destruct a end;
  match goal with |- ?f _ _ = _ => unfold f | |- ?f _ _ _ = _ => unfold f end;
  cbv zeta; try reflexivity;
  match goal with |- ?f _ _ _ _ = _ => unfold f | |- ?f _ _ _ = _ => unfold f | |- ?f _ _ _ _ _ = _ => unfold f end; cbv zeta; rewrite ?w8_w8; reflexivity.
Definition omitted_xo_0 : list (string * (Reg -> Operand -> E unit) * (Reg -> Reg -> Operand -> E unit)) := [
  ("vcmpeq_ospd_xo", fun x a => i_vcmpeq_ospd_xo x a, fun x1 x2 a => i_vcmpeq_ospd_xxo x1 x2 a);
  ("vcmpeq_osps_xo", fun x a => i_vcmpeq_osps_xo x a, fun x1 x2 a => i_vcmpeq_osps_xxo x1 x2 a);
  ("vcmpeq_ossd_xo", fun x a => i_vcmpeq_ossd_xo x a, fun x1 x2 a => i_vcmpeq_ossd_xxo x1 x2 a);
  ("vcmpeq_osss_xo", fun x a => i_vcmpeq_osss_xo x a, fun x1 x2 a => i_vcmpeq_osss_xxo x1 x2 a);
  ("vcmpeq_uqpd_xo", fun x a => i_vcmpeq_uqpd_xo x a, fun x1 x2 a => i_vcmpeq_uqpd_xxo x1 x2 a);
  ("vcmpeq_uqps_xo", fun x a => i_vcmpeq_uqps_xo x a, fun x1 x2 a => i_vcmpeq_uqps_xxo x1 x2 a);
  ("vcmpeq_uqsd_xo", fun x a => i_vcmpeq_uqsd_xo x a, fun x1 x2 a => i_vcmpeq_uqsd_xxo x1 x2 a);
  ("vcmpeq_uqss_xo", fun x a => i_vcmpeq_uqss_xo x a, fun x1 x2 a => i_vcmpeq_uqss_xxo x1 x2 a);
  ("vcmpeq_uspd_xo", fun x a => i_vcmpeq_uspd_xo x a, fun x1 x2 a => i_vcmpeq_uspd_xxo x1 x2 a);
  ("vcmpeq_usps_xo", fun x a => i_vcmpeq_usps_xo x a, fun x1 x2 a => i_vcmpeq_usps_xxo x1 x2 a);
  ("vcmpeq_ussd_xo", fun x a => i_vcmpeq_ussd_xo x a, fun x1 x2 a => i_vcmpeq_ussd_xxo x1 x2 a);
  ("vcmpeq_usss_xo", fun x a => i_vcmpeq_usss_xo x a, fun x1 x2 a => i_vcmpeq_usss_xxo x1 x2 a);
  ("vcmpeqpd_xo", fun x a => i_vcmpeqpd_xo x a, fun x1 x2 a => i_vcmpeqpd_xxo x1 x2 a);
  ("vcmpeqps_xo", fun x a => i_vcmpeqps_xo x a, fun x1 x2 a => i_vcmpeqps_xxo x1 x2 a);
  ("vcmpeqsd_xo", fun x a => i_vcmpeqsd_xo x a, fun x1 x2 a => i_vcmpeqsd_xxo x1 x2 a);
  ("vcmpeqss_xo", fun x a => i_vcmpeqss_xo x a, fun x1 x2 a => i_vcmpeqss_xxo x1 x2 a);
  ("vcmpfalse_ospd_xo", fun x a => i_vcmpfalse_ospd_xo x a, fun x1 x2 a => i_vcmpfalse_ospd_xxo x1 x2 a);
  ("vcmpfalse_osps_xo", fun x a => i_vcmpfalse_osps_xo x a, fun x1 x2 a => i_vcmpfalse_osps_xxo x1 x2 a);
  ("vcmpfalse_ossd_xo", fun x a => i_vcmpfalse_ossd_xo x a, fun x1 x2 a => i_vcmpfalse_ossd_xxo x1 x2 a);
  ("vcmpfalse_osss_xo", fun x a => i_vcmpfalse_osss_xo x a, fun x1 x2 a => i_vcmpfalse_osss_xxo x1 x2 a);
  ("vcmpfalsepd_xo", fun x a => i_vcmpfalsepd_xo x a, fun x1 x2 a => i_vcmpfalsepd_xxo x1 x2 a);
  ("vcmpfalseps_xo", fun x a => i_vcmpfalseps_xo x a, fun x1 x2 a => i_vcmpfalseps_xxo x1 x2 a);
  ("vcmpfalsesd_xo", fun x a => i_vcmpfalsesd_xo x a, fun x1 x2 a => i_vcmpfalsesd_xxo x1 x2 a);
  ("vcmpfalsess_xo", fun x a => i_vcmpfalsess_xo x a, fun x1 x2 a => i_vcmpfalsess_xxo x1 x2 a);
  ("vcmpge_oqpd_xo", fun x a => i_vcmpge_oqpd_xo x a, fun x1 x2 a => i_vcmpge_oqpd_xxo x1 x2 a);
  ("vcmpge_oqps_xo", fun x a => i_vcmpge_oqps_xo x a, fun x1 x2 a => i_vcmpge_oqps_xxo x1 x2 a);
  ("vcmpge_oqsd_xo", fun x a => i_vcmpge_oqsd_xo x a, fun x1 x2 a => i_vcmpge_oqsd_xxo x1 x2 a);
  ("vcmpge_oqss_xo", fun x a => i_vcmpge_oqss_xo x a, fun x1 x2 a => i_vcmpge_oqss_xxo x1 x2 a);
  ("vcmpgepd_xo", fun x a => i_vcmpgepd_xo x a, fun x1 x2 a => i_vcmpgepd_xxo x1 x2 a);
  ("vcmpgeps_xo", fun x a => i_vcmpgeps_xo x a, fun x1 x2 a => i_vcmpgeps_xxo x1 x2 a);
  ("vcmpgesd_xo", fun x a => i_vcmpgesd_xo x a, fun x1 x2 a => i_vcmpgesd_xxo x1 x2 a);
  ("vcmpgess_xo", fun x a => i_vcmpgess_xo x a, fun x1 x2 a => i_vcmpgess_xxo x1 x2 a)
].
Lemma omitted_xo_0_ok : Forall omits omitted_xo_0.
Proof. unfold omitted_xo_0. repeat (apply Forall_cons; [omit_row|]). apply Forall_nil. Qed.
Definition omitted_xo_1 : list (string * (Reg -> Operand -> E unit) * (Reg -> Reg -> Operand -> E unit)) := [
  ("vcmpgt_oqpd_xo", fun x a => i_vcmpgt_oqpd_xo x a, fun x1 x2 a => i_vcmpgt_oqpd_xxo x1 x2 a);
  ("vcmpgt_oqps_xo", fun x a => i_vcmpgt_oqps_xo x a, fun x1 x2 a => i_vcmpgt_oqps_xxo x1 x2 a);
  ("vcmpgt_oqsd_xo", fun x a => i_vcmpgt_oqsd_xo x a, fun x1 x2 a => i_vcmpgt_oqsd_xxo x1 x2 a);
  ("vcmpgt_oqss_xo", fun x a => i_vcmpgt_oqss_xo x a, fun x1 x2 a => i_vcmpgt_oqss_xxo x1 x2 a);
  ("vcmpgtpd_xo", fun x a => i_vcmpgtpd_xo x a, fun x1 x2 a => i_vcmpgtpd_xxo x1 x2 a);
  ("vcmpgtps_xo", fun x a => i_vcmpgtps_xo x a, fun x1 x2 a => i_vcmpgtps_xxo x1 x2 a);
  ("vcmpgtsd_xo", fun x a => i_vcmpgtsd_xo x a, fun x1 x2 a => i_vcmpgtsd_xxo x1 x2 a);
  ("vcmpgtss_xo", fun x a => i_vcmpgtss_xo x a, fun x1 x2 a => i_vcmpgtss_xxo x1 x2 a);
  ("vcmple_oqpd_xo", fun x a => i_vcmple_oqpd_xo x a, fun x1 x2 a => i_vcmple_oqpd_xxo x1 x2 a);
  ("vcmple_oqps_xo", fun x a => i_vcmple_oqps_xo x a, fun x1 x2 a => i_vcmple_oqps_xxo x1 x2 a);
  ("vcmple_oqsd_xo", fun x a => i_vcmple_oqsd_xo x a, fun x1 x2 a => i_vcmple_oqsd_xxo x1 x2 a);
  ("vcmple_oqss_xo", fun x a => i_vcmple_oqss_xo x a, fun x1 x2 a => i_vcmple_oqss_xxo x1 x2 a);
  ("vcmplepd_xo", fun x a => i_vcmplepd_xo x a, fun x1 x2 a => i_vcmplepd_xxo x1 x2 a);
  ("vcmpleps_xo", fun x a => i_vcmpleps_xo x a, fun x1 x2 a => i_vcmpleps_xxo x1 x2 a);
  ("vcmplesd_xo", fun x a => i_vcmplesd_xo x a, fun x1 x2 a => i_vcmplesd_xxo x1 x2 a);
  ("vcmpless_xo", fun x a => i_vcmpless_xo x a, fun x1 x2 a => i_vcmpless_xxo x1 x2 a);
  ("vcmplt_oqpd_xo", fun x a => i_vcmplt_oqpd_xo x a, fun x1 x2 a => i_vcmplt_oqpd_xxo x1 x2 a);
  ("vcmplt_oqps_xo", fun x a => i_vcmplt_oqps_xo x a, fun x1 x2 a => i_vcmplt_oqps_xxo x1 x2 a);
  ("vcmplt_oqsd_xo", fun x a => i_vcmplt_oqsd_xo x a, fun x1 x2 a => i_vcmplt_oqsd_xxo x1 x2 a);
  ("vcmplt_oqss_xo", fun x a => i_vcmplt_oqss_xo x a, fun x1 x2 a => i_vcmplt_oqss_xxo x1 x2 a);
  ("vcmpltpd_xo", fun x a => i_vcmpltpd_xo x a, fun x1 x2 a => i_vcmpltpd_xxo x1 x2 a);
  ("vcmpltps_xo", fun x a => i_vcmpltps_xo x a, fun x1 x2 a => i_vcmpltps_xxo x1 x2 a);
  ("vcmpltsd_xo", fun x a => i_vcmpltsd_xo x a, fun x1 x2 a => i_vcmpltsd_xxo x1 x2 a);
  ("vcmpltss_xo", fun x a => i_vcmpltss_xo x a, fun x1 x2 a => i_vcmpltss_xxo x1 x2 a);
  ("vcmpneq_oqpd_xo", fun x a => i_vcmpneq_oqpd_xo x a, fun x1 x2 a => i_vcmpneq_oqpd_xxo x1 x2 a);
  ("vcmpneq_oqps_xo", fun x a => i_vcmpneq_oqps_xo x a, fun x1 x2 a => i_vcmpneq_oqps_xxo x1 x2 a);
  ("vcmpneq_oqsd_xo", fun x a => i_vcmpneq_oqsd_xo x a, fun x1 x2 a => i_vcmpneq_oqsd_xxo x1 x2 a);
  ("vcmpneq_oqss_xo", fun x a => i_vcmpneq_oqss_xo x a, fun x1 x2 a => i_vcmpneq_oqss_xxo x1 x2 a);
  ("vcmpneq_ospd_xo", fun x a => i_vcmpneq_ospd_xo x a, fun x1 x2 a => i_vcmpneq_ospd_xxo x1 x2 a);
  ("vcmpneq_osps_xo", fun x a => i_vcmpneq_osps_xo x a, fun x1 x2 a => i_vcmpneq_osps_xxo x1 x2 a);
  ("vcmpneq_ossd_xo", fun x a => i_vcmpneq_ossd_xo x a, fun x1 x2 a => i_vcmpneq_ossd_xxo x1 x2 a);
  ("vcmpneq_osss_xo", fun x a => i_vcmpneq_osss_xo x a, fun x1 x2 a => i_vcmpneq_osss_xxo x1 x2 a)
].
Lemma omitted_xo_1_ok : Forall omits omitted_xo_1.
Proof. unfold omitted_xo_1. repeat (apply Forall_cons; [omit_row|]). apply Forall_nil. Qed.
Definition omitted_xo_2 : list (string * (Reg -> Operand -> E unit) * (Reg -> Reg -> Operand -> E unit)) := [
  ("vcmpneq_uspd_xo", fun x a => i_vcmpneq_uspd_xo x a, fun x1 x2 a => i_vcmpneq_uspd_xxo x1 x2 a);
  ("vcmpneq_usps_xo", fun x a => i_vcmpneq_usps_xo x a, fun x1 x2 a => i_vcmpneq_usps_xxo x1 x2 a);
  ("vcmpneq_ussd_xo", fun x a => i_vcmpneq_ussd_xo x a, fun x1 x2 a => i_vcmpneq_ussd_xxo x1 x2 a);
  ("vcmpneq_usss_xo", fun x a => i_vcmpneq_usss_xo x a, fun x1 x2 a => i_vcmpneq_usss_xxo x1 x2 a);
  ("vcmpneqpd_xo", fun x a => i_vcmpneqpd_xo x a, fun x1 x2 a => i_vcmpneqpd_xxo x1 x2 a);
  ("vcmpneqps_xo", fun x a => i_vcmpneqps_xo x a, fun x1 x2 a => i_vcmpneqps_xxo x1 x2 a);
  ("vcmpneqsd_xo", fun x a => i_vcmpneqsd_xo x a, fun x1 x2 a => i_vcmpneqsd_xxo x1 x2 a);
  ("vcmpneqss_xo", fun x a => i_vcmpneqss_xo x a, fun x1 x2 a => i_vcmpneqss_xxo x1 x2 a);
  ("vcmpnge_uqpd_xo", fun x a => i_vcmpnge_uqpd_xo x a, fun x1 x2 a => i_vcmpnge_uqpd_xxo x1 x2 a);
  ("vcmpnge_uqps_xo", fun x a => i_vcmpnge_uqps_xo x a, fun x1 x2 a => i_vcmpnge_uqps_xxo x1 x2 a);
  ("vcmpnge_uqsd_xo", fun x a => i_vcmpnge_uqsd_xo x a, fun x1 x2 a => i_vcmpnge_uqsd_xxo x1 x2 a);
  ("vcmpnge_uqss_xo", fun x a => i_vcmpnge_uqss_xo x a, fun x1 x2 a => i_vcmpnge_uqss_xxo x1 x2 a);
  ("vcmpngepd_xo", fun x a => i_vcmpngepd_xo x a, fun x1 x2 a => i_vcmpngepd_xxo x1 x2 a);
  ("vcmpngeps_xo", fun x a => i_vcmpngeps_xo x a, fun x1 x2 a => i_vcmpngeps_xxo x1 x2 a);
  ("vcmpngesd_xo", fun x a => i_vcmpngesd_xo x a, fun x1 x2 a => i_vcmpngesd_xxo x1 x2 a);
  ("vcmpngess_xo", fun x a => i_vcmpngess_xo x a, fun x1 x2 a => i_vcmpngess_xxo x1 x2 a);
  ("vcmpngt_uqpd_xo", fun x a => i_vcmpngt_uqpd_xo x a, fun x1 x2 a => i_vcmpngt_uqpd_xxo x1 x2 a);
  ("vcmpngt_uqps_xo", fun x a => i_vcmpngt_uqps_xo x a, fun x1 x2 a => i_vcmpngt_uqps_xxo x1 x2 a);
  ("vcmpngt_uqsd_xo", fun x a => i_vcmpngt_uqsd_xo x a, fun x1 x2 a => i_vcmpngt_uqsd_xxo x1 x2 a);
  ("vcmpngt_uqss_xo", fun x a => i_vcmpngt_uqss_xo x a, fun x1 x2 a => i_vcmpngt_uqss_xxo x1 x2 a);
  ("vcmpngtpd_xo", fun x a => i_vcmpngtpd_xo x a, fun x1 x2 a => i_vcmpngtpd_xxo x1 x2 a);
  ("vcmpngtps_xo", fun x a => i_vcmpngtps_xo x a, fun x1 x2 a => i_vcmpngtps_xxo x1 x2 a);
  ("vcmpngtsd_xo", fun x a => i_vcmpngtsd_xo x a, fun x1 x2 a => i_vcmpngtsd_xxo x1 x2 a);
  ("vcmpngtss_xo", fun x a => i_vcmpngtss_xo x a, fun x1 x2 a => i_vcmpngtss_xxo x1 x2 a);
  ("vcmpnle_uqpd_xo", fun x a => i_vcmpnle_uqpd_xo x a, fun x1 x2 a => i_vcmpnle_uqpd_xxo x1 x2 a);
  ("vcmpnle_uqps_xo", fun x a => i_vcmpnle_uqps_xo x a, fun x1 x2 a => i_vcmpnle_uqps_xxo x1 x2 a);
  ("vcmpnle_uqsd_xo", fun x a => i_vcmpnle_uqsd_xo x a, fun x1 x2 a => i_vcmpnle_uqsd_xxo x1 x2 a);
  ("vcmpnle_uqss_xo", fun x a => i_vcmpnle_uqss_xo x a, fun x1 x2 a => i_vcmpnle_uqss_xxo x1 x2 a);
  ("vcmpnlepd_xo", fun x a => i_vcmpnlepd_xo x a, fun x1 x2 a => i_vcmpnlepd_xxo x1 x2 a);
  ("vcmpnleps_xo", fun x a => i_vcmpnleps_xo x a, fun x1 x2 a => i_vcmpnleps_xxo x1 x2 a);
  ("vcmpnlesd_xo", fun x a => i_vcmpnlesd_xo x a, fun x1 x2 a => i_vcmpnlesd_xxo x1 x2 a);
  ("vcmpnless_xo", fun x a => i_vcmpnless_xo x a, fun x1 x2 a => i_vcmpnless_xxo x1 x2 a)
].
Lemma omitted_xo_2_ok : Forall omits omitted_xo_2.
Proof. unfold omitted_xo_2. repeat (apply Forall_cons; [omit_row|]). apply Forall_nil. Qed.
Definition omitted_xo_3 : list (string * (Reg -> Operand -> E unit) * (Reg -> Reg -> Operand -> E unit)) := [
  ("vcmpnlt_uqpd_xo", fun x a => i_vcmpnlt_uqpd_xo x a, fun x1 x2 a => i_vcmpnlt_uqpd_xxo x1 x2 a);
  ("vcmpnlt_uqps_xo", fun x a => i_vcmpnlt_uqps_xo x a, fun x1 x2 a => i_vcmpnlt_uqps_xxo x1 x2 a);
  ("vcmpnlt_uqsd_xo", fun x a => i_vcmpnlt_uqsd_xo x a, fun x1 x2 a => i_vcmpnlt_uqsd_xxo x1 x2 a);
  ("vcmpnlt_uqss_xo", fun x a => i_vcmpnlt_uqss_xo x a, fun x1 x2 a => i_vcmpnlt_uqss_xxo x1 x2 a);
  ("vcmpnltpd_xo", fun x a => i_vcmpnltpd_xo x a, fun x1 x2 a => i_vcmpnltpd_xxo x1 x2 a);
  ("vcmpnltps_xo", fun x a => i_vcmpnltps_xo x a, fun x1 x2 a => i_vcmpnltps_xxo x1 x2 a);
  ("vcmpnltsd_xo", fun x a => i_vcmpnltsd_xo x a, fun x1 x2 a => i_vcmpnltsd_xxo x1 x2 a);
  ("vcmpnltss_xo", fun x a => i_vcmpnltss_xo x a, fun x1 x2 a => i_vcmpnltss_xxo x1 x2 a);
  ("vcmpord_spd_xo", fun x a => i_vcmpord_spd_xo x a, fun x1 x2 a => i_vcmpord_spd_xxo x1 x2 a);
  ("vcmpord_sps_xo", fun x a => i_vcmpord_sps_xo x a, fun x1 x2 a => i_vcmpord_sps_xxo x1 x2 a);
  ("vcmpord_ssd_xo", fun x a => i_vcmpord_ssd_xo x a, fun x1 x2 a => i_vcmpord_ssd_xxo x1 x2 a);
  ("vcmpord_sss_xo", fun x a => i_vcmpord_sss_xo x a, fun x1 x2 a => i_vcmpord_sss_xxo x1 x2 a);
  ("vcmpordpd_xo", fun x a => i_vcmpordpd_xo x a, fun x1 x2 a => i_vcmpordpd_xxo x1 x2 a);
  ("vcmpordps_xo", fun x a => i_vcmpordps_xo x a, fun x1 x2 a => i_vcmpordps_xxo x1 x2 a);
  ("vcmpordsd_xo", fun x a => i_vcmpordsd_xo x a, fun x1 x2 a => i_vcmpordsd_xxo x1 x2 a);
  ("vcmpordss_xo", fun x a => i_vcmpordss_xo x a, fun x1 x2 a => i_vcmpordss_xxo x1 x2 a);
  ("vcmptrue_uspd_xo", fun x a => i_vcmptrue_uspd_xo x a, fun x1 x2 a => i_vcmptrue_uspd_xxo x1 x2 a);
  ("vcmptrue_usps_xo", fun x a => i_vcmptrue_usps_xo x a, fun x1 x2 a => i_vcmptrue_usps_xxo x1 x2 a);
  ("vcmptrue_ussd_xo", fun x a => i_vcmptrue_ussd_xo x a, fun x1 x2 a => i_vcmptrue_ussd_xxo x1 x2 a);
  ("vcmptrue_usss_xo", fun x a => i_vcmptrue_usss_xo x a, fun x1 x2 a => i_vcmptrue_usss_xxo x1 x2 a);
  ("vcmptruepd_xo", fun x a => i_vcmptruepd_xo x a, fun x1 x2 a => i_vcmptruepd_xxo x1 x2 a);
  ("vcmptrueps_xo", fun x a => i_vcmptrueps_xo x a, fun x1 x2 a => i_vcmptrueps_xxo x1 x2 a);
  ("vcmptruesd_xo", fun x a => i_vcmptruesd_xo x a, fun x1 x2 a => i_vcmptruesd_xxo x1 x2 a);
  ("vcmptruess_xo", fun x a => i_vcmptruess_xo x a, fun x1 x2 a => i_vcmptruess_xxo x1 x2 a);
  ("vcmpunord_spd_xo", fun x a => i_vcmpunord_spd_xo x a, fun x1 x2 a => i_vcmpunord_spd_xxo x1 x2 a);
  ("vcmpunord_sps_xo", fun x a => i_vcmpunord_sps_xo x a, fun x1 x2 a => i_vcmpunord_sps_xxo x1 x2 a);
  ("vcmpunord_ssd_xo", fun x a => i_vcmpunord_ssd_xo x a, fun x1 x2 a => i_vcmpunord_ssd_xxo x1 x2 a);
  ("vcmpunord_sss_xo", fun x a => i_vcmpunord_sss_xo x a, fun x1 x2 a => i_vcmpunord_sss_xxo x1 x2 a);
  ("vcmpunordpd_xo", fun x a => i_vcmpunordpd_xo x a, fun x1 x2 a => i_vcmpunordpd_xxo x1 x2 a);
  ("vcmpunordps_xo", fun x a => i_vcmpunordps_xo x a, fun x1 x2 a => i_vcmpunordps_xxo x1 x2 a);
  ("vcmpunordsd_xo", fun x a => i_vcmpunordsd_xo x a, fun x1 x2 a => i_vcmpunordsd_xxo x1 x2 a);
  ("vcmpunordss_xo", fun x a => i_vcmpunordss_xo x a, fun x1 x2 a => i_vcmpunordss_xxo x1 x2 a)
].
Lemma omitted_xo_3_ok : Forall omits omitted_xo_3.
Proof. unfold omitted_xo_3. repeat (apply Forall_cons; [omit_row|]). apply Forall_nil. Qed.
Definition omitted_xo_4 : list (string * (Reg -> Operand -> E unit) * (Reg -> Reg -> Operand -> E unit)) := [
  ("vcvtsd2ss_xo", fun x a => i_vcvtsd2ss_xo x a, fun x1 x2 a => i_vcvtsd2ss_xxo x1 x2 a);
  ("vcvtsi2sd_xo", fun x a => i_vcvtsi2sd_xo x a, fun x1 x2 a => i_vcvtsi2sd_xxo x1 x2 a);
  ("vcvtsi2ss_xo", fun x a => i_vcvtsi2ss_xo x a, fun x1 x2 a => i_vcvtsi2ss_xxo x1 x2 a);
  ("vcvtss2sd_xo", fun x a => i_vcvtss2sd_xo x a, fun x1 x2 a => i_vcvtss2sd_xxo x1 x2 a);
  ("vpackssdw_xo", fun x a => i_vpackssdw_xo x a, fun x1 x2 a => i_vpackssdw_xxo x1 x2 a);
  ("vpacksswb_xo", fun x a => i_vpacksswb_xo x a, fun x1 x2 a => i_vpacksswb_xxo x1 x2 a);
  ("vpackusdw_xo", fun x a => i_vpackusdw_xo x a, fun x1 x2 a => i_vpackusdw_xxo x1 x2 a);
  ("vpackuswb_xo", fun x a => i_vpackuswb_xo x a, fun x1 x2 a => i_vpackuswb_xxo x1 x2 a);
  ("vpaddb_xo", fun x a => i_vpaddb_xo x a, fun x1 x2 a => i_vpaddb_xxo x1 x2 a);
  ("vpaddd_xo", fun x a => i_vpaddd_xo x a, fun x1 x2 a => i_vpaddd_xxo x1 x2 a);
  ("vpaddq_xo", fun x a => i_vpaddq_xo x a, fun x1 x2 a => i_vpaddq_xxo x1 x2 a);
  ("vpaddsb_xo", fun x a => i_vpaddsb_xo x a, fun x1 x2 a => i_vpaddsb_xxo x1 x2 a);
  ("vpaddsw_xo", fun x a => i_vpaddsw_xo x a, fun x1 x2 a => i_vpaddsw_xxo x1 x2 a);
  ("vpaddusb_xo", fun x a => i_vpaddusb_xo x a, fun x1 x2 a => i_vpaddusb_xxo x1 x2 a);
  ("vpaddusw_xo", fun x a => i_vpaddusw_xo x a, fun x1 x2 a => i_vpaddusw_xxo x1 x2 a);
  ("vpaddw_xo", fun x a => i_vpaddw_xo x a, fun x1 x2 a => i_vpaddw_xxo x1 x2 a);
  ("vpand_xo", fun x a => i_vpand_xo x a, fun x1 x2 a => i_vpand_xxo x1 x2 a);
  ("vpandn_xo", fun x a => i_vpandn_xo x a, fun x1 x2 a => i_vpandn_xxo x1 x2 a);
  ("vpavgb_xo", fun x a => i_vpavgb_xo x a, fun x1 x2 a => i_vpavgb_xxo x1 x2 a);
  ("vpavgw_xo", fun x a => i_vpavgw_xo x a, fun x1 x2 a => i_vpavgw_xxo x1 x2 a);
  ("vpcmpeqb_xo", fun x a => i_vpcmpeqb_xo x a, fun x1 x2 a => i_vpcmpeqb_xxo x1 x2 a);
  ("vpcmpeqd_xo", fun x a => i_vpcmpeqd_xo x a, fun x1 x2 a => i_vpcmpeqd_xxo x1 x2 a);
  ("vpcmpeqq_xo", fun x a => i_vpcmpeqq_xo x a, fun x1 x2 a => i_vpcmpeqq_xxo x1 x2 a);
  ("vpcmpeqw_xo", fun x a => i_vpcmpeqw_xo x a, fun x1 x2 a => i_vpcmpeqw_xxo x1 x2 a);
  ("vpcmpgtb_xo", fun x a => i_vpcmpgtb_xo x a, fun x1 x2 a => i_vpcmpgtb_xxo x1 x2 a);
  ("vpcmpgtd_xo", fun x a => i_vpcmpgtd_xo x a, fun x1 x2 a => i_vpcmpgtd_xxo x1 x2 a);
  ("vpcmpgtq_xo", fun x a => i_vpcmpgtq_xo x a, fun x1 x2 a => i_vpcmpgtq_xxo x1 x2 a);
  ("vpcmpgtw_xo", fun x a => i_vpcmpgtw_xo x a, fun x1 x2 a => i_vpcmpgtw_xxo x1 x2 a);
  ("vphaddd_xo", fun x a => i_vphaddd_xo x a, fun x1 x2 a => i_vphaddd_xxo x1 x2 a);
  ("vphaddsw_xo", fun x a => i_vphaddsw_xo x a, fun x1 x2 a => i_vphaddsw_xxo x1 x2 a);
  ("vphaddw_xo", fun x a => i_vphaddw_xo x a, fun x1 x2 a => i_vphaddw_xxo x1 x2 a);
  ("vphsubd_xo", fun x a => i_vphsubd_xo x a, fun x1 x2 a => i_vphsubd_xxo x1 x2 a)
].
Lemma omitted_xo_4_ok : Forall omits omitted_xo_4.
Proof. unfold omitted_xo_4. repeat (apply Forall_cons; [omit_row|]). apply Forall_nil. Qed.
Definition omitted_xo_5 : list (string * (Reg -> Operand -> E unit) * (Reg -> Reg -> Operand -> E unit)) := [
  ("vphsubsw_xo", fun x a => i_vphsubsw_xo x a, fun x1 x2 a => i_vphsubsw_xxo x1 x2 a);
  ("vphsubw_xo", fun x a => i_vphsubw_xo x a, fun x1 x2 a => i_vphsubw_xxo x1 x2 a);
  ("vpmaddubsw_xo", fun x a => i_vpmaddubsw_xo x a, fun x1 x2 a => i_vpmaddubsw_xxo x1 x2 a);
  ("vpmaddwd_xo", fun x a => i_vpmaddwd_xo x a, fun x1 x2 a => i_vpmaddwd_xxo x1 x2 a);
  ("vpmaxsb_xo", fun x a => i_vpmaxsb_xo x a, fun x1 x2 a => i_vpmaxsb_xxo x1 x2 a);
  ("vpmaxsd_xo", fun x a => i_vpmaxsd_xo x a, fun x1 x2 a => i_vpmaxsd_xxo x1 x2 a);
  ("vpmaxsw_xo", fun x a => i_vpmaxsw_xo x a, fun x1 x2 a => i_vpmaxsw_xxo x1 x2 a);
  ("vpmaxub_xo", fun x a => i_vpmaxub_xo x a, fun x1 x2 a => i_vpmaxub_xxo x1 x2 a);
  ("vpmaxud_xo", fun x a => i_vpmaxud_xo x a, fun x1 x2 a => i_vpmaxud_xxo x1 x2 a);
  ("vpmaxuw_xo", fun x a => i_vpmaxuw_xo x a, fun x1 x2 a => i_vpmaxuw_xxo x1 x2 a);
  ("vpminsb_xo", fun x a => i_vpminsb_xo x a, fun x1 x2 a => i_vpminsb_xxo x1 x2 a);
  ("vpminsd_xo", fun x a => i_vpminsd_xo x a, fun x1 x2 a => i_vpminsd_xxo x1 x2 a);
  ("vpminsw_xo", fun x a => i_vpminsw_xo x a, fun x1 x2 a => i_vpminsw_xxo x1 x2 a);
  ("vpminub_xo", fun x a => i_vpminub_xo x a, fun x1 x2 a => i_vpminub_xxo x1 x2 a);
  ("vpminud_xo", fun x a => i_vpminud_xo x a, fun x1 x2 a => i_vpminud_xxo x1 x2 a);
  ("vpminuw_xo", fun x a => i_vpminuw_xo x a, fun x1 x2 a => i_vpminuw_xxo x1 x2 a);
  ("vpmuldq_xo", fun x a => i_vpmuldq_xo x a, fun x1 x2 a => i_vpmuldq_xxo x1 x2 a);
  ("vpmulhrsw_xo", fun x a => i_vpmulhrsw_xo x a, fun x1 x2 a => i_vpmulhrsw_xxo x1 x2 a);
  ("vpmulhuw_xo", fun x a => i_vpmulhuw_xo x a, fun x1 x2 a => i_vpmulhuw_xxo x1 x2 a);
  ("vpmulhw_xo", fun x a => i_vpmulhw_xo x a, fun x1 x2 a => i_vpmulhw_xxo x1 x2 a);
  ("vpmulld_xo", fun x a => i_vpmulld_xo x a, fun x1 x2 a => i_vpmulld_xxo x1 x2 a);
  ("vpmullw_xo", fun x a => i_vpmullw_xo x a, fun x1 x2 a => i_vpmullw_xxo x1 x2 a);
  ("vpmuludq_xo", fun x a => i_vpmuludq_xo x a, fun x1 x2 a => i_vpmuludq_xxo x1 x2 a);
  ("vpor_xo", fun x a => i_vpor_xo x a, fun x1 x2 a => i_vpor_xxo x1 x2 a);
  ("vpsadbw_xo", fun x a => i_vpsadbw_xo x a, fun x1 x2 a => i_vpsadbw_xxo x1 x2 a);
  ("vpsignb_xo", fun x a => i_vpsignb_xo x a, fun x1 x2 a => i_vpsignb_xxo x1 x2 a);
  ("vpsignd_xo", fun x a => i_vpsignd_xo x a, fun x1 x2 a => i_vpsignd_xxo x1 x2 a);
  ("vpsignw_xo", fun x a => i_vpsignw_xo x a, fun x1 x2 a => i_vpsignw_xxo x1 x2 a);
  ("vpslld_xo", fun x a => i_vpslld_xo x a, fun x1 x2 a => i_vpslld_xxo x1 x2 a);
  ("vpsllq_xo", fun x a => i_vpsllq_xo x a, fun x1 x2 a => i_vpsllq_xxo x1 x2 a);
  ("vpsllw_xo", fun x a => i_vpsllw_xo x a, fun x1 x2 a => i_vpsllw_xxo x1 x2 a);
  ("vpsrad_xo", fun x a => i_vpsrad_xo x a, fun x1 x2 a => i_vpsrad_xxo x1 x2 a)
].
Lemma omitted_xo_5_ok : Forall omits omitted_xo_5.
Proof. unfold omitted_xo_5. repeat (apply Forall_cons; [omit_row|]). apply Forall_nil. Qed.
Definition omitted_xo_6 : list (string * (Reg -> Operand -> E unit) * (Reg -> Reg -> Operand -> E unit)) := [
  ("vpsraw_xo", fun x a => i_vpsraw_xo x a, fun x1 x2 a => i_vpsraw_xxo x1 x2 a);
  ("vpsrld_xo", fun x a => i_vpsrld_xo x a, fun x1 x2 a => i_vpsrld_xxo x1 x2 a);
  ("vpsrlq_xo", fun x a => i_vpsrlq_xo x a, fun x1 x2 a => i_vpsrlq_xxo x1 x2 a);
  ("vpsrlw_xo", fun x a => i_vpsrlw_xo x a, fun x1 x2 a => i_vpsrlw_xxo x1 x2 a);
  ("vpsubb_xo", fun x a => i_vpsubb_xo x a, fun x1 x2 a => i_vpsubb_xxo x1 x2 a);
  ("vpsubd_xo", fun x a => i_vpsubd_xo x a, fun x1 x2 a => i_vpsubd_xxo x1 x2 a);
  ("vpsubq_xo", fun x a => i_vpsubq_xo x a, fun x1 x2 a => i_vpsubq_xxo x1 x2 a);
  ("vpsubsb_xo", fun x a => i_vpsubsb_xo x a, fun x1 x2 a => i_vpsubsb_xxo x1 x2 a);
  ("vpsubsw_xo", fun x a => i_vpsubsw_xo x a, fun x1 x2 a => i_vpsubsw_xxo x1 x2 a);
  ("vpsubusb_xo", fun x a => i_vpsubusb_xo x a, fun x1 x2 a => i_vpsubusb_xxo x1 x2 a);
  ("vpsubusw_xo", fun x a => i_vpsubusw_xo x a, fun x1 x2 a => i_vpsubusw_xxo x1 x2 a);
  ("vpsubw_xo", fun x a => i_vpsubw_xo x a, fun x1 x2 a => i_vpsubw_xxo x1 x2 a);
  ("vpunpckhbw_xo", fun x a => i_vpunpckhbw_xo x a, fun x1 x2 a => i_vpunpckhbw_xxo x1 x2 a);
  ("vpunpckhdq_xo", fun x a => i_vpunpckhdq_xo x a, fun x1 x2 a => i_vpunpckhdq_xxo x1 x2 a);
  ("vpunpckhqdq_xo", fun x a => i_vpunpckhqdq_xo x a, fun x1 x2 a => i_vpunpckhqdq_xxo x1 x2 a);
  ("vpunpckhwd_xo", fun x a => i_vpunpckhwd_xo x a, fun x1 x2 a => i_vpunpckhwd_xxo x1 x2 a);
  ("vpunpcklbw_xo", fun x a => i_vpunpcklbw_xo x a, fun x1 x2 a => i_vpunpcklbw_xxo x1 x2 a);
  ("vpunpckldq_xo", fun x a => i_vpunpckldq_xo x a, fun x1 x2 a => i_vpunpckldq_xxo x1 x2 a);
  ("vpunpcklqdq_xo", fun x a => i_vpunpcklqdq_xo x a, fun x1 x2 a => i_vpunpcklqdq_xxo x1 x2 a);
  ("vpunpcklwd_xo", fun x a => i_vpunpcklwd_xo x a, fun x1 x2 a => i_vpunpcklwd_xxo x1 x2 a);
  ("vpxor_xo", fun x a => i_vpxor_xo x a, fun x1 x2 a => i_vpxor_xxo x1 x2 a);
  ("vrcpss_xo", fun x a => i_vrcpss_xo x a, fun x1 x2 a => i_vrcpss_xxo x1 x2 a);
  ("vrsqrtss_xo", fun x a => i_vrsqrtss_xo x a, fun x1 x2 a => i_vrsqrtss_xxo x1 x2 a);
  ("vsqrtsd_xo", fun x a => i_vsqrtsd_xo x a, fun x1 x2 a => i_vsqrtsd_xxo x1 x2 a);
  ("vsqrtss_xo", fun x a => i_vsqrtss_xo x a, fun x1 x2 a => i_vsqrtss_xxo x1 x2 a);
  ("vunpckhpd_xo", fun x a => i_vunpckhpd_xo x a, fun x1 x2 a => i_vunpckhpd_xxo x1 x2 a);
  ("vunpckhps_xo", fun x a => i_vunpckhps_xo x a, fun x1 x2 a => i_vunpckhps_xxo x1 x2 a);
  ("vunpcklpd_xo", fun x a => i_vunpcklpd_xo x a, fun x1 x2 a => i_vunpcklpd_xxo x1 x2 a);
  ("vunpcklps_xo", fun x a => i_vunpcklps_xo x a, fun x1 x2 a => i_vunpcklps_xxo x1 x2 a)
].
Lemma omitted_xo_6_ok : Forall omits omitted_xo_6.
Proof. unfold omitted_xo_6. repeat (apply Forall_cons; [omit_row|]). apply Forall_nil. Qed.
Definition omitted_xo := (omitted_xo_0 ++ omitted_xo_1 ++ omitted_xo_2 ++ omitted_xo_3 ++ omitted_xo_4 ++ omitted_xo_5 ++ omitted_xo_6)%list.
Lemma omitted_xo_ok : Forall (omits) omitted_xo.
Proof. unfold omitted_xo. repeat (apply Forall_app; split). exact omitted_xo_0_ok. exact omitted_xo_1_ok. exact omitted_xo_2_ok. exact omitted_xo_3_ok. exact omitted_xo_4_ok. exact omitted_xo_5_ok. exact omitted_xo_6_ok. Qed.
Definition omitted_xoi_0 : list (string * (Reg -> (Operand * Z)%type -> E unit) * (Reg -> Reg -> (Operand * Z)%type -> E unit)) := [
  ("vblendpd_xoi", fun x '(op, imm) => i_vblendpd_xoi x op imm, fun x1 x2 '(op, imm) => i_vblendpd_xxoi x1 x2 op imm);
  ("vblendps_xoi", fun x '(op, imm) => i_vblendps_xoi x op imm, fun x1 x2 '(op, imm) => i_vblendps_xxoi x1 x2 op imm);
  ("vcmppd_xoi", fun x '(op, imm) => i_vcmppd_xoi x op imm, fun x1 x2 '(op, imm) => i_vcmppd_xxoi x1 x2 op imm);
  ("vcmpps_xoi", fun x '(op, imm) => i_vcmpps_xoi x op imm, fun x1 x2 '(op, imm) => i_vcmpps_xxoi x1 x2 op imm);
  ("vcmpsd_xoi", fun x '(op, imm) => i_vcmpsd_xoi x op imm, fun x1 x2 '(op, imm) => i_vcmpsd_xxoi x1 x2 op imm);
  ("vcmpss_xoi", fun x '(op, imm) => i_vcmpss_xoi x op imm, fun x1 x2 '(op, imm) => i_vcmpss_xxoi x1 x2 op imm);
  ("vdppd_xoi", fun x '(op, imm) => i_vdppd_xoi x op imm, fun x1 x2 '(op, imm) => i_vdppd_xxoi x1 x2 op imm);
  ("vdpps_xoi", fun x '(op, imm) => i_vdpps_xoi x op imm, fun x1 x2 '(op, imm) => i_vdpps_xxoi x1 x2 op imm);
  ("vinsertps_xoi", fun x '(op, imm) => i_vinsertps_xoi x op imm, fun x1 x2 '(op, imm) => i_vinsertps_xxoi x1 x2 op imm);
  ("vmpsadbw_xoi", fun x '(op, imm) => i_vmpsadbw_xoi x op imm, fun x1 x2 '(op, imm) => i_vmpsadbw_xxoip x1 x2 op imm DefaultEncoding);
  ("vpalignr_xoi", fun x '(op, imm) => i_vpalignr_xoi x op imm, fun x1 x2 '(op, imm) => i_vpalignr_xxoi x1 x2 op imm);
  ("vpblendd_xoi", fun x '(op, imm) => i_vpblendd_xoi x op imm, fun x1 x2 '(op, imm) => i_vpblendd_xxoi x1 x2 op imm);
  ("vpblendw_xoi", fun x '(op, imm) => i_vpblendw_xoi x op imm, fun x1 x2 '(op, imm) => i_vpblendw_xxoi x1 x2 op imm);
  ("vpclmulqdq_xoi", fun x '(op, imm) => i_vpclmulqdq_xoi x op imm, fun x1 x2 '(op, imm) => i_vpclmulqdq_xxoi x1 x2 op imm);
  ("vpinsrb_xoi", fun x '(op, imm) => i_vpinsrb_xoi x op imm, fun x1 x2 '(op, imm) => i_vpinsrb_xxoi x1 x2 op imm);
  ("vpinsrd_xoi", fun x '(op, imm) => i_vpinsrd_xoi x op imm, fun x1 x2 '(op, imm) => i_vpinsrd_xxoi x1 x2 op imm);
  ("vpinsrq_xoi", fun x '(op, imm) => i_vpinsrq_xoi x op imm, fun x1 x2 '(op, imm) => i_vpinsrq_xxoi x1 x2 op imm);
  ("vpinsrw_xoi", fun x '(op, imm) => i_vpinsrw_xoi x op imm, fun x1 x2 '(op, imm) => i_vpinsrw_xxoi x1 x2 op imm);
  ("vroundsd_xoi", fun x '(op, imm) => i_vroundsd_xoi x op imm, fun x1 x2 '(op, imm) => i_vroundsd_xxoi x1 x2 op imm);
  ("vroundss_xoi", fun x '(op, imm) => i_vroundss_xoi x op imm, fun x1 x2 '(op, imm) => i_vroundss_xxoi x1 x2 op imm);
  ("vshufpd_xoi", fun x '(op, imm) => i_vshufpd_xoi x op imm, fun x1 x2 '(op, imm) => i_vshufpd_xxoi x1 x2 op imm);
  ("vshufps_xoi", fun x '(op, imm) => i_vshufps_xoi x op imm, fun x1 x2 '(op, imm) => i_vshufps_xxoi x1 x2 op imm)
].
Lemma omitted_xoi_0_ok : Forall omits omitted_xoi_0.
Proof. unfold omitted_xoi_0. repeat (apply Forall_cons; [omit_row|]). apply Forall_nil. Qed.
Definition omitted_xoi := (omitted_xoi_0)%list.
Lemma omitted_xoi_ok : Forall (omits) omitted_xoi.
Proof. unfold omitted_xoi. repeat (apply Forall_app; split). exact omitted_xoi_0_ok. Qed.
Definition omitted_xox_0 : list (string * (Reg -> (Operand * Reg)%type -> E unit) * (Reg -> Reg -> (Operand * Reg)%type -> E unit)) := [
  ("vblendvpd_xox", fun x '(op, x4) => i_vblendvpd_xox x op x4, fun x1 x2 '(op, x4) => i_vblendvpd_xxox x1 x2 op x4);
  ("vblendvps_xox", fun x '(op, x4) => i_vblendvps_xox x op x4, fun x1 x2 '(op, x4) => i_vblendvps_xxox x1 x2 op x4);
  ("vpblendvb_xox", fun x '(op, x4) => i_vpblendvb_xox x op x4, fun x1 x2 '(op, x4) => i_vpblendvb_xxox x1 x2 op x4)
].
Lemma omitted_xox_0_ok : Forall omits omitted_xox_0.
Proof. unfold omitted_xox_0. repeat (apply Forall_cons; [omit_row|]). apply Forall_nil. Qed.
Definition omitted_xox := (omitted_xox_0)%list.
Lemma omitted_xox_ok : Forall (omits) omitted_xox.
Proof. unfold omitted_xox. repeat (apply Forall_app; split). exact omitted_xox_0_ok. Qed.
Definition omitted_xi_0 : list (string * (Reg -> Z -> E unit) * (Reg -> Reg -> Z -> E unit)) := [
  ("vpslld_xi", fun x imm => i_vpslld_xi x imm, fun x1 x2 imm => i_vpslld_xoi x1 (OReg x2) imm);
  ("vpslldq_xi", fun x imm => i_vpslldq_xi x imm, fun x1 x2 imm => i_vpslldq_xoi x1 (OReg x2) imm);
  ("vpsllq_xi", fun x imm => i_vpsllq_xi x imm, fun x1 x2 imm => i_vpsllq_xoi x1 (OReg x2) imm);
  ("vpsllw_xi", fun x imm => i_vpsllw_xi x imm, fun x1 x2 imm => i_vpsllw_xoi x1 (OReg x2) imm);
  ("vpsrad_xi", fun x imm => i_vpsrad_xi x imm, fun x1 x2 imm => i_vpsrad_xoi x1 (OReg x2) imm);
  ("vpsraw_xi", fun x imm => i_vpsraw_xi x imm, fun x1 x2 imm => i_vpsraw_xoi x1 (OReg x2) imm);
  ("vpsrld_xi", fun x imm => i_vpsrld_xi x imm, fun x1 x2 imm => i_vpsrld_xoi x1 (OReg x2) imm);
  ("vpsrldq_xi", fun x imm => i_vpsrldq_xi x imm, fun x1 x2 imm => i_vpsrldq_xoi x1 (OReg x2) imm);
  ("vpsrlq_xi", fun x imm => i_vpsrlq_xi x imm, fun x1 x2 imm => i_vpsrlq_xoi x1 (OReg x2) imm);
  ("vpsrlw_xi", fun x imm => i_vpsrlw_xi x imm, fun x1 x2 imm => i_vpsrlw_xoi x1 (OReg x2) imm)
].
Lemma omitted_xi_0_ok : Forall omits omitted_xi_0.
Proof. unfold omitted_xi_0. repeat (apply Forall_cons; [omit_row|]). apply Forall_nil. Qed.
Definition omitted_xi := (omitted_xi_0)%list.
Lemma omitted_xi_ok : Forall (omits) omitted_xi.
Proof. unfold omitted_xi. repeat (apply Forall_app; split). exact omitted_xi_0_ok. Qed.
