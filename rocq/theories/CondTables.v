(* Generated by tools/condtab.py: the conditional methods of xbyak_mnemonic.h by suffix, and that each of them encodes the
   condition code of its suffix (SpecCond.v). *)
From Coq Require Import ZArith List Bool Lia String.
From Verif Require Import Base Types Emit Encode State Code Label Gen Mnemonic MnemonicJmp SpecX86 SpecAddr SpecIsa SpecInsn SpecLeg LegShapes LegGpr LegGpr2 LegGpr3 SpecApx ApxTables
  LegTables2 SpecCond CondFacts.
Import ListNotations.
Open Scope Z_scope.
Open Scope string_scope.

Definition jcc_methods : list (string * ((LabelRef -> LabelType -> M unit) * (Z -> M unit))) := [
  ("o", (i_jo_sj, i_jo_v)); ("no", (i_jno_sj, i_jno_v)); ("b", (i_jb_sj, i_jb_v)); ("c", (i_jc_sj, i_jc_v)); ("nae", (i_jnae_sj, i_jnae_v)); ("ae", (i_jae_sj, i_jae_v)); ("nb", (i_jnb_sj, i_jnb_v)); ("nc", (i_jnc_sj, i_jnc_v)); ("e", (i_je_sj, i_je_v)); ("z", (i_jz_sj, i_jz_v)); ("ne", (i_jne_sj, i_jne_v)); ("nz", (i_jnz_sj, i_jnz_v)); ("be", (i_jbe_sj, i_jbe_v)); ("na", (i_jna_sj, i_jna_v)); ("a", (i_ja_sj, i_ja_v)); ("nbe", (i_jnbe_sj, i_jnbe_v)); ("s", (i_js_sj, i_js_v)); ("ns", (i_jns_sj, i_jns_v)); ("p", (i_jp_sj, i_jp_v)); ("pe", (i_jpe_sj, i_jpe_v)); ("np", (i_jnp_sj, i_jnp_v)); ("po", (i_jpo_sj, i_jpo_v)); ("l", (i_jl_sj, i_jl_v)); ("nge", (i_jnge_sj, i_jnge_v)); ("ge", (i_jge_sj, i_jge_v)); ("nl", (i_jnl_sj, i_jnl_v)); ("le", (i_jle_sj, i_jle_v)); ("ng", (i_jng_sj, i_jng_v)); ("g", (i_jg_sj, i_jg_v)); ("nle", (i_jnle_sj, i_jnle_v))].
Lemma jcc_all : Forall jcc_ok jcc_methods.
Proof.
  apply Forall_cons; [exists 0; split; [cond_witness|split; intros; reflexivity]|].
  apply Forall_cons; [exists 1; split; [cond_witness|split; intros; reflexivity]|].
  apply Forall_cons; [exists 2; split; [cond_witness|split; intros; reflexivity]|].
  apply Forall_cons; [exists 2; split; [cond_witness|split; intros; reflexivity]|].
  apply Forall_cons; [exists 2; split; [cond_witness|split; intros; reflexivity]|].
  apply Forall_cons; [exists 3; split; [cond_witness|split; intros; reflexivity]|].
  apply Forall_cons; [exists 3; split; [cond_witness|split; intros; reflexivity]|].
  apply Forall_cons; [exists 3; split; [cond_witness|split; intros; reflexivity]|].
  apply Forall_cons; [exists 4; split; [cond_witness|split; intros; reflexivity]|].
  apply Forall_cons; [exists 4; split; [cond_witness|split; intros; reflexivity]|].
  apply Forall_cons; [exists 5; split; [cond_witness|split; intros; reflexivity]|].
  apply Forall_cons; [exists 5; split; [cond_witness|split; intros; reflexivity]|].
  apply Forall_cons; [exists 6; split; [cond_witness|split; intros; reflexivity]|].
  apply Forall_cons; [exists 6; split; [cond_witness|split; intros; reflexivity]|].
  apply Forall_cons; [exists 7; split; [cond_witness|split; intros; reflexivity]|].
  apply Forall_cons; [exists 7; split; [cond_witness|split; intros; reflexivity]|].
  apply Forall_cons; [exists 8; split; [cond_witness|split; intros; reflexivity]|].
  apply Forall_cons; [exists 9; split; [cond_witness|split; intros; reflexivity]|].
  apply Forall_cons; [exists 10; split; [cond_witness|split; intros; reflexivity]|].
  apply Forall_cons; [exists 10; split; [cond_witness|split; intros; reflexivity]|].
  apply Forall_cons; [exists 11; split; [cond_witness|split; intros; reflexivity]|].
  apply Forall_cons; [exists 11; split; [cond_witness|split; intros; reflexivity]|].
  apply Forall_cons; [exists 12; split; [cond_witness|split; intros; reflexivity]|].
  apply Forall_cons; [exists 12; split; [cond_witness|split; intros; reflexivity]|].
  apply Forall_cons; [exists 13; split; [cond_witness|split; intros; reflexivity]|].
  apply Forall_cons; [exists 13; split; [cond_witness|split; intros; reflexivity]|].
  apply Forall_cons; [exists 14; split; [cond_witness|split; intros; reflexivity]|].
  apply Forall_cons; [exists 14; split; [cond_witness|split; intros; reflexivity]|].
  apply Forall_cons; [exists 15; split; [cond_witness|split; intros; reflexivity]|].
  apply Forall_cons; [exists 15; split; [cond_witness|split; intros; reflexivity]|].
  apply Forall_nil.
Qed.
Definition setcc_methods : list (string * (Operand -> E unit)) := [
  ("o", i_seto); ("no", i_setno); ("b", i_setb); ("c", i_setc); ("nae", i_setnae); ("ae", i_setae); ("nb", i_setnb); ("nc", i_setnc); ("e", i_sete); ("z", i_setz); ("ne", i_setne); ("nz", i_setnz); ("be", i_setbe); ("na", i_setna); ("a", i_seta); ("nbe", i_setnbe); ("s", i_sets); ("ns", i_setns); ("p", i_setp); ("pe", i_setpe); ("np", i_setnp); ("po", i_setpo); ("l", i_setl); ("nge", i_setnge); ("ge", i_setge); ("nl", i_setnl); ("le", i_setle); ("ng", i_setng); ("g", i_setg); ("nle", i_setnle)].
Lemma setcc_all : Forall setcc_ok setcc_methods.
Proof.
  apply Forall_cons; [exists 0; split; [cond_witness|exact l_seto]|].
  apply Forall_cons; [exists 1; split; [cond_witness|exact l_setno]|].
  apply Forall_cons; [exists 2; split; [cond_witness|exact l_setb]|].
  apply Forall_cons; [exists 2; split; [cond_witness|exact l_setc]|].
  apply Forall_cons; [exists 2; split; [cond_witness|exact l_setnae]|].
  apply Forall_cons; [exists 3; split; [cond_witness|exact l_setae]|].
  apply Forall_cons; [exists 3; split; [cond_witness|exact l_setnb]|].
  apply Forall_cons; [exists 3; split; [cond_witness|exact l_setnc]|].
  apply Forall_cons; [exists 4; split; [cond_witness|exact l_sete]|].
  apply Forall_cons; [exists 4; split; [cond_witness|exact l_setz]|].
  apply Forall_cons; [exists 5; split; [cond_witness|exact l_setne]|].
  apply Forall_cons; [exists 5; split; [cond_witness|exact l_setnz]|].
  apply Forall_cons; [exists 6; split; [cond_witness|exact l_setbe]|].
  apply Forall_cons; [exists 6; split; [cond_witness|exact l_setna]|].
  apply Forall_cons; [exists 7; split; [cond_witness|exact l_seta]|].
  apply Forall_cons; [exists 7; split; [cond_witness|exact l_setnbe]|].
  apply Forall_cons; [exists 8; split; [cond_witness|exact l_sets]|].
  apply Forall_cons; [exists 9; split; [cond_witness|exact l_setns]|].
  apply Forall_cons; [exists 10; split; [cond_witness|exact l_setp]|].
  apply Forall_cons; [exists 10; split; [cond_witness|exact l_setpe]|].
  apply Forall_cons; [exists 11; split; [cond_witness|exact l_setnp]|].
  apply Forall_cons; [exists 11; split; [cond_witness|exact l_setpo]|].
  apply Forall_cons; [exists 12; split; [cond_witness|exact l_setl]|].
  apply Forall_cons; [exists 12; split; [cond_witness|exact l_setnge]|].
  apply Forall_cons; [exists 13; split; [cond_witness|exact l_setge]|].
  apply Forall_cons; [exists 13; split; [cond_witness|exact l_setnl]|].
  apply Forall_cons; [exists 14; split; [cond_witness|exact l_setle]|].
  apply Forall_cons; [exists 14; split; [cond_witness|exact l_setng]|].
  apply Forall_cons; [exists 15; split; [cond_witness|exact l_setg]|].
  apply Forall_cons; [exists 15; split; [cond_witness|exact l_setnle]|].
  apply Forall_nil.
Qed.
Definition cmovcc_methods : list (string * (Reg -> Operand -> E unit)) := [
  ("o", i_cmovo_ro); ("no", i_cmovno_ro); ("b", i_cmovb_ro); ("c", i_cmovc_ro); ("nae", i_cmovnae_ro); ("ae", i_cmovae_ro); ("nb", i_cmovnb_ro); ("nc", i_cmovnc_ro); ("e", i_cmove_ro); ("z", i_cmovz_ro); ("ne", i_cmovne_ro); ("nz", i_cmovnz_ro); ("be", i_cmovbe_ro); ("na", i_cmovna_ro); ("a", i_cmova_ro); ("nbe", i_cmovnbe_ro); ("s", i_cmovs_ro); ("ns", i_cmovns_ro); ("p", i_cmovp_ro); ("pe", i_cmovpe_ro); ("np", i_cmovnp_ro); ("po", i_cmovpo_ro); ("l", i_cmovl_ro); ("nge", i_cmovnge_ro); ("ge", i_cmovge_ro); ("nl", i_cmovnl_ro); ("le", i_cmovle_ro); ("ng", i_cmovng_ro); ("g", i_cmovg_ro); ("nle", i_cmovnle_ro)].
Lemma cmovcc_all : Forall cmovcc_ok cmovcc_methods.
Proof.
  apply Forall_cons; [exists 0; split; [cond_witness|exact l_cmovo_ro]|].
  apply Forall_cons; [exists 1; split; [cond_witness|exact l_cmovno_ro]|].
  apply Forall_cons; [exists 2; split; [cond_witness|exact l_cmovb_ro]|].
  apply Forall_cons; [exists 2; split; [cond_witness|exact l_cmovc_ro]|].
  apply Forall_cons; [exists 2; split; [cond_witness|exact l_cmovnae_ro]|].
  apply Forall_cons; [exists 3; split; [cond_witness|exact l_cmovae_ro]|].
  apply Forall_cons; [exists 3; split; [cond_witness|exact l_cmovnb_ro]|].
  apply Forall_cons; [exists 3; split; [cond_witness|exact l_cmovnc_ro]|].
  apply Forall_cons; [exists 4; split; [cond_witness|exact l_cmove_ro]|].
  apply Forall_cons; [exists 4; split; [cond_witness|exact l_cmovz_ro]|].
  apply Forall_cons; [exists 5; split; [cond_witness|exact l_cmovne_ro]|].
  apply Forall_cons; [exists 5; split; [cond_witness|exact l_cmovnz_ro]|].
  apply Forall_cons; [exists 6; split; [cond_witness|exact l_cmovbe_ro]|].
  apply Forall_cons; [exists 6; split; [cond_witness|exact l_cmovna_ro]|].
  apply Forall_cons; [exists 7; split; [cond_witness|exact l_cmova_ro]|].
  apply Forall_cons; [exists 7; split; [cond_witness|exact l_cmovnbe_ro]|].
  apply Forall_cons; [exists 8; split; [cond_witness|exact l_cmovs_ro]|].
  apply Forall_cons; [exists 9; split; [cond_witness|exact l_cmovns_ro]|].
  apply Forall_cons; [exists 10; split; [cond_witness|exact l_cmovp_ro]|].
  apply Forall_cons; [exists 10; split; [cond_witness|exact l_cmovpe_ro]|].
  apply Forall_cons; [exists 11; split; [cond_witness|exact l_cmovnp_ro]|].
  apply Forall_cons; [exists 11; split; [cond_witness|exact l_cmovpo_ro]|].
  apply Forall_cons; [exists 12; split; [cond_witness|exact l_cmovl_ro]|].
  apply Forall_cons; [exists 12; split; [cond_witness|exact l_cmovnge_ro]|].
  apply Forall_cons; [exists 13; split; [cond_witness|exact l_cmovge_ro]|].
  apply Forall_cons; [exists 13; split; [cond_witness|exact l_cmovnl_ro]|].
  apply Forall_cons; [exists 14; split; [cond_witness|exact l_cmovle_ro]|].
  apply Forall_cons; [exists 14; split; [cond_witness|exact l_cmovng_ro]|].
  apply Forall_cons; [exists 15; split; [cond_witness|exact l_cmovg_ro]|].
  apply Forall_cons; [exists 15; split; [cond_witness|exact l_cmovnle_ro]|].
  apply Forall_nil.
Qed.
Definition setcc_apx_methods : list (string * (Operand -> E unit)) := [
  ("o", i_seto); ("no", i_setno); ("b", i_setb); ("c", i_setc); ("nae", i_setnae); ("ae", i_setae); ("nb", i_setnb); ("nc", i_setnc); ("e", i_sete); ("z", i_setz); ("ne", i_setne); ("nz", i_setnz); ("be", i_setbe); ("na", i_setna); ("a", i_seta); ("nbe", i_setnbe); ("s", i_sets); ("ns", i_setns); ("p", i_setp); ("pe", i_setpe); ("np", i_setnp); ("po", i_setpo); ("l", i_setl); ("nge", i_setnge); ("ge", i_setge); ("nl", i_setnl); ("le", i_setle); ("ng", i_setng); ("g", i_setg); ("nle", i_setnle)].
Lemma setcc_apx_all : Forall setcc_apx_ok setcc_apx_methods.
Proof.
  apply Forall_cons; [exists 0; split; [cond_witness|exact (apx_nth 164 _ eq_refl)]|].
  apply Forall_cons; [exists 1; split; [cond_witness|exact (apx_nth 165 _ eq_refl)]|].
  apply Forall_cons; [exists 2; split; [cond_witness|exact (apx_nth 166 _ eq_refl)]|].
  apply Forall_cons; [exists 2; split; [cond_witness|exact (apx_nth 167 _ eq_refl)]|].
  apply Forall_cons; [exists 2; split; [cond_witness|exact (apx_nth 168 _ eq_refl)]|].
  apply Forall_cons; [exists 3; split; [cond_witness|exact (apx_nth 169 _ eq_refl)]|].
  apply Forall_cons; [exists 3; split; [cond_witness|exact (apx_nth 170 _ eq_refl)]|].
  apply Forall_cons; [exists 3; split; [cond_witness|exact (apx_nth 171 _ eq_refl)]|].
  apply Forall_cons; [exists 4; split; [cond_witness|exact (apx_nth 172 _ eq_refl)]|].
  apply Forall_cons; [exists 4; split; [cond_witness|exact (apx_nth 173 _ eq_refl)]|].
  apply Forall_cons; [exists 5; split; [cond_witness|exact (apx_nth 174 _ eq_refl)]|].
  apply Forall_cons; [exists 5; split; [cond_witness|exact (apx_nth 175 _ eq_refl)]|].
  apply Forall_cons; [exists 6; split; [cond_witness|exact (apx_nth 176 _ eq_refl)]|].
  apply Forall_cons; [exists 6; split; [cond_witness|exact (apx_nth 177 _ eq_refl)]|].
  apply Forall_cons; [exists 7; split; [cond_witness|exact (apx_nth 178 _ eq_refl)]|].
  apply Forall_cons; [exists 7; split; [cond_witness|exact (apx_nth 179 _ eq_refl)]|].
  apply Forall_cons; [exists 8; split; [cond_witness|exact (apx_nth 180 _ eq_refl)]|].
  apply Forall_cons; [exists 9; split; [cond_witness|exact (apx_nth 181 _ eq_refl)]|].
  apply Forall_cons; [exists 10; split; [cond_witness|exact (apx_nth 182 _ eq_refl)]|].
  apply Forall_cons; [exists 10; split; [cond_witness|exact (apx_nth 183 _ eq_refl)]|].
  apply Forall_cons; [exists 11; split; [cond_witness|exact (apx_nth 184 _ eq_refl)]|].
  apply Forall_cons; [exists 11; split; [cond_witness|exact (apx_nth 185 _ eq_refl)]|].
  apply Forall_cons; [exists 12; split; [cond_witness|exact (apx_nth 186 _ eq_refl)]|].
  apply Forall_cons; [exists 12; split; [cond_witness|exact (apx_nth 187 _ eq_refl)]|].
  apply Forall_cons; [exists 13; split; [cond_witness|exact (apx_nth 188 _ eq_refl)]|].
  apply Forall_cons; [exists 13; split; [cond_witness|exact (apx_nth 189 _ eq_refl)]|].
  apply Forall_cons; [exists 14; split; [cond_witness|exact (apx_nth 190 _ eq_refl)]|].
  apply Forall_cons; [exists 14; split; [cond_witness|exact (apx_nth 191 _ eq_refl)]|].
  apply Forall_cons; [exists 15; split; [cond_witness|exact (apx_nth 192 _ eq_refl)]|].
  apply Forall_cons; [exists 15; split; [cond_witness|exact (apx_nth 193 _ eq_refl)]|].
  apply Forall_nil.
Qed.
Definition cmovcc_apx_methods : list (string * (Reg -> Reg -> Operand -> E unit)) := [
  ("o", i_cmovo_rro); ("no", i_cmovno_rro); ("b", i_cmovb_rro); ("c", i_cmovc_rro); ("nae", i_cmovnae_rro); ("ae", i_cmovae_rro); ("nb", i_cmovnb_rro); ("nc", i_cmovnc_rro); ("e", i_cmove_rro); ("z", i_cmovz_rro); ("ne", i_cmovne_rro); ("nz", i_cmovnz_rro); ("be", i_cmovbe_rro); ("na", i_cmovna_rro); ("a", i_cmova_rro); ("nbe", i_cmovnbe_rro); ("s", i_cmovs_rro); ("ns", i_cmovns_rro); ("p", i_cmovp_rro); ("pe", i_cmovpe_rro); ("np", i_cmovnp_rro); ("po", i_cmovpo_rro); ("l", i_cmovl_rro); ("nge", i_cmovnge_rro); ("ge", i_cmovge_rro); ("nl", i_cmovnl_rro); ("le", i_cmovle_rro); ("ng", i_cmovng_rro); ("g", i_cmovg_rro); ("nle", i_cmovnle_rro)].
Lemma cmovcc_apx_all : Forall cmovcc_apx_ok cmovcc_apx_methods.
Proof.
  apply Forall_cons; [exists 0; split; [cond_witness|exact (apx_nth 102 _ eq_refl)]|].
  apply Forall_cons; [exists 1; split; [cond_witness|exact (apx_nth 103 _ eq_refl)]|].
  apply Forall_cons; [exists 2; split; [cond_witness|exact (apx_nth 104 _ eq_refl)]|].
  apply Forall_cons; [exists 2; split; [cond_witness|exact (apx_nth 105 _ eq_refl)]|].
  apply Forall_cons; [exists 2; split; [cond_witness|exact (apx_nth 106 _ eq_refl)]|].
  apply Forall_cons; [exists 3; split; [cond_witness|exact (apx_nth 107 _ eq_refl)]|].
  apply Forall_cons; [exists 3; split; [cond_witness|exact (apx_nth 108 _ eq_refl)]|].
  apply Forall_cons; [exists 3; split; [cond_witness|exact (apx_nth 109 _ eq_refl)]|].
  apply Forall_cons; [exists 4; split; [cond_witness|exact (apx_nth 110 _ eq_refl)]|].
  apply Forall_cons; [exists 4; split; [cond_witness|exact (apx_nth 111 _ eq_refl)]|].
  apply Forall_cons; [exists 5; split; [cond_witness|exact (apx_nth 112 _ eq_refl)]|].
  apply Forall_cons; [exists 5; split; [cond_witness|exact (apx_nth 113 _ eq_refl)]|].
  apply Forall_cons; [exists 6; split; [cond_witness|exact (apx_nth 114 _ eq_refl)]|].
  apply Forall_cons; [exists 6; split; [cond_witness|exact (apx_nth 115 _ eq_refl)]|].
  apply Forall_cons; [exists 7; split; [cond_witness|exact (apx_nth 116 _ eq_refl)]|].
  apply Forall_cons; [exists 7; split; [cond_witness|exact (apx_nth 117 _ eq_refl)]|].
  apply Forall_cons; [exists 8; split; [cond_witness|exact (apx_nth 118 _ eq_refl)]|].
  apply Forall_cons; [exists 9; split; [cond_witness|exact (apx_nth 119 _ eq_refl)]|].
  apply Forall_cons; [exists 10; split; [cond_witness|exact (apx_nth 120 _ eq_refl)]|].
  apply Forall_cons; [exists 10; split; [cond_witness|exact (apx_nth 121 _ eq_refl)]|].
  apply Forall_cons; [exists 11; split; [cond_witness|exact (apx_nth 122 _ eq_refl)]|].
  apply Forall_cons; [exists 11; split; [cond_witness|exact (apx_nth 123 _ eq_refl)]|].
  apply Forall_cons; [exists 12; split; [cond_witness|exact (apx_nth 124 _ eq_refl)]|].
  apply Forall_cons; [exists 12; split; [cond_witness|exact (apx_nth 125 _ eq_refl)]|].
  apply Forall_cons; [exists 13; split; [cond_witness|exact (apx_nth 126 _ eq_refl)]|].
  apply Forall_cons; [exists 13; split; [cond_witness|exact (apx_nth 127 _ eq_refl)]|].
  apply Forall_cons; [exists 14; split; [cond_witness|exact (apx_nth 128 _ eq_refl)]|].
  apply Forall_cons; [exists 14; split; [cond_witness|exact (apx_nth 129 _ eq_refl)]|].
  apply Forall_cons; [exists 15; split; [cond_witness|exact (apx_nth 130 _ eq_refl)]|].
  apply Forall_cons; [exists 15; split; [cond_witness|exact (apx_nth 131 _ eq_refl)]|].
  apply Forall_nil.
Qed.
Definition cfcmovcc_methods : list (string * (Operand -> Operand -> E unit)) := [
  ("o", i_cfcmovo_oo); ("no", i_cfcmovno_oo); ("b", i_cfcmovb_oo); ("nb", i_cfcmovnb_oo); ("z", i_cfcmovz_oo); ("nz", i_cfcmovnz_oo); ("be", i_cfcmovbe_oo); ("nbe", i_cfcmovnbe_oo); ("s", i_cfcmovs_oo); ("ns", i_cfcmovns_oo); ("p", i_cfcmovp_oo); ("np", i_cfcmovnp_oo); ("l", i_cfcmovl_oo); ("nl", i_cfcmovnl_oo); ("le", i_cfcmovle_oo); ("nle", i_cfcmovnle_oo)].
Lemma cfcmovcc_all : Forall cfcmovcc_ok cfcmovcc_methods.
Proof.
  apply Forall_cons; [exists 0; split; [cond_witness|exact (apx_nth 132 _ eq_refl)]|].
  apply Forall_cons; [exists 1; split; [cond_witness|exact (apx_nth 134 _ eq_refl)]|].
  apply Forall_cons; [exists 2; split; [cond_witness|exact (apx_nth 136 _ eq_refl)]|].
  apply Forall_cons; [exists 3; split; [cond_witness|exact (apx_nth 138 _ eq_refl)]|].
  apply Forall_cons; [exists 4; split; [cond_witness|exact (apx_nth 140 _ eq_refl)]|].
  apply Forall_cons; [exists 5; split; [cond_witness|exact (apx_nth 142 _ eq_refl)]|].
  apply Forall_cons; [exists 6; split; [cond_witness|exact (apx_nth 144 _ eq_refl)]|].
  apply Forall_cons; [exists 7; split; [cond_witness|exact (apx_nth 146 _ eq_refl)]|].
  apply Forall_cons; [exists 8; split; [cond_witness|exact (apx_nth 148 _ eq_refl)]|].
  apply Forall_cons; [exists 9; split; [cond_witness|exact (apx_nth 150 _ eq_refl)]|].
  apply Forall_cons; [exists 10; split; [cond_witness|exact (apx_nth 152 _ eq_refl)]|].
  apply Forall_cons; [exists 11; split; [cond_witness|exact (apx_nth 154 _ eq_refl)]|].
  apply Forall_cons; [exists 12; split; [cond_witness|exact (apx_nth 156 _ eq_refl)]|].
  apply Forall_cons; [exists 13; split; [cond_witness|exact (apx_nth 158 _ eq_refl)]|].
  apply Forall_cons; [exists 14; split; [cond_witness|exact (apx_nth 160 _ eq_refl)]|].
  apply Forall_cons; [exists 15; split; [cond_witness|exact (apx_nth 162 _ eq_refl)]|].
  apply Forall_nil.
Qed.
Definition cfcmovcc3_methods : list (string * (Reg -> Reg -> Operand -> E unit)) := [
  ("o", i_cfcmovo_rro); ("no", i_cfcmovno_rro); ("b", i_cfcmovb_rro); ("nb", i_cfcmovnb_rro); ("z", i_cfcmovz_rro); ("nz", i_cfcmovnz_rro); ("be", i_cfcmovbe_rro); ("nbe", i_cfcmovnbe_rro); ("s", i_cfcmovs_rro); ("ns", i_cfcmovns_rro); ("p", i_cfcmovp_rro); ("np", i_cfcmovnp_rro); ("l", i_cfcmovl_rro); ("nl", i_cfcmovnl_rro); ("le", i_cfcmovle_rro); ("nle", i_cfcmovnle_rro)].
Lemma cfcmovcc3_all : Forall cfcmovcc3_ok cfcmovcc3_methods.
Proof.
  apply Forall_cons; [exists 0; split; [cond_witness|exact (apx_nth 133 _ eq_refl)]|].
  apply Forall_cons; [exists 1; split; [cond_witness|exact (apx_nth 135 _ eq_refl)]|].
  apply Forall_cons; [exists 2; split; [cond_witness|exact (apx_nth 137 _ eq_refl)]|].
  apply Forall_cons; [exists 3; split; [cond_witness|exact (apx_nth 139 _ eq_refl)]|].
  apply Forall_cons; [exists 4; split; [cond_witness|exact (apx_nth 141 _ eq_refl)]|].
  apply Forall_cons; [exists 5; split; [cond_witness|exact (apx_nth 143 _ eq_refl)]|].
  apply Forall_cons; [exists 6; split; [cond_witness|exact (apx_nth 145 _ eq_refl)]|].
  apply Forall_cons; [exists 7; split; [cond_witness|exact (apx_nth 147 _ eq_refl)]|].
  apply Forall_cons; [exists 8; split; [cond_witness|exact (apx_nth 149 _ eq_refl)]|].
  apply Forall_cons; [exists 9; split; [cond_witness|exact (apx_nth 151 _ eq_refl)]|].
  apply Forall_cons; [exists 10; split; [cond_witness|exact (apx_nth 153 _ eq_refl)]|].
  apply Forall_cons; [exists 11; split; [cond_witness|exact (apx_nth 155 _ eq_refl)]|].
  apply Forall_cons; [exists 12; split; [cond_witness|exact (apx_nth 157 _ eq_refl)]|].
  apply Forall_cons; [exists 13; split; [cond_witness|exact (apx_nth 159 _ eq_refl)]|].
  apply Forall_cons; [exists 14; split; [cond_witness|exact (apx_nth 161 _ eq_refl)]|].
  apply Forall_cons; [exists 15; split; [cond_witness|exact (apx_nth 163 _ eq_refl)]|].
  apply Forall_nil.
Qed.
Definition cmpccxadd_methods : list (string * (Address -> Reg -> Reg -> E unit)) := [
  ("o", i_cmpoxadd); ("no", i_cmpnoxadd); ("b", i_cmpbxadd); ("nb", i_cmpnbxadd); ("z", i_cmpzxadd); ("nz", i_cmpnzxadd); ("be", i_cmpbexadd); ("nbe", i_cmpnbexadd); ("s", i_cmpsxadd); ("ns", i_cmpnsxadd); ("p", i_cmppxadd); ("np", i_cmpnpxadd); ("l", i_cmplxadd); ("nl", i_cmpnlxadd); ("le", i_cmplexadd); ("nle", i_cmpnlexadd)].
Lemma cmpccxadd_all : Forall cmpccxadd_ok cmpccxadd_methods.
Proof.
  apply Forall_cons; [exists 0; split; [cond_witness|exact (apx_nth 306 _ eq_refl)]|].
  apply Forall_cons; [exists 1; split; [cond_witness|exact (apx_nth 307 _ eq_refl)]|].
  apply Forall_cons; [exists 2; split; [cond_witness|exact (apx_nth 308 _ eq_refl)]|].
  apply Forall_cons; [exists 3; split; [cond_witness|exact (apx_nth 309 _ eq_refl)]|].
  apply Forall_cons; [exists 4; split; [cond_witness|exact (apx_nth 310 _ eq_refl)]|].
  apply Forall_cons; [exists 5; split; [cond_witness|exact (apx_nth 311 _ eq_refl)]|].
  apply Forall_cons; [exists 6; split; [cond_witness|exact (apx_nth 312 _ eq_refl)]|].
  apply Forall_cons; [exists 7; split; [cond_witness|exact (apx_nth 313 _ eq_refl)]|].
  apply Forall_cons; [exists 8; split; [cond_witness|exact (apx_nth 314 _ eq_refl)]|].
  apply Forall_cons; [exists 9; split; [cond_witness|exact (apx_nth 315 _ eq_refl)]|].
  apply Forall_cons; [exists 10; split; [cond_witness|exact (apx_nth 316 _ eq_refl)]|].
  apply Forall_cons; [exists 11; split; [cond_witness|exact (apx_nth 317 _ eq_refl)]|].
  apply Forall_cons; [exists 12; split; [cond_witness|exact (apx_nth 318 _ eq_refl)]|].
  apply Forall_cons; [exists 13; split; [cond_witness|exact (apx_nth 319 _ eq_refl)]|].
  apply Forall_cons; [exists 14; split; [cond_witness|exact (apx_nth 320 _ eq_refl)]|].
  apply Forall_cons; [exists 15; split; [cond_witness|exact (apx_nth 321 _ eq_refl)]|].
  apply Forall_nil.
Qed.
Definition ccmpscc_methods : list (string * (Operand -> Operand -> Z -> E unit)) := [
  ("o", i_ccmpo_ooi); ("no", i_ccmpno_ooi); ("b", i_ccmpb_ooi); ("c", i_ccmpc_ooi); ("nae", i_ccmpnae_ooi); ("ae", i_ccmpae_ooi); ("nb", i_ccmpnb_ooi); ("nc", i_ccmpnc_ooi); ("e", i_ccmpe_ooi); ("z", i_ccmpz_ooi); ("ne", i_ccmpne_ooi); ("nz", i_ccmpnz_ooi); ("be", i_ccmpbe_ooi); ("na", i_ccmpna_ooi); ("a", i_ccmpa_ooi); ("nbe", i_ccmpnbe_ooi); ("s", i_ccmps_ooi); ("ns", i_ccmpns_ooi); ("l", i_ccmpl_ooi); ("nge", i_ccmpnge_ooi); ("ge", i_ccmpge_ooi); ("nl", i_ccmpnl_ooi); ("le", i_ccmple_ooi); ("ng", i_ccmpng_ooi); ("g", i_ccmpg_ooi); ("nle", i_ccmpnle_ooi); ("t", i_ccmpt_ooi); ("f", i_ccmpf_ooi)].
Lemma ccmpscc_all : Forall ccmpscc_ok ccmpscc_methods.
Proof.
  apply Forall_cons; [exists 0; split; [cond_witness|exact (apx_nth 194 _ eq_refl)]|].
  apply Forall_cons; [exists 1; split; [cond_witness|exact (apx_nth 198 _ eq_refl)]|].
  apply Forall_cons; [exists 2; split; [cond_witness|exact (apx_nth 202 _ eq_refl)]|].
  apply Forall_cons; [exists 2; split; [cond_witness|exact (apx_nth 206 _ eq_refl)]|].
  apply Forall_cons; [exists 2; split; [cond_witness|exact (apx_nth 210 _ eq_refl)]|].
  apply Forall_cons; [exists 3; split; [cond_witness|exact (apx_nth 214 _ eq_refl)]|].
  apply Forall_cons; [exists 3; split; [cond_witness|exact (apx_nth 218 _ eq_refl)]|].
  apply Forall_cons; [exists 3; split; [cond_witness|exact (apx_nth 222 _ eq_refl)]|].
  apply Forall_cons; [exists 4; split; [cond_witness|exact (apx_nth 226 _ eq_refl)]|].
  apply Forall_cons; [exists 4; split; [cond_witness|exact (apx_nth 230 _ eq_refl)]|].
  apply Forall_cons; [exists 5; split; [cond_witness|exact (apx_nth 234 _ eq_refl)]|].
  apply Forall_cons; [exists 5; split; [cond_witness|exact (apx_nth 238 _ eq_refl)]|].
  apply Forall_cons; [exists 6; split; [cond_witness|exact (apx_nth 242 _ eq_refl)]|].
  apply Forall_cons; [exists 6; split; [cond_witness|exact (apx_nth 246 _ eq_refl)]|].
  apply Forall_cons; [exists 7; split; [cond_witness|exact (apx_nth 250 _ eq_refl)]|].
  apply Forall_cons; [exists 7; split; [cond_witness|exact (apx_nth 254 _ eq_refl)]|].
  apply Forall_cons; [exists 8; split; [cond_witness|exact (apx_nth 258 _ eq_refl)]|].
  apply Forall_cons; [exists 9; split; [cond_witness|exact (apx_nth 262 _ eq_refl)]|].
  apply Forall_cons; [exists 12; split; [cond_witness|exact (apx_nth 274 _ eq_refl)]|].
  apply Forall_cons; [exists 12; split; [cond_witness|exact (apx_nth 278 _ eq_refl)]|].
  apply Forall_cons; [exists 13; split; [cond_witness|exact (apx_nth 282 _ eq_refl)]|].
  apply Forall_cons; [exists 13; split; [cond_witness|exact (apx_nth 286 _ eq_refl)]|].
  apply Forall_cons; [exists 14; split; [cond_witness|exact (apx_nth 290 _ eq_refl)]|].
  apply Forall_cons; [exists 14; split; [cond_witness|exact (apx_nth 294 _ eq_refl)]|].
  apply Forall_cons; [exists 15; split; [cond_witness|exact (apx_nth 298 _ eq_refl)]|].
  apply Forall_cons; [exists 15; split; [cond_witness|exact (apx_nth 302 _ eq_refl)]|].
  apply Forall_cons; [exists 10; split; [cond_witness|exact (apx_nth 266 _ eq_refl)]|].
  apply Forall_cons; [exists 11; split; [cond_witness|exact (apx_nth 270 _ eq_refl)]|].
  apply Forall_nil.
Qed.
Definition ccmpscci_methods : list (string * (Operand -> Z -> Z -> E unit)) := [
  ("o", i_ccmpo_oii); ("no", i_ccmpno_oii); ("b", i_ccmpb_oii); ("c", i_ccmpc_oii); ("nae", i_ccmpnae_oii); ("ae", i_ccmpae_oii); ("nb", i_ccmpnb_oii); ("nc", i_ccmpnc_oii); ("e", i_ccmpe_oii); ("z", i_ccmpz_oii); ("ne", i_ccmpne_oii); ("nz", i_ccmpnz_oii); ("be", i_ccmpbe_oii); ("na", i_ccmpna_oii); ("a", i_ccmpa_oii); ("nbe", i_ccmpnbe_oii); ("s", i_ccmps_oii); ("ns", i_ccmpns_oii); ("l", i_ccmpl_oii); ("nge", i_ccmpnge_oii); ("ge", i_ccmpge_oii); ("nl", i_ccmpnl_oii); ("le", i_ccmple_oii); ("ng", i_ccmpng_oii); ("g", i_ccmpg_oii); ("nle", i_ccmpnle_oii); ("t", i_ccmpt_oii); ("f", i_ccmpf_oii)].
Lemma ccmpscci_all : Forall ccmpscci_ok ccmpscci_methods.
Proof.
  apply Forall_cons; [exists 0; split; [cond_witness|exact (apx_nth 195 _ eq_refl)]|].
  apply Forall_cons; [exists 1; split; [cond_witness|exact (apx_nth 199 _ eq_refl)]|].
  apply Forall_cons; [exists 2; split; [cond_witness|exact (apx_nth 203 _ eq_refl)]|].
  apply Forall_cons; [exists 2; split; [cond_witness|exact (apx_nth 207 _ eq_refl)]|].
  apply Forall_cons; [exists 2; split; [cond_witness|exact (apx_nth 211 _ eq_refl)]|].
  apply Forall_cons; [exists 3; split; [cond_witness|exact (apx_nth 215 _ eq_refl)]|].
  apply Forall_cons; [exists 3; split; [cond_witness|exact (apx_nth 219 _ eq_refl)]|].
  apply Forall_cons; [exists 3; split; [cond_witness|exact (apx_nth 223 _ eq_refl)]|].
  apply Forall_cons; [exists 4; split; [cond_witness|exact (apx_nth 227 _ eq_refl)]|].
  apply Forall_cons; [exists 4; split; [cond_witness|exact (apx_nth 231 _ eq_refl)]|].
  apply Forall_cons; [exists 5; split; [cond_witness|exact (apx_nth 235 _ eq_refl)]|].
  apply Forall_cons; [exists 5; split; [cond_witness|exact (apx_nth 239 _ eq_refl)]|].
  apply Forall_cons; [exists 6; split; [cond_witness|exact (apx_nth 243 _ eq_refl)]|].
  apply Forall_cons; [exists 6; split; [cond_witness|exact (apx_nth 247 _ eq_refl)]|].
  apply Forall_cons; [exists 7; split; [cond_witness|exact (apx_nth 251 _ eq_refl)]|].
  apply Forall_cons; [exists 7; split; [cond_witness|exact (apx_nth 255 _ eq_refl)]|].
  apply Forall_cons; [exists 8; split; [cond_witness|exact (apx_nth 259 _ eq_refl)]|].
  apply Forall_cons; [exists 9; split; [cond_witness|exact (apx_nth 263 _ eq_refl)]|].
  apply Forall_cons; [exists 12; split; [cond_witness|exact (apx_nth 275 _ eq_refl)]|].
  apply Forall_cons; [exists 12; split; [cond_witness|exact (apx_nth 279 _ eq_refl)]|].
  apply Forall_cons; [exists 13; split; [cond_witness|exact (apx_nth 283 _ eq_refl)]|].
  apply Forall_cons; [exists 13; split; [cond_witness|exact (apx_nth 287 _ eq_refl)]|].
  apply Forall_cons; [exists 14; split; [cond_witness|exact (apx_nth 291 _ eq_refl)]|].
  apply Forall_cons; [exists 14; split; [cond_witness|exact (apx_nth 295 _ eq_refl)]|].
  apply Forall_cons; [exists 15; split; [cond_witness|exact (apx_nth 299 _ eq_refl)]|].
  apply Forall_cons; [exists 15; split; [cond_witness|exact (apx_nth 303 _ eq_refl)]|].
  apply Forall_cons; [exists 10; split; [cond_witness|exact (apx_nth 267 _ eq_refl)]|].
  apply Forall_cons; [exists 11; split; [cond_witness|exact (apx_nth 271 _ eq_refl)]|].
  apply Forall_nil.
Qed.
Definition ctestscc_methods : list (string * (Operand -> Reg -> Z -> E unit)) := [
  ("o", i_ctesto_ori); ("no", i_ctestno_ori); ("b", i_ctestb_ori); ("c", i_ctestc_ori); ("nae", i_ctestnae_ori); ("ae", i_ctestae_ori); ("nb", i_ctestnb_ori); ("nc", i_ctestnc_ori); ("e", i_cteste_ori); ("z", i_ctestz_ori); ("ne", i_ctestne_ori); ("nz", i_ctestnz_ori); ("be", i_ctestbe_ori); ("na", i_ctestna_ori); ("a", i_ctesta_ori); ("nbe", i_ctestnbe_ori); ("s", i_ctests_ori); ("ns", i_ctestns_ori); ("l", i_ctestl_ori); ("nge", i_ctestnge_ori); ("ge", i_ctestge_ori); ("nl", i_ctestnl_ori); ("le", i_ctestle_ori); ("ng", i_ctestng_ori); ("g", i_ctestg_ori); ("nle", i_ctestnle_ori); ("t", i_ctestt_ori); ("f", i_ctestf_ori)].
Lemma ctestscc_all : Forall ctestscc_ok ctestscc_methods.
Proof.
  apply Forall_cons; [exists 0; split; [cond_witness|exact (apx_nth 196 _ eq_refl)]|].
  apply Forall_cons; [exists 1; split; [cond_witness|exact (apx_nth 200 _ eq_refl)]|].
  apply Forall_cons; [exists 2; split; [cond_witness|exact (apx_nth 204 _ eq_refl)]|].
  apply Forall_cons; [exists 2; split; [cond_witness|exact (apx_nth 208 _ eq_refl)]|].
  apply Forall_cons; [exists 2; split; [cond_witness|exact (apx_nth 212 _ eq_refl)]|].
  apply Forall_cons; [exists 3; split; [cond_witness|exact (apx_nth 216 _ eq_refl)]|].
  apply Forall_cons; [exists 3; split; [cond_witness|exact (apx_nth 220 _ eq_refl)]|].
  apply Forall_cons; [exists 3; split; [cond_witness|exact (apx_nth 224 _ eq_refl)]|].
  apply Forall_cons; [exists 4; split; [cond_witness|exact (apx_nth 228 _ eq_refl)]|].
  apply Forall_cons; [exists 4; split; [cond_witness|exact (apx_nth 232 _ eq_refl)]|].
  apply Forall_cons; [exists 5; split; [cond_witness|exact (apx_nth 236 _ eq_refl)]|].
  apply Forall_cons; [exists 5; split; [cond_witness|exact (apx_nth 240 _ eq_refl)]|].
  apply Forall_cons; [exists 6; split; [cond_witness|exact (apx_nth 244 _ eq_refl)]|].
  apply Forall_cons; [exists 6; split; [cond_witness|exact (apx_nth 248 _ eq_refl)]|].
  apply Forall_cons; [exists 7; split; [cond_witness|exact (apx_nth 252 _ eq_refl)]|].
  apply Forall_cons; [exists 7; split; [cond_witness|exact (apx_nth 256 _ eq_refl)]|].
  apply Forall_cons; [exists 8; split; [cond_witness|exact (apx_nth 260 _ eq_refl)]|].
  apply Forall_cons; [exists 9; split; [cond_witness|exact (apx_nth 264 _ eq_refl)]|].
  apply Forall_cons; [exists 12; split; [cond_witness|exact (apx_nth 276 _ eq_refl)]|].
  apply Forall_cons; [exists 12; split; [cond_witness|exact (apx_nth 280 _ eq_refl)]|].
  apply Forall_cons; [exists 13; split; [cond_witness|exact (apx_nth 284 _ eq_refl)]|].
  apply Forall_cons; [exists 13; split; [cond_witness|exact (apx_nth 288 _ eq_refl)]|].
  apply Forall_cons; [exists 14; split; [cond_witness|exact (apx_nth 292 _ eq_refl)]|].
  apply Forall_cons; [exists 14; split; [cond_witness|exact (apx_nth 296 _ eq_refl)]|].
  apply Forall_cons; [exists 15; split; [cond_witness|exact (apx_nth 300 _ eq_refl)]|].
  apply Forall_cons; [exists 15; split; [cond_witness|exact (apx_nth 304 _ eq_refl)]|].
  apply Forall_cons; [exists 10; split; [cond_witness|exact (apx_nth 268 _ eq_refl)]|].
  apply Forall_cons; [exists 11; split; [cond_witness|exact (apx_nth 272 _ eq_refl)]|].
  apply Forall_nil.
Qed.
Definition ctestscci_methods : list (string * (Operand -> Z -> Z -> E unit)) := [
  ("o", i_ctesto_oii); ("no", i_ctestno_oii); ("b", i_ctestb_oii); ("c", i_ctestc_oii); ("nae", i_ctestnae_oii); ("ae", i_ctestae_oii); ("nb", i_ctestnb_oii); ("nc", i_ctestnc_oii); ("e", i_cteste_oii); ("z", i_ctestz_oii); ("ne", i_ctestne_oii); ("nz", i_ctestnz_oii); ("be", i_ctestbe_oii); ("na", i_ctestna_oii); ("a", i_ctesta_oii); ("nbe", i_ctestnbe_oii); ("s", i_ctests_oii); ("ns", i_ctestns_oii); ("l", i_ctestl_oii); ("nge", i_ctestnge_oii); ("ge", i_ctestge_oii); ("nl", i_ctestnl_oii); ("le", i_ctestle_oii); ("ng", i_ctestng_oii); ("g", i_ctestg_oii); ("nle", i_ctestnle_oii); ("t", i_ctestt_oii); ("f", i_ctestf_oii)].
Lemma ctestscci_all : Forall ctestscci_ok ctestscci_methods.
Proof.
  apply Forall_cons; [exists 0; split; [cond_witness|exact (apx_nth 197 _ eq_refl)]|].
  apply Forall_cons; [exists 1; split; [cond_witness|exact (apx_nth 201 _ eq_refl)]|].
  apply Forall_cons; [exists 2; split; [cond_witness|exact (apx_nth 205 _ eq_refl)]|].
  apply Forall_cons; [exists 2; split; [cond_witness|exact (apx_nth 209 _ eq_refl)]|].
  apply Forall_cons; [exists 2; split; [cond_witness|exact (apx_nth 213 _ eq_refl)]|].
  apply Forall_cons; [exists 3; split; [cond_witness|exact (apx_nth 217 _ eq_refl)]|].
  apply Forall_cons; [exists 3; split; [cond_witness|exact (apx_nth 221 _ eq_refl)]|].
  apply Forall_cons; [exists 3; split; [cond_witness|exact (apx_nth 225 _ eq_refl)]|].
  apply Forall_cons; [exists 4; split; [cond_witness|exact (apx_nth 229 _ eq_refl)]|].
  apply Forall_cons; [exists 4; split; [cond_witness|exact (apx_nth 233 _ eq_refl)]|].
  apply Forall_cons; [exists 5; split; [cond_witness|exact (apx_nth 237 _ eq_refl)]|].
  apply Forall_cons; [exists 5; split; [cond_witness|exact (apx_nth 241 _ eq_refl)]|].
  apply Forall_cons; [exists 6; split; [cond_witness|exact (apx_nth 245 _ eq_refl)]|].
  apply Forall_cons; [exists 6; split; [cond_witness|exact (apx_nth 249 _ eq_refl)]|].
  apply Forall_cons; [exists 7; split; [cond_witness|exact (apx_nth 253 _ eq_refl)]|].
  apply Forall_cons; [exists 7; split; [cond_witness|exact (apx_nth 257 _ eq_refl)]|].
  apply Forall_cons; [exists 8; split; [cond_witness|exact (apx_nth 261 _ eq_refl)]|].
  apply Forall_cons; [exists 9; split; [cond_witness|exact (apx_nth 265 _ eq_refl)]|].
  apply Forall_cons; [exists 12; split; [cond_witness|exact (apx_nth 277 _ eq_refl)]|].
  apply Forall_cons; [exists 12; split; [cond_witness|exact (apx_nth 281 _ eq_refl)]|].
  apply Forall_cons; [exists 13; split; [cond_witness|exact (apx_nth 285 _ eq_refl)]|].
  apply Forall_cons; [exists 13; split; [cond_witness|exact (apx_nth 289 _ eq_refl)]|].
  apply Forall_cons; [exists 14; split; [cond_witness|exact (apx_nth 293 _ eq_refl)]|].
  apply Forall_cons; [exists 14; split; [cond_witness|exact (apx_nth 297 _ eq_refl)]|].
  apply Forall_cons; [exists 15; split; [cond_witness|exact (apx_nth 301 _ eq_refl)]|].
  apply Forall_cons; [exists 15; split; [cond_witness|exact (apx_nth 305 _ eq_refl)]|].
  apply Forall_cons; [exists 10; split; [cond_witness|exact (apx_nth 269 _ eq_refl)]|].
  apply Forall_cons; [exists 11; split; [cond_witness|exact (apx_nth 273 _ eq_refl)]|].
  apply Forall_nil.
Qed.
