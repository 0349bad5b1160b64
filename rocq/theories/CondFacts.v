(* What the theorems about condition codes say for one method, and the facts behind them.
   [jcc_ok] .. [ctestscci_ok] give, for a suffix and the method of that name, the instruction row with the condition code k. *)
From Coq Require Import ZArith List Bool Lia String.
From Verif Require Import Base Types Emit Encode State Code Label Gen SpecX86 SpecAddr SpecIsa SpecInsn SpecLeg LegShapes LegGpr LegGpr2 LegGpr3 SpecApx ApxTables SpecCond.
Import ListNotations.
Open Scope Z_scope.

Definition jcc_ok (p : string * ((LabelRef -> LabelType -> M unit) * (Z -> M unit))) : Prop :=
  exists k, encodes (fst p) k /\
  (forall l ty s, fst (snd p) l ty s = exec (OpJmp l ty (0x70 + k) (0x80 + k) 0x0F) s) /\
  (forall addr s, snd (snd p) addr s = exec (OpJmpAbs (w64 addr) T_NEAR (0x70 + k) (0x80 + k) 0x0F) s).
Definition setcc_ok (p : string * (Operand -> E unit)) : Prop :=
  exists k, encodes (fst p) k /\
  limplements (mkLE (fst p) [tOl [0; 8]] (f_o (snd p)) [mkL NP 1 (0x90 + k) true (Some 0) [rm_ KG true (Sn 8)] OsN I_none]).
Definition cmovcc_ok (p : string * (Reg -> Operand -> E unit)) : Prop :=
  exists k, encodes (fst p) k /\ limplements (mkLE (fst p) [tGv; tO] (ro (snd p)) [rorow NP 1 (0x40 + k) Sv Sv OsV I_none]).
Definition setcc_apx_ok (p : string * (Operand -> E unit)) : Prop :=
  exists k, encodes (fst p) k /\ aimplements (mkAE (fst p) [cEn 8] XAny (a_o (snd p)) [mkA PF2 4 (0x40 + k) (Some 0) [rmn_a 8] Os0 NdZU NfNo None I_none]).
Definition cmovcc_apx_ok (p : string * (Reg -> Reg -> Operand -> E unit)) : Prop :=
  exists k, encodes (fst p) k /\ aimplements (mkAE (fst p) [cGv; cGv; cEv] XNo (a_rro (snd p)) [mkA NP 4 (0x40 + k) None [v_; rg_; rm_a] OsV Nd1 NfNo None I_none]).
Definition cfcmovcc_ok (p : string * (Operand -> Operand -> E unit)) : Prop :=
  exists k, encodes (fst p) k /\ aimplements (mkAE (fst p) [cEv; cEv] XNo (a_oo (snd p))
    [mkA NP 4 (0x40 + k) None [rg_; mm_a] OsV Nd0 NfNo None I_none; mkA NP 4 (0x40 + k) None [rm_a; rg_] OsV Nd0 Nf1 None I_none]).
Definition cfcmovcc3_ok (p : string * (Reg -> Reg -> Operand -> E unit)) : Prop :=
  exists k, encodes (fst p) k /\ aimplements (mkAE (fst p) [cGv; cGv; cEv] XNo (a_rro (snd p)) [mkA NP 4 (0x40 + k) None [v_; rg_; rm_a] OsV Nd1 Nf1 None I_none]).
Definition cmpccxadd_ok (p : string * (Address -> Reg -> Reg -> E unit)) : Prop :=
  exists k, encodes (fst p) k /\ aimplements (mkAE (fst p) [cA; cGy; cGy] XRegs (a_mrr (snd p)) [mkA P66 2 (0xE0 + k) None [mm_a; rg_; v_] OsY Nd0 NfNo None I_none]).
Definition ccmpscc_ok (p : string * (Operand -> Operand -> Z -> E unit)) : Prop :=
  exists k, sencodes (fst p) k /\ aimplements (mkAE (fst p) [cE; cE] XNo (a_oof (snd p))
    [mkA NP 4 0x38 None [rm_a; rg_] OsB Nd0 NfNo (Some k) I_none; mkA NP 4 0x3A None [rg_; mm_a] OsB Nd0 NfNo (Some k) I_none]).
Definition ccmpscci_ok (p : string * (Operand -> Z -> Z -> E unit)) : Prop :=
  exists k, sencodes (fst p) k /\ aimplements (mkAE (fst p) [cE] XNo (a_oif (snd p))
    [mkA NP 4 0x80 (Some 7) [rm_a] OsB Nd0 NfNo (Some k) I_z; mkA NP 4 0x83 (Some 7) [rm_a] OsV Nd0 NfNo (Some k) I_8s]).
Definition ctestscc_ok (p : string * (Operand -> Reg -> Z -> E unit)) : Prop :=
  exists k, sencodes (fst p) k /\ aimplements (mkAE (fst p) [cE; cG] XNo (a_orf (snd p)) [mkA NP 4 0x84 None [rm_a; rg_] OsB Nd0 NfNo (Some k) I_none]).
Definition ctestscci_ok (p : string * (Operand -> Z -> Z -> E unit)) : Prop :=
  exists k, sencodes (fst p) k /\ aimplements (mkAE (fst p) [cE] XNo (a_oif (snd p)) [mkA NP 4 0xF6 (Some 0) [rm_a] OsB Nd0 NfNo (Some k) I_z]).

(* ---- proofs ---- *)
Ltac cond_witness :=
  split; [split; [discriminate|reflexivity]|]; eexists; split; [reflexivity|]; intros [[] [] [] [] []]; reflexivity.
Lemma apx_nth i e : nth_error apx_table i = Some e -> aimplements e.
Proof. intros H. exact (proj1 (Forall_forall _ _) apx_table_ok e (nth_error_In _ _ H)). Qed.
