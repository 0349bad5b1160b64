(* Instruction calls that emit bytes only: no label fields.  Label fields come from rip-relative memory operands and
   mov(reg, label) alone. *)
From Coq Require Import ZArith List Bool Lia.
From Verif Require Import Base Types Emit EmitFacts LegacyFacts Encode Mnemonic Wf CondTables ExecProofs ExecMore.
Import ListNotations.
Open Scope Z_scope.

Definition is_byte (i : item) : Prop := match i with IDb b => w8 b = b | _ => False end.
Definition NP {A} (m : E A) : Prop := forall env pos its u, emits m env pos its u -> Forall is_byte its.
Definition modrm (a : Address) : Prop := a_mode a = M_ModRM.
Definition omodrm (o : Operand) : Prop := match o with OReg _ => True | OMem a => modrm a end.

Lemma NP_bind {A C} (m : E A) (f : A -> E C) : NP m -> (forall x, NP (f x)) -> NP (bind m f).
Proof. intros H1 H2 env pos its u H. ebind H i1 i2 x J1 J2. apply H1 in J1. apply H2 in J2. now apply Forall_app. Qed.
Lemma NP_fn {A} (d : A) m : NP m -> NP (fn d m).
Proof. intros H env pos its u J. apply emits_fn in J. eauto. Qed.
Lemma NP_ret {A} (x : A) : NP (ret x).
Proof. intros env pos its u J. apply emits_ret in J as [-> _]. constructor. Qed.
Lemma NP_throw {A} e : NP (@throw A e).
Proof. intros env pos its u J. destruct (emits_throw _ _ _ _ _ J). Qed.
Lemma w8_w8 x : w8 (w8 x) = w8 x.
Proof. unfold w8. apply Z.mod_mod. lia. Qed.
Lemma NP_db b : NP (db b).
Proof. intros env pos its u J. apply emits_emit in J as ->. constructor; [apply w8_w8|constructor]. Qed.
Lemma NP_ask : NP ask.
Proof. intros env pos its u J. apply emits_ask in J as [-> _]. constructor. Qed.
Lemma NP_curr : NP getCurr.
Proof. intros env pos its u J. apply emits_getCurr in J as [-> _]. constructor. Qed.
Lemma bytes_only l : Forall is_byte (map (fun b : Z => IDb (w8 b)) l).
Proof. induction l; constructor; auto. apply w8_w8. Qed.
Lemma NP_dbs l : NP (dbs l).
Proof. intros env pos its u J. apply emits_dbs in J as ->. apply bytes_only. Qed.
Lemma NP_dbn v n : NP (dbn v n).
Proof. intros env pos its u J. apply emits_dbn in J as [_ ->]. apply bytes_only. Qed.
Lemma NP_dw v : NP (dw v). Proof. apply NP_dbn. Qed.
Lemma NP_dd v : NP (dd v). Proof. apply NP_dbn. Qed.
Lemma NP_dq v : NP (dq v). Proof. apply NP_dbn. Qed.
Lemma NP_setModRM a b c : NP (setModRM a b c). Proof. apply NP_db. Qed.
Create HintDb np.
#[global] Hint Resolve NP_ret NP_throw NP_db NP_ask NP_curr NP_dbs NP_dbn NP_dw NP_dd NP_dq NP_setModRM : np.

Ltac side := solve [assumption | exact Logic.I | reflexivity | (cbv [modrm omodrm set_immSize a_mode] in *; assumption)].
Ltac np1 := match goal with
  | |- NP (fn _ _) => apply NP_fn
  | |- NP (let _ := _ in _) => cbv zeta
  | |- NP (if ?c then _ else _) => destruct c
  | |- NP (match (if ?c then _ else _) with _ => _ end) => destruct c
  | |- NP (match ?c with _ => _ end) => destruct c eqn:?
  | |- NP (bind _ _) => apply NP_bind; [|intros]
  | |- NP _ => solve [eauto with np nocore | eauto with np]
  end.
Ltac np := repeat np1.
Lemma NP_rex2 b x r1 r2 r3 : NP (rex2 b x r1 r2 r3). Proof. unfold rex2. np. Qed.
Lemma NP_setBit r b : NP (setBit r b). Proof. unfold setBit. np. Qed.
Lemma NP_VerifyInInt32 x : NP (VerifyInInt32 x). Proof. unfold VerifyInInt32. np. Qed.
Lemma NP_verifyMemHasSize o : NP (verifyMemHasSize o). Proof. unfold verifyMemHasSize. np. Qed.
#[global] Hint Resolve NP_rex2 NP_setBit NP_VerifyInInt32 NP_verifyMemHasSize : np.
Lemma NP_changeBit r b : NP (changeBit r b). Proof. apply NP_setBit. Qed.
Lemma NP_evexLeg r b x v t sc : NP (evexLeg r b x v t sc). Proof. unfold evexLeg. np. Qed.
Lemma NP_setSIB e r d : NP (setSIB e r d). Proof. unfold setSIB. np. Qed.
Lemma NP_rex o1 o2 t : NP (rex o1 o2 t). Proof. unfold rex. np. Qed.
Lemma NP_writeCode t r c x : NP (writeCode t r c x). Proof. unfold writeCode. np. Qed.
#[global] Hint Resolve NP_changeBit NP_evexLeg NP_setSIB NP_rex NP_writeCode : np.
Lemma NP_opAddr a r : modrm a -> NP (opAddr a r).
Proof. intros H. unfold opAddr, modrm in *. rewrite H. np. Qed.
Lemma modrm_imm a i : modrm a -> modrm (set_immSize a i). Proof. exact (fun H => H). Qed.
#[global] Hint Resolve NP_opAddr modrm_imm : np.
Lemma NP_opRR r1 r2 t c : NP (opRR r1 r2 t c). Proof. unfold opRR. np. Qed.
#[global] Hint Resolve NP_opRR : np.
Lemma NP_opROO d o1 o2 t c i sc : omodrm o1 -> omodrm o2 -> NP (opROO d o1 o2 t c i sc).
Proof.
  intros H1 H2. unfold opROO. apply NP_fn. destruct (_ && _); [np|].
  destruct o1 as [r1|a1], o2 as [r2|a2]; cbn [isMEM]; repeat match goal with |- context [isMEM ?o] => destruct (isMEM o) end; cbn [omodrm] in *; np.
Qed.
#[global] Hint Resolve NP_opROO : np.
#[global] Hint Extern 1 (omodrm (OReg _)) => exact Logic.I : np.
#[global] Hint Extern 1 (omodrm (OMem _)) => assumption : np.
Lemma NP_opMR a r t c t2 c2 : modrm a -> NP (opMR a r t c t2 c2).
Proof. intros H. unfold opMR. np. Qed.
#[global] Hint Resolve NP_opMR : np.
Lemma NP_opRO r o t c b i : omodrm o -> NP (opRO r o t c b i).
Proof. intros H. unfold opRO. apply NP_fn. destruct o; cbn [omodrm] in *; np. Qed.
Lemma NP_opRext o b e t c dr i d : omodrm o -> NP (opRext o b e t c dr i d).
Proof. intros H. unfold opRext. apply NP_fn. cbv zeta. apply NP_bind; [np|]. intros []; [np|]. destruct o; cbn [omodrm] in *; np. Qed.
#[global] Hint Resolve NP_opRO NP_opRext : np.
Lemma NP_opRO_MR o1 o2 c : omodrm o1 -> omodrm o2 -> NP (opRO_MR o1 o2 c).
Proof. intros H1 H2. unfold opRO_MR. apply NP_fn. destruct o2; cbn [omodrm] in *; np. Qed.
Lemma NP_getImmBit o i : NP (getImmBit o i). Proof. unfold getImmBit. np. Qed.
#[global] Hint Resolve NP_opRO_MR NP_getImmBit : np.
Lemma NP_opOI o i c e : omodrm o -> NP (opOI o i c e). Proof. intros H. unfold opOI. np. Qed.
Lemma NP_opIncDec d o e : omodrm o -> NP (opIncDec d o e). Proof. intros H. unfold opIncDec. np. Qed.
Lemma NP_opPushPop o c e a : omodrm o -> NP (opPushPop o c e a).
Proof. intros H. unfold opPushPop. np. Qed.
Lemma NP_mov_imm r i : NP (mov_imm r i). Proof. unfold mov_imm. np. Qed.
Lemma NP_opShift o i e d : omodrm o -> NP (opShift o i e d). Proof. intros H. unfold opShift. np. Qed.
Lemma NP_opShiftCL o r e d : omodrm o -> NP (opShiftCL o r e d). Proof. intros H. unfold opShiftCL. np. Qed.
Lemma NP_opSetCC o e : omodrm o -> NP (opSetCC o e). Proof. intros H. unfold opSetCC. np. Qed.
Lemma NP_opMovxx r o c : omodrm o -> NP (opMovxx r o c). Proof. intros H. unfold opMovxx. np. Qed.
#[global] Hint Resolve NP_opOI NP_opIncDec NP_opPushPop NP_mov_imm NP_opShift NP_opShiftCL NP_opSetCC NP_opMovxx : np.
Lemma NP_mov_oo o1 o2 : omodrm o1 -> omodrm o2 -> NP (mov_oo o1 o2).
Proof. intros H1 H2. unfold mov_oo. np. Qed.
Lemma NP_mov_oi o i : omodrm o -> NP (mov_oi o i).
Proof. intros H. unfold mov_oi. apply NP_fn. cbv zeta. destruct o; cbn [omodrm] in *; np. Qed.
Lemma NP_test_imm o i : omodrm o -> NP (test_imm o i). Proof. intros H. unfold test_imm. np. Qed.
Lemma NP_imul_imm r o i : omodrm o -> NP (imul_imm r o i). Proof. intros H. unfold imul_imm. np. Qed.
Lemma NP_xchg o1 o2 : omodrm o1 -> omodrm o2 -> NP (xchg o1 o2).
Proof. intros H1 H2. unfold xchg. np. Qed.
Lemma NP_bswap r : NP (bswap r). Proof. unfold bswap. np. Qed.
Lemma NP_push_af a i : NP (push_af a i). Proof. unfold push_af. np. Qed.
#[global] Hint Resolve NP_push_af : np.
Lemma NP_push_imm i : NP (push_imm i). Proof. unfold push_imm. np. Qed.
