(* ah, ch, dh, bh. *)
From Coq Require Import ZArith List Bool String Lia.
From Verif Require Import Base Types Emit Encode SpecX86 SpecAddr SpecIsa SpecInsn SpecLeg SpecHigh Wf EmitFacts Mnemonic LegGpr LegGpr2 LegGpr3 LegTables LegTables2.
Import ListNotations.
Open Scope Z_scope.

Lemma high_meaning r : bit_ r = 8 -> 4 <= idx_ r < 8 -> byte_meaning r = BHigh (idx_ r - 4).
Proof.
  intros B I. unfold byte_meaning, regno. rewrite Z.mod_small by lia.
  replace (idx_ r <? 32) with true by lia. replace (4 <=? idx_ r) with true by lia. replace (idx_ r <? 8) with true by lia. reflexivity.
Qed.
(* an instruction without ModRM byte has its operands in the opcode *)
Definition row_wf (row : lrow) : bool :=
  l_modrm row || forallb (fun o => match o_at o with InOpc | Implied _ => true | _ => false end) (l_ops row).
Lemma says_high row ops imm bs rest r : row_wf row = true -> lsays row ops imm bs rest -> In (OReg r) ops -> is_high (OReg r) ->
  names_byte (bs ++ rest) (BHigh (idx_ r - 4)).
Proof.
  intros Wf (w & h & reg & rm & opc & tail & D & _ & _ & F & _ & _) Hin [B8 I]. pose proof (high_meaning r B8 I) as M.
  assert (Q : exists o, In o (l_ops row) /\ oper_ok w h reg rm o (OReg r)).
  { clear D Wf. revert Hin. induction F as [|o op lo ops0 Ho F IH]; [contradiction|]. intros [->|Hin].
    - exists o. split; [now left|auto].
    - destruct (IH Hin) as (o' & ? & ?). exists o'. split; [now right|auto]. }
  destruct Q as (o & Ho & _ & _ & P & Bm). specialize (Bm B8). rewrite M in Bm. unfold row_wf in Wf.
  destruct (l_modrm row).
  - destruct D as [(rm' & -> & D) _]. destruct (o_at o) as [| | |n]; [| | |discriminate Bm].
    + left. exists h, reg, rm', (tail ++ rest). split; auto. left. now rewrite P.
    + left. exists h, reg, rm', (tail ++ rest). split; auto. right. inversion P; subst. eauto.
    + right. unfold decode in D. destruct (dec_header (bs ++ rest)) as [[h' r']|] eqn:Hh; [|discriminate].
      destruct (dec_rm _ _ _ _) as [[[? ?] ?]|]; [|discriminate]. inversion D; subst. exists h, r'. split; auto. now rewrite P.
  - destruct D as (D & -> & _). cbn [orb] in Wf. rewrite forallb_forall in Wf. specialize (Wf _ Ho). destruct (o_at o) as [| | |n]; try discriminate.
    right. exists h, (tail ++ rest). split; auto. now rewrite P.
Qed.
Definition entry_wf (e : lentry) : bool := forallb row_wf (le_rows e).
Lemma tables_wf : forallb entry_wf (legacy_table ++ gpr_table) = true.
Proof. vm_compute. reflexivity. Qed.

Lemma high_registers e s ops imm act env pos its rest u r : In e (legacy_table ++ gpr_table) ->
  le_fun e ops imm = Some act -> Forall2 larg_ok (le_sig e) ops -> Forall lbare ops -> high_ok ops ->
  Forall (fun row => imm_in (l_imm row) imm) (le_rows e) -> emits act env pos its u ->
  In (OReg r) ops -> is_high (OReg r) -> names_byte (render s its ++ rest) (BHigh (idx_ r - 4)).
Proof.
  intros He Hf Ha Hb Hh Hi Hm Hin Hr.
  assert (X : limplements e).
  { apply in_app_or in He as [He|He]; [exact (proj1 (Forall_forall _ _) legacy_table_ok _ He)|exact (proj1 (Forall_forall _ _) gpr_table_ok _ He)]. }
  specialize (X s ops imm act env pos its rest u Hf Ha Hb Hh Hi Hm). apply Exists_exists in X as (row & Hrow & X).
  pose proof tables_wf as W. rewrite forallb_forall in W. specialize (W _ He). unfold entry_wf in W. rewrite forallb_forall in W.
  eapply says_high; eauto.
Qed.

(* two byte registers are combined only if no REX prefix is needed: the other one may be any byte register *)
Lemma byte_pair_ok r1 r2 : bit_ r1 = 8 -> bit_ r2 = 8 -> high_ok [OReg r1; OReg r2].
Proof. intros B1 B2 _. apply Forall_cons; [rewrite B1; discriminate|]. apply Forall_cons; [rewrite B2; discriminate|]. apply Forall_nil. Qed.
Lemma byte_one_ok r : bit_ r = 8 -> high_ok [OReg r].
Proof. intros B1 _. apply Forall_cons; [rewrite B1; discriminate|]. apply Forall_nil. Qed.

(* accepted combinations that name another register *)
Definition env0 := mkEnv false 0x1000 false false DefaultEncoding DefaultEncoding.
Definition at_r8 : Operand := OMem (address0 0 false (mkRegExp (Reg64 8) noReg 0 0)).
Definition wrong_forms (r : Reg) : list (E unit) :=
  [mov_oo (OReg r) at_r8; mov_oo at_r8 (OReg r); i_add_oo (OReg r) at_r8; i_add_oo at_r8 (OReg r); i_or__oo (OReg r) at_r8; i_adc_oo (OReg r) at_r8;
   i_sbb_oo (OReg r) at_r8; i_and__oo (OReg r) at_r8; i_sub_oo (OReg r) at_r8; i_xor__oo (OReg r) at_r8; i_cmp_oo (OReg r) at_r8;
   test_ at_r8 r; xchg at_r8 (OReg r); i_xadd at_r8 r; i_cmpxchg at_r8 r;
   i_movzx (Reg64 0) (OReg r); i_movsx (Reg64 0) (OReg r); i_crc32 (Reg64 0) (OReg r)].
Definition high_regs := [Reg8 4; Reg8 5; Reg8 6; Reg8 7].
Definition has_rex (m : E unit) : bool :=
  match m env0 0 with
  | (its, Ok tt) => match dec_header (render (fun _ _ _ => 0) its) with Some (h, _) => h_rex h | None => false end
  | _ => false end.
Lemma rex_no_high bs h t n : dec_header bs = Some (h, t) -> h_rex h = true -> ~ names_byte bs (BHigh n).
Proof.
  intros D X [(h' & reg & rm & t' & D' & Y)|(h' & t' & D' & Y)].
  - unfold decode in D'. rewrite D in D'. destruct (dec_rm _ _ _ _) as [[[? ?] ?]|]; [|discriminate]. inversion D'; subst.
    rewrite X in Y. destruct Y as [Y|(k & v & _ & Y)]; discriminate Y.
  - rewrite D in D'. inversion D'; subst. rewrite X in Y. discriminate Y.
Qed.
Lemma wrong_forms_rex : forallb (fun r => forallb has_rex (wrong_forms r)) high_regs = true.
Proof. vm_compute. reflexivity. Qed.
Lemma high_lost r m n : In r high_regs -> In m (wrong_forms r) ->
  exists its, emits m env0 0 its tt /\ ~ names_byte (render (fun _ _ _ => 0) its) (BHigh n).
Proof.
  intros Hr Hm. pose proof wrong_forms_rex as W. rewrite forallb_forall in W. specialize (W _ Hr). cbv beta in W. rewrite forallb_forall in W. specialize (W _ Hm).
  unfold has_rex in W. destruct (m env0 0) as [its [[]|e]] eqn:J; [|discriminate]. exists its. split; [split; [reflexivity|exact J]|].
  destruct (dec_header _) as [[h t]|] eqn:D; [|discriminate]. eapply rex_no_high; eauto.
Qed.
