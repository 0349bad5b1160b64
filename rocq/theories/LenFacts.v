(* Bounds on the number of bytes the encoder functions emit. *)
From Coq Require Import ZArith List Bool Lia.
From Verif Require Import Base Types Emit EmitFacts LegacyFacts BitFacts VexFacts Encode SpecLen.
Import ListNotations.
Open Scope Z_scope.

Notation L := within.
Lemma L_le {A} n k (m : E A) : k <= n -> L k m -> L n m.
Proof. intros H J env pos its u K. specialize (J _ _ _ _ K). lia. Qed.
Lemma L_bind {A C} n k (m : E A) (f : A -> E C) : L k m -> (forall x, L (n - k) (f x)) -> L n (bind m f).
Proof. intros H1 H2 env pos its u H. ebind H i1 i2 x J1 J2. apply H1 in J1. apply H2 in J2. rewrite items_size_app. lia. Qed.
(* with a fact about the value *)
Definition LV {A} n (P : A -> Prop) (m : E A) : Prop := forall env pos its u, emits m env pos its u -> items_size its <= n /\ P u.
Lemma L_bindv {A C} (P : A -> Prop) n k (m : E A) (f : A -> E C) : LV k P m -> (forall x, P x -> L (n - k) (f x)) -> L n (bind m f).
Proof. intros H1 H2 env pos its u H. ebind H i1 i2 x J1 J2. apply H1 in J1 as [J1 K]. apply (H2 _ K) in J2. rewrite items_size_app. lia. Qed.
Lemma L_fn {A} (d : A) n m : L n m -> L n (fn d m).
Proof. intros H env pos its u J. apply emits_fn in J. eauto. Qed.
Lemma L_ret {A} n (x : A) : 0 <= n -> L n (ret x).
Proof. intros H env pos its u J. apply emits_ret in J as [-> _]. cbn. lia. Qed.
Lemma L_throw {A} n e : L n (@throw A e).
Proof. intros env pos its u J. destruct (emits_throw _ _ _ _ _ J). Qed.
Lemma L_emit n i : item_size i <= n -> L n (emit i).
Proof. intros H env pos its u J. apply emits_emit in J as ->. cbn [items_size]. lia. Qed.
Lemma L_db n b : 1 <= n -> L n (db b).
Proof. intros H. apply L_emit. cbn. lia. Qed.
Lemma L_ask n : 0 <= n -> L n ask.
Proof. intros H env pos its u J. apply emits_ask in J as [-> _]. cbn. lia. Qed.
Lemma L_curr n : 0 <= n -> L n getCurr.
Proof. intros H env pos its u J. apply emits_getCurr in J as [-> _]. cbn. lia. Qed.
Lemma L_dbs n l : Z.of_nat (length l) <= n -> L n (dbs l).
Proof.
  intros H env pos its u J. apply emits_dbs in J as ->. replace (items_size _) with (Z.of_nat (length l)); [exact H|].
  clear. induction l as [|b l IH]; cbn [map items_size item_size length]; lia.
Qed.
Lemma L_dbn n v k : 0 <= n -> k <= n -> L n (dbn v k).
Proof.
  intros Hn H env pos its u J. apply emits_dbn in J as [_ ->]. 
  replace (items_size _) with (Z.of_nat (Z.to_nat k)); [lia|]. rewrite <- (le_bytes_length (w64 v) (Z.to_nat k)) at 1.
  induction (le_bytes _ _) as [|b l IH]; cbn [map items_size item_size length]; lia.
Qed.
Lemma L_assoc {A C D} n (m : E A) (f : A -> E C) (g : C -> E D) : L n (bind m (fun x => bind (f x) g)) -> L n (bind (bind m f) g).
Proof.
  intros H env pos its u J. ebind J i1 i2 x J1 J2. ebind J1 i3 i4 y J3 J4. subst.
  rewrite <- app_assoc. apply (H env pos (i3 ++ i4 ++ i2) u). destruct J3 as [N J3], J4 as [_ J4], J2 as [_ J2]. split; [exact N|]. unfold bind.
  rewrite J3, J4. rewrite items_size_app, Z.add_assoc in J2. rewrite J2. reflexivity.
Qed.
Lemma L_ret' {A} (x : A) : L 0 (ret x). Proof. apply L_ret. lia. Qed.
Lemma L_db' b : L 1 (db b). Proof. apply L_db. lia. Qed.
Lemma L_ask' : L 0 ask. Proof. apply L_ask. lia. Qed.
Lemma L_curr' : L 0 getCurr. Proof. apply L_curr. lia. Qed.
Lemma L_throw' {A} e : L 0 (@throw A e). Proof. apply L_throw. Qed.
Lemma L_dw v : L 2 (dw v). Proof. apply L_dbn; lia. Qed.
Lemma L_dd v : L 4 (dd v). Proof. apply L_dbn; lia. Qed.
Lemma L_dbn8 v : L 8 (dbn v 8). Proof. apply L_dbn; lia. Qed.
Lemma L_setModRM a b c : L 1 (setModRM a b c). Proof. apply L_db'. Qed.
#[global] Hint Resolve L_ret' L_db' L_ask' L_curr' L_throw' L_dw L_dd L_dbn8 L_setModRM : len.

(* the step below: bounds of named functions come from the hint base, branches are explored *)
Ltac len1 := match goal with
  | |- L _ (fn _ _) => apply L_fn
  | |- L _ (throw _) => apply L_throw
  | |- L _ (ret _) => apply L_ret; lia
  | |- L _ (let _ := _ in _) => cbv zeta
  | |- L _ (if ?c then _ else _) => destruct c
  | |- L _ (match ?c with _ => _ end) => destruct c
  | |- L _ (bind (bind _ _) _) => apply L_assoc
  | |- L _ (bind (if ?c then _ else _) _) => destruct c
  | |- L _ (bind (match ?c with _ => _ end) _) => destruct c
  | |- L _ (bind (let _ := _ in _) _) => cbv zeta
  | |- L _ (bind _ _) => eapply L_bind; [solve [eauto with len nocore]|intros]
  | |- L _ _ => eapply L_le; [|solve [eauto with len nocore]]; lia
  end.
Ltac len := repeat len1.

Lemma L_rex2 b x r1 r2 r3 : L 2 (rex2 b x r1 r2 r3).
Proof. unfold rex2. len. Qed.
#[global] Hint Resolve L_rex2 : len.
Lemma L_vex r b p t c x : L 4 (vex r b p t c x).
Proof. unfold vex. len. Qed.
Lemma L_setBit r b : L 0 (setBit r b).
Proof. unfold setBit. len. Qed.
Lemma L_verifySAE r b t : L 0 (verifySAE r b t). Proof. unfold verifySAE. len. Qed.
Lemma L_verifyER r b t : L 0 (verifyER r b t). Proof. unfold verifyER. len. Qed.
Lemma L_verifyDuplicate a b c e : L 0 (verifyDuplicate a b c e). Proof. unfold verifyDuplicate. len. Qed.
Lemma L_VerifyInInt32 x : L 0 (VerifyInInt32 x). Proof. unfold VerifyInInt32. len. Qed.
Lemma L_verifyMemHasSize o : L 0 (verifyMemHasSize o). Proof. unfold verifyMemHasSize. len. Qed.
#[global] Hint Resolve L_vex L_setBit L_verifySAE L_verifyER L_verifyDuplicate L_VerifyInInt32 L_verifyMemHasSize : len.
Lemma L_changeBit r b : L 0 (changeBit r b). Proof. apply L_setBit. Qed.
#[global] Hint Resolve L_changeBit : len.
Lemma L_cvt32 r : L 0 (cvt32 r). Proof. unfold cvt32. len. Qed.
#[global] Hint Resolve L_cvt32 : len.
Lemma L_evex r b p t c i bc aaa vl h : L 5 (evex r b p t c i bc aaa vl h).
Proof. unfold evex. len. Qed.
Lemma L_evexLeg r b x v t sc : L 4 (evexLeg r b x v t sc).
Proof. unfold evexLeg. len. Qed.
Lemma L_setSIB e r d : L 6 (setSIB e r d).
Proof. unfold setSIB. len. Qed.
#[global] Hint Resolve L_evex L_evexLeg L_setSIB : len.
Lemma L_putL l d : L 4 (emit (IPutL l true d)). Proof. apply L_emit. cbn. lia. Qed.
Lemma L_putL8 l d : L 8 (emit (IPutL l false d)). Proof. apply L_emit. cbn. lia. Qed.
#[global] Hint Resolve L_putL L_putL8 : len.
Lemma L_opAddr a r : L 6 (opAddr a r).
Proof. unfold opAddr. len. Qed.
#[global] Hint Resolve L_opAddr : len.

(* a bound that depends on the value *)
Definition W {A} (b : A -> Z) (P : A -> Prop) (m : E A) : Prop := forall env pos its u, emits m env pos its u -> items_size its <= b u /\ P u.
Lemma W_bind {A C} (b : C -> Z) P k (m : E A) (f : A -> E C) : L k m -> (forall x, W (fun u => b u - k) P (f x)) -> W b P (bind m f).
Proof. intros H1 H2 env pos its u H. ebind H i1 i2 x J1 J2. apply H1 in J1. apply H2 in J2 as [J2 K]. rewrite items_size_app. split; [lia|exact K]. Qed.
Lemma W_fn {A} (d : A) b P m : W b P m -> W b P (fn d m).
Proof. intros H env pos its u J. apply emits_fn in J. eauto. Qed.
Lemma W_ret {A} (b : A -> Z) (P : A -> Prop) x : 0 <= b x -> P x -> W b P (ret x).
Proof. intros H H' env pos its u J. apply emits_ret in J as [-> ->]. cbn [items_size]. auto. Qed.
Lemma W_throw {A} b P e : W b P (@throw A e).
Proof. intros env pos its u J. destruct (emits_throw _ _ _ _ _ J). Qed.
Lemma W_assoc {A C D} b P (m : E A) (f : A -> E C) (g : C -> E D) : W b P (bind m (fun x => bind (f x) g)) -> W b P (bind (bind m f) g).
Proof.
  intros H env pos its u J. ebind J i1 i2 x J1 J2. ebind J1 i3 i4 y J3 J4. subst.
  rewrite <- app_assoc. apply (H env pos (i3 ++ i4 ++ i2) u). destruct J3 as [N J3], J4 as [_ J4], J2 as [_ J2]. split; [exact N|]. unfold bind.
  rewrite J3, J4. rewrite items_size_app, Z.add_assoc in J2. rewrite J2. reflexivity.
Qed.
Lemma L_W {A C} (b : A -> Z) P n (m : E A) (f : A -> E C) : W b P m -> (forall x, P x -> L (n - b x) (f x)) -> L n (bind m f).
Proof. intros H1 H2 env pos its u H. ebind H i1 i2 x J1 J2. apply H1 in J1 as [J1 K]. apply (H2 _ K) in J2. rewrite items_size_app. lia. Qed.
Ltac wlen1 := match goal with
  | |- W _ _ (fn _ _) => apply W_fn
  | |- W _ _ (throw _) => apply W_throw
  | |- W _ _ (let _ := _ in _) => cbv zeta
  | |- W _ _ (if ?c then _ else _) => destruct c eqn:?
  | |- W _ _ (match ?c with _ => _ end) => destruct c eqn:?
  | |- W _ _ (bind (bind _ _) _) => apply W_assoc
  | |- W _ _ (bind (if ?c then _ else _) _) => destruct c eqn:?
  | |- W _ _ (bind (match ?c with _ => _ end) _) => destruct c eqn:?
  | |- W _ _ (bind (let _ := _ in _) _) => cbv zeta
  | |- W _ _ (bind _ _) => eapply W_bind; [solve [eauto with len nocore]|intros]
  end.

Definition pfx t := b2z (has t T_F2) + b2z (has t T_F3).
Lemma pfx_range t : 0 <= pfx t <= 2.
Proof. unfold pfx. destruct (has t T_F2), (has t T_F3); cbn; lia. Qed.
Lemma W_rex o1 o2 t : W (fun x : bool => 2 + pfx t + if x then 2 else 1) (fun x => x = true -> has t (T_0F38 ||| T_0F3A) = false) (rex o1 o2 t).
Proof.
  unfold rex. pose proof (pfx_range t). unfold pfx in *.
  repeat (repeat wlen1; try (apply W_ret; [cbn [b2z]; lia|congruence])).
Qed.
Lemma L_rex o1 o2 t : L (4 + pfx t) (rex o1 o2 t).
Proof. intros env pos its u J. apply W_rex in J as [J _]. destruct u; lia. Qed.
Definition head t := pfx t + (if has t T_0F then 5 else if has t (T_0F38 ||| T_0F3A) then 6 else 5).
Lemma head_max t : 0 <= head t <= 8.
Proof. unfold head. pose proof (pfx_range t). destruct (has t T_0F), (has t (T_0F38 ||| T_0F3A)); lia. Qed.
(* what follows the prefixes: an opcode of one byte with REX2 *)
Lemma L_head {A} n o1 o2 t r c (f : bool -> E A) : (forall x, L (n - head t) (f x)) -> L n (x2 <- rex o1 o2 t ;; writeCode t r c x2 ;;; f x2).
Proof.
  intros H. eapply L_W; [apply W_rex|]. intros x Hx. unfold writeCode, head in *. rewrite has_lor in *. apply L_assoc.
  destruct (has t T_APX || x) eqn:EA; cbn [negb].
  { eapply L_bind; [apply L_ret'|intros]. eapply L_bind; [apply L_db'|intros]. eapply L_le; [|apply (H x)].
    destruct x; [rewrite (Hx eq_refl)|]; destruct (has t T_0F), (has t T_0F38 || has t T_0F3A); lia. }
  destruct x; [rewrite orb_true_r in EA; discriminate|].
  destruct (has t T_0F); [eapply L_bind; [apply L_db'|intros]; eapply L_bind; [apply L_db'|intros]; eapply L_le; [|apply H]; lia|].
  destruct (has t T_0F38); [|destruct (has t T_0F3A)]; cbn [orb] in *.
  1, 2: eapply L_assoc; eapply L_bind; [apply L_db'|intros]; eapply L_bind; [apply L_db'|intros]; eapply L_bind; [apply L_db'|intros]; eapply L_le; [|apply H]; lia.
  eapply L_bind; [apply L_ret'|intros]. eapply L_bind; [apply L_db'|intros]. eapply L_le; [|apply H]; lia.
Qed.
Lemma L_writeCode t r c x : L 3 (writeCode t r c x).
Proof. unfold writeCode. len. Qed.
Definition one_byte t := has t T_APX || negb (has t T_0F || has t T_0F38 || has t T_0F3A).
Lemma L_writeCode_apx t r c x : one_byte t = true -> L 1 (writeCode t r c x).
Proof.
  intros H. unfold writeCode, one_byte in *. destruct (has t T_APX); cbn [orb negb] in *; [len|].
  destruct (has t T_0F), (has t T_0F38), (has t T_0F3A); try discriminate. destruct x; len.
Qed.
Lemma one_byte_apx t : has t T_APX = true -> one_byte t = true.
Proof. intros H. unfold one_byte. now rewrite H. Qed.
Lemma L_rex' o1 o2 t : L 6 (rex o1 o2 t).
Proof. eapply L_le; [|apply L_rex]. pose proof (pfx_range t). lia. Qed.
Lemma L_rex0 o1 o2 : L 4 (rex o1 o2 0).
Proof. apply (L_rex o1 o2 0). Qed.

Ltac opcode := match goal with
  | |- L _ (bind (rex _ _ ?t) (fun x2 => bind (writeCode ?t _ _ x2) _)) => apply L_head; intros
  | |- L _ (bind (writeCode _ _ _ _) _) => eapply L_bind; [first [apply L_writeCode_apx; solve [assumption | reflexivity] | apply L_writeCode]|intros]
  end.
Ltac lens := repeat (first [opcode | len1]).
Lemma L_opRR r1 r2 t c : L (head t + 1) (opRR r1 r2 t c).
Proof. unfold opRR. lens. Qed.
(* nothing has been emitted when the APX form was not used *)
Definition undone k (m : E bool) : Prop := W (fun x : bool => if x then k else 0) (fun _ => True) m.
Lemma L_undone {A} n k (m : E bool) (f : bool -> E A) : undone k m -> L (n - k) (f true) -> L n (f false) -> L n (bind m f).
Proof. intros H H1 H2. eapply L_W; [exact H|]. intros [] _; [exact H1|]. now rewrite Z.sub_0_r. Qed.
Lemma L_undone_any {A} n k (m : E bool) (f : bool -> E A) : 0 <= k -> undone k m -> (forall x, L (n - k) (f x)) -> L n (bind m f).
Proof. intros Hk H H1. eapply L_undone; eauto. eapply L_le; [|apply H1]. lia. Qed.
Lemma undone_false k : undone k (ret false).
Proof. apply W_ret; [reflexivity|trivial]. Qed.
Lemma undone_le k k' m : k' <= k -> undone k' m -> undone k m.
Proof. intros Hk H env pos its u J. apply H in J as [J _]. split; auto. destruct u; lia. Qed.
Ltac opc := match goal with |- W _ _ (bind (writeCode _ _ _ _) _) => eapply W_bind; [first [apply L_writeCode_apx; solve [assumption | reflexivity] | apply L_writeCode]|intros] end.
Lemma U_opROO d o1 o2 t c i sc : undone 13 (opROO d o1 o2 t c i sc).
Proof. unfold undone, opROO. repeat (first [opc|wlen1|apply W_ret; [cbn; lia|exact I]]). Qed.
Lemma U_opROO_apx d o1 o2 t c i sc : one_byte t = true -> undone 11 (opROO d o1 o2 t c i sc).
Proof. intros H. unfold undone, opROO. repeat (first [opc|wlen1|apply W_ret; [cbn; lia|exact I]]). Qed.
Lemma L_opRR' r1 r2 t c : L 9 (opRR r1 r2 t c).
Proof. eapply L_le; [|apply L_opRR]. pose proof (head_max t). lia. Qed.
Lemma L_opMR_t a r t c : L (head t + 6) (opMR a r t c 0 NONE).
Proof. unfold opMR. change (negb (0 =? 0)) with false. cbv iota. pose proof (head_max t). lens. Qed.
Lemma L_opMR0 a r c : L 11 (opMR a r 0 c 0 NONE).
Proof. exact (L_opMR_t a r 0 c). Qed.
Lemma L_opMR a r t c t2 c2 : L 14 (opMR a r t c t2 c2).
Proof.
  unfold opMR. apply L_fn. cbv zeta. pose proof (head_max t).
  apply (L_undone _ 13); [destruct (negb _); [apply U_opROO|apply undone_false]|lens|lens].
Qed.
#[global] Hint Resolve L_opRR' L_opMR | 5 : len.
#[global] Hint Resolve L_opMR0 L_rex0 | 0 : len.
#[global] Hint Resolve L_rex' | 5 : len.
Ltac ll := repeat first [opcode | len1].

Lemma L_opRext0 o b e c dr i d : L 11 (opRext o b e 0 c dr i d).
Proof.
  unfold opRext. change (has 0 T_APX) with false. cbn [andb]. ll.
Qed.
Lemma L_opRext o b e t c dr i d : L 14 (opRext o b e t c dr i d).
Proof.
  unfold opRext. apply L_fn. cbv zeta.
  apply (L_undone _ 11); [|ll|ll]. destruct (has t T_APX) eqn:HA; cbn [andb]; [|apply undone_false].
  destruct (_ || _); [|apply undone_false]. now apply U_opROO_apx, one_byte_apx.
Qed.
#[global] Hint Resolve L_opRext0 | 0 : len.
#[global] Hint Resolve L_opRext | 5 : len.
Lemma L_opRO0 r o c cnd i : L 11 (opRO r o 0 c cnd i).
Proof. unfold opRO. ll. Qed.
Lemma L_opRO r o t c cnd i : L 14 (opRO r o t c cnd i).
Proof. unfold opRO. ll. Qed.
#[global] Hint Resolve L_opRO0 | 0 : len.
#[global] Hint Resolve L_opRO | 5 : len.
Lemma L_opSSE r o t c v i : L 15 (opSSE r o t c v i).
Proof. unfold opSSE. ll. Qed.
#[global] Hint Resolve L_opSSE : len.
Lemma L_opMMX r o c t p i : L 15 (opMMX r o c t p i).
Proof. apply L_opSSE. Qed.
Lemma L_opMMX_IMM r i c e : L 15 (opMMX_IMM r i c e).
Proof. unfold opMMX_IMM. ll. Qed.
Lemma L_opMovXMM o1 o2 t c : L 15 (opMovXMM o1 o2 t c).
Proof. unfold opMovXMM. ll. Qed.
Lemma L_opExt o r c i h : L 15 (opExt o r c i h).
Proof. unfold opExt. ll. Qed.
Lemma L_opLoadSeg a r t c : L 15 (opLoadSeg a r t c).
Proof. unfold opLoadSeg. ll. Qed.
Lemma L_opMIB a r t c : L 14 (opMIB a r t c).
Proof. unfold opMIB. ll. Qed.
Lemma L_opJmpOp o t e : L 11 (opJmpOp o t e).
Proof. unfold opJmpOp. ll. Qed.
Lemma L_opShift o i e d : L 15 (opShift o i e d).
Proof. unfold opShift. ll. Qed.
Lemma L_opShiftCL o c e d : L 14 (opShiftCL o c e d).
Proof. unfold opShiftCL. ll. Qed.
#[global] Hint Resolve L_opMMX L_opMMX_IMM L_opMovXMM L_opExt L_opLoadSeg L_opMIB L_opJmpOp L_opShift L_opShiftCL : len.
Lemma L_opSetCC o e : L 15 (opSetCC o e).
Proof. unfold opSetCC. apply (L_undone _ 11); [now apply U_opROO_apx|ll|ll]. Qed.
Lemma shxd_apx d : has (T_APX ||| T_NF ||| (if isREG d then T_ND1 else 0)) T_APX = true.
Proof. now destruct (isREG d). Qed.
Lemma L_opShxd d o r i c c2 cl : L 15 (opShxd d o r i c c2 cl).
Proof.
  unfold opShxd. apply L_fn. destruct (match cl with Some _ => _ | _ => _ end); [apply L_throw|]. destruct (negb _); [apply L_throw|]. cbv zeta.
  apply (L_undone _ 11); [apply U_opROO_apx, one_byte_apx, shxd_apx|cbn [negb]; ll|cbn [negb]; ll].
Qed.
Lemma L_opRO_MR o1 o2 c : L 11 (opRO_MR o1 o2 c).
Proof. unfold opRO_MR. ll. Qed.
#[global] Hint Resolve L_opSetCC L_opShxd L_opRO_MR : len.
Lemma W_getImmBit o i : W (fun _ => 0) (fun b => b <= 32) (getImmBit o i).
Proof.
  unfold getImmBit. repeat wlen1. all: apply W_ret; [lia|].
  all: repeat match goal with |- context [if ?c then _ else _] => destruct c end; lia.
Qed.
Lemma imm_bytes b : b <= 32 -> b / 8 <= 4.
Proof. intros H. apply Z.div_le_upper_bound; lia. Qed.
Ltac imm := apply L_dbn; [lia|]; match goal with |- _ / 8 <= _ => etransitivity; [apply imm_bytes; eassumption || lia|lia] | _ => lia end.
Lemma L_opOI o i c e : L 15 (opOI o i c e).
Proof. unfold opOI. cbv zeta. eapply L_W; [apply W_getImmBit|]. intros b Hb. cbv beta in Hb. destruct (_ && _); ll; imm. Qed.
Lemma L_opROI d o i t e : one_byte t = true -> L 15 (opROI d o i t e).
Proof.
  intros HA. unfold opROI. cbv zeta. eapply L_W; [apply W_getImmBit|]. intros b Hb.
  apply (L_undone_any _ 11); [lia|now apply U_opROO_apx|]. intros. imm.
Qed.
Lemma L_opROO_apx d o1 o2 t c i sc : one_byte t = true -> L 11 (opROO d o1 o2 t c i sc).
Proof. intros H env pos its u J. apply (U_opROO_apx _ _ _ _ _ _ _ H) in J as [J _]. destruct u; lia. Qed.
Lemma L_opROO d o1 o2 t c i sc : L 13 (opROO d o1 o2 t c i sc).
Proof. intros env pos its u J. apply U_opROO in J as [J _]. destruct u; lia. Qed.
#[global] Hint Extern 0 (L _ (opROO _ _ _ _ _ _ _)) => apply L_opROO_apx; reflexivity : len.
#[global] Hint Extern 0 (L _ (opROI _ _ _ _ _)) => apply L_opROI; reflexivity : len.
#[global] Hint Resolve L_opROO | 5 : len.
#[global] Hint Resolve L_opOI : len.
Lemma L_opIncDec d o e : L 13 (opIncDec d o e).
Proof. unfold opIncDec. ll. Qed.
Lemma L_opPushPop o c e a : L 15 (opPushPop o c e a).
Proof. unfold opPushPop. ll. Qed.
Lemma W_retbind {A C} b P (x : A) (f : A -> E C) : W b P (f x) -> W b P (bind (ret x) f).
Proof. intros H env pos its u J. ebind J i1 i2 y J1 J2. apply emits_ret in J1 as [-> ->]. cbn [items_size app] in *. rewrite Z.add_0_r in J2. eauto. Qed.
Lemma W_mov_imm r i : isREG r = true -> getBit r <= 64 -> W (fun _ => 6) (fun b => b <= 8) (mov_imm r i).
Proof.
  intros _ Hb. unfold mov_imm. repeat (first [apply W_retbind|wlen1]; cbv beta iota). all: apply W_ret; [lia|]. all: apply Z.div_le_upper_bound; lia.
Qed.
#[global] Hint Resolve L_opIncDec L_opPushPop : len.
Lemma L_opMovxx r o c : L 14 (opMovxx r o c).
Proof. unfold opMovxx. ll. Qed.
Lemma L_opFpuMem a b c d e f : L 11 (opFpuMem a b c d e f).
Proof. unfold opFpuMem. ll. Qed.
Lemma L_opFpuFpu a b c d : L 2 (opFpuFpu a b c d).
Proof. unfold opFpuFpu. ll. Qed.
Lemma L_opFpu a b c : L 2 (opFpu a b c).
Proof. unfold opFpu. ll. Qed.
Lemma L_opVex r p o t c i : L 13 (opVex r p o t c i).
Proof. unfold opVex. apply L_fn. destruct o; ll. Qed.
#[global] Hint Resolve L_opMovxx L_opFpuMem L_opFpuFpu L_opFpu L_opVex : len.
Lemma L_opRRO d r o t c i : L 15 (opRRO d r o t c i). Proof. unfold opRRO. ll. Qed.
Lemma L_opAVX_X_X_XM x o1 o2 t c i : L 13 (opAVX_X_X_XM x o1 o2 t c i). Proof. unfold opAVX_X_X_XM. ll. Qed.
Lemma L_opAVX_K_X_XM k x o t c i : L 13 (opAVX_K_X_XM k x o t c i). Proof. unfold opAVX_K_X_XM. ll. Qed.
Lemma L_checkCvt1 x o : L 0 (checkCvt1 x o). Proof. unfold checkCvt1. ll. Qed.
Lemma L_checkCvt2 x o : L 0 (checkCvt2 x o). Proof. unfold checkCvt2. ll. Qed.
Lemma L_checkCvt4 x o : L 0 (checkCvt4 x o). Proof. unfold checkCvt4. ll. Qed.
Lemma L_opCvt x o t c : L 13 (opCvt x o t c). Proof. unfold opCvt. ll. Qed.
#[global] Hint Resolve L_opRRO L_opAVX_X_X_XM L_opAVX_K_X_XM L_checkCvt1 L_checkCvt2 L_checkCvt4 L_opCvt : len.
Lemma L_opCvt2 x o t c : L 13 (opCvt2 x o t c). Proof. unfold opCvt2. ll. Qed.
Lemma L_opCvt3 x1 x2 o t a b c : L 13 (opCvt3 x1 x2 o t a b c). Proof. unfold opCvt3. ll. Qed.
Lemma L_opCvt5 x o t c : L 13 (opCvt5 x o t c). Proof. unfold opCvt5. ll. Qed.
Lemma L_opCvt6 x y o t c : L 13 (opCvt6 x y o t c). Proof. unfold opCvt6. ll. Qed.
Lemma L_opAVX_X_XM_IMM x o t c i : L 13 (opAVX_X_XM_IMM x o t c i). Proof. unfold opAVX_X_XM_IMM. ll. Qed.
Lemma L_opCnt r o c : L 14 (opCnt r o c). Proof. unfold opCnt. ll. Qed.
Lemma L_opGather x a y t c m : L 13 (opGather x a y t c m). Proof. unfold opGather. ll. Qed.
Lemma L_checkGather2 x y m : L 0 (checkGather2 x y m). Proof. unfold checkGather2. ll. Qed.
#[global] Hint Resolve L_checkGather2 : len.
Lemma L_opGather2 x a t c m : L 13 (opGather2 x a t c m). Proof. unfold opGather2. ll. Qed.
Lemma L_opVmov o x t c m : L 13 (opVmov o x t c m). Proof. unfold opVmov. ll. Qed.
Lemma L_opGatherFetch a x t c k : L 13 (opGatherFetch a x t c k). Proof. unfold opGatherFetch. ll. Qed.
Lemma L_getEncoding e s : L 0 (getEncoding e s). Proof. unfold getEncoding. ll. Qed.
#[global] Hint Resolve L_getEncoding L_opCvt2 L_opCvt3 L_opCvt5 L_opCvt6 L_opAVX_X_XM_IMM L_opCnt L_opGather L_opGather2 L_opVmov L_opGatherFetch : len.
Lemma L_orEvexIf e a b s : L 0 (orEvexIf e a b s). Proof. unfold orEvexIf. ll. Qed.
#[global] Hint Resolve L_orEvexIf : len.
Lemma L_opEncoding x y o t c e i a b s : L 13 (opEncoding x y o t c e i a b s). Proof. unfold opEncoding. ll. Qed.
Lemma L_opInOut a d c : L 2 (opInOut a d c). Proof. unfold opInOut. ll. Qed.
Lemma L_opInOutImm a d c : L 3 (opInOutImm a d c). Proof. unfold opInOutImm. ll. Qed.
Lemma L_opCcmp o1 o2 d c s : L 13 (opCcmp o1 o2 d c s). Proof. unfold opCcmp. ll. Qed.
Lemma L_opCcmpi o i d s : L 15 (opCcmpi o i d s).
Proof.
  unfold opCcmpi. apply L_fn. destruct (_ || _); [apply L_throw|]. eapply L_W; [apply W_getImmBit|]. intros b Hb. cbv zeta. cbv beta in Hb.
  apply (L_undone_any _ 11); [lia|now apply U_opROO_apx|]. intros. imm.
Qed.
Lemma L_opTesti o i d s : L 15 (opTesti o i d s).
Proof.
  unfold opTesti. apply L_fn. destruct (_ || _); [apply L_throw|]. cbv zeta. destruct (_ =? 0); [apply L_throw|].
  apply (L_undone_any _ 11); [lia|now apply U_opROO_apx|]. intros. imm.
Qed.
Lemma L_opCfcmov d o1 o2 c : L 13 (opCfcmov d o1 o2 c). Proof. unfold opCfcmov. ll. Qed.
Lemma L_opAMX t a ty c : L 15 (opAMX t a ty c).
Proof.
  unfold opAMX. apply L_fn. cbv zeta. destruct (_ || _); [apply L_throw|].
  apply (L_undone _ 13); [apply U_opROO|ll|ll].
Qed.
Lemma L_opKmov k o r s : L 15 (opKmov k o r s).
Proof.
  unfold opKmov. apply L_fn. cbv zeta. destruct (_ =? 0); [apply L_throw|]. destruct (if _ =? 0x93 then _ else _).
  apply (L_undone _ 13); [apply U_opROO|ll|ll].
Qed.
Lemma L_opEncodeKey a b c d : L 13 (opEncodeKey a b c d). Proof. unfold opEncodeKey. ll. Qed.
Lemma L_opSSE_APX x o t c t2 c2 i : L 15 (opSSE_APX x o t c t2 c2 i).
Proof. unfold opSSE_APX. apply (L_undone _ 13); [destruct (_ && _); [apply U_opROO|apply undone_false]|ll|ll]. Qed.
Lemma L_opAVX10ZeroExt o1 o2 a b e i : L 13 (opAVX10ZeroExt o1 o2 a b e i). Proof. unfold opAVX10ZeroExt. ll. Qed.
#[global] Hint Resolve L_opEncoding L_opInOut L_opInOutImm L_opCcmp L_opCcmpi L_opTesti L_opCfcmov L_opAMX L_opKmov L_opEncodeKey L_opSSE_APX L_opAVX10ZeroExt : len.

(* the methods of xbyak.h *)
Lemma L_test_imm o i : L 15 (test_imm o i).
Proof. unfold test_imm. cbv zeta. apply (L_bind _ 0); [auto with len|]. intros. destruct (_ && _); ll; imm. Qed.
Lemma L_imul_imm r o i : L 15 (imul_imm r o i).
Proof.
  unfold imul_imm. cbv zeta. apply (L_undone _ 11); [now apply U_opROO_apx| |]; cbn [negb].
  all: ll; apply L_dbn; [lia|]; repeat match goal with |- context [if ?c then _ else _] => destruct c end; lia.
Qed.
Lemma L_push_af a i : L 5 (push_af a i). Proof. unfold push_af. ll. Qed.
#[global] Hint Resolve L_push_af : len.
Lemma L_push_imm i : L 5 (push_imm i). Proof. unfold push_imm. ll. Qed.
Lemma L_mov_oo o1 o2 : L 15 (mov_oo o1 o2). Proof. unfold mov_oo. ll. Qed.
Lemma L_mov_oi o i : narrow o -> L 15 (mov_oi o i).
Proof.
  intros Hn. unfold mov_oi. apply L_fn. cbv zeta. destruct o as [r|a].
  - destruct (isREG r) eqn:HR; [|apply L_throw]. eapply L_W; [apply W_mov_imm; auto; now apply Hn|]. intros b Hb. cbv beta in Hb. apply L_dbn; lia.
  - ll. apply L_dbn; [lia|]. match goal with |- context [?x <=? 4] => destruct (x <=? 4) eqn:? end; lia.
Qed.
Lemma L_mov_label r l : narrow (OReg r) -> L 15 (mov_label r l).
Proof. intros Hn. unfold mov_label, mov_imm. ll. Qed.
Lemma L_xchg o1 o2 : L 15 (xchg o1 o2). Proof. unfold xchg. ll. Qed.
Lemma L_bswap r : L 15 (bswap r). Proof. unfold bswap. ll. Qed.
Lemma L_mov_o_seg o s : L 15 (mov_o_seg o s). Proof. unfold mov_o_seg. ll. Qed.
Lemma L_mov_seg_o o s : L 15 (mov_seg_o s o). Proof. unfold mov_seg_o. ll. Qed.
#[global] Hint Resolve L_test_imm L_imul_imm L_push_imm L_mov_oo L_mov_oi L_mov_label L_xchg L_bswap L_mov_o_seg L_mov_seg_o : len.
Ltac apx := match goal with
  | |- L _ (bind (opROO _ _ _ _ _ _ _) _) =>
      eapply L_undone; [first [apply U_opROO_apx; reflexivity | apply U_opROO]|cbv beta; cbn [negb]; cbv iota|cbv beta; cbn [negb]; cbv iota]
  end.
Ltac row_len := repeat first [apx | opcode | len1].
Lemma L_opSSE_none r o t c v : L 14 (opSSE r o t c v NONE).
Proof. unfold opSSE. change (negb (NONE =? NONE)) with false. cbv iota. ll. Qed.
#[global] Hint Resolve L_opSSE_none | 0 : len.
Lemma L_dq v : L 8 (dq v). Proof. apply L_dbn; lia. Qed.
#[global] Hint Resolve L_dq : len.
