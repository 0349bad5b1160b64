(* Operand modifiers and rip expressions (C47), conversions of vector registers (C34). *)
From Coq Require Import ZArith List Bool Lia Permutation.
From Verif Require Import Base Types Emit SpecX86 SpecAddr Wf SpecReg RegFacts SpecMods.
Import ListNotations.
Open Scope Z_scope.

Lemma kidx k : 0 <= k <= 7 -> getIdx (Opmask k) mod 8 = k.
Proof.
  intros H. assert (X : k = 0 \/ k = 1 \/ k = 2 \/ k = 3 \/ k = 4 \/ k = 5 \/ k = 6 \/ k = 7) by lia.
  destruct X as [->|[->|[->|[->|[->|[->|[->| ->]]]]]]]; reflexivity.
Qed.
Lemma ret_bind {A B} (a : A) (f : A -> E B) env pos : bind (ret a) f env pos = f a env pos.
Proof. unfold bind, ret. cbn [items_size]. rewrite Z.add_0_r. destruct (f a env pos). reflexivity. Qed.
Lemma bind_returns {A B} (m : E A) (f : A -> E B) env pos a : returns m env pos a -> bind m f env pos = f a env pos.
Proof. unfold returns, bind. intros ->. cbn [items_size app]. rewrite Z.add_0_r. destruct (f a env pos). reflexivity. Qed.
Lemma bind_fails {A B} (m : E A) (f : A -> E B) env pos e : fails m env pos e -> fails (bind m f) env pos e.
Proof. unfold fails, bind. intros ->. reflexivity. Qed.

Lemma orOpmask_ok r k env pos : mask_ r = 0 -> 0 <= k <= 7 -> exists q, returns (orOpmask r (Opmask k)) env pos q
  /\ q = mkReg (idx_ r) (kind_ r) (bit_ r) (zero_ r) k (rounding_ r) (NF_ r) (ZU_ r).
Proof.
  intros M K. eexists. split; [|reflexivity]. unfold returns, orOpmask, fn. rewrite M. cbn [Z.eqb negb ret].
  unfold set_mask. rewrite kidx by exact K. reflexivity.
Qed.
Lemma orOpmask_bad r k env pos : mask_ r <> 0 -> env_noexc env = false -> fails (orOpmask r k) env pos ERR_OPMASK_IS_ALREADY_SET.
Proof. intros M N. unfold fails, orOpmask, fn. apply Z.eqb_neq in M. rewrite M. cbn [negb throw]. rewrite N. reflexivity. Qed.
Lemma orRounding_ok r k env pos : rounding_ r = 0 -> 0 <= k <= 5 -> exists q, returns (orRounding r k) env pos q
  /\ q = mkReg (idx_ r) (kind_ r) (bit_ r) (zero_ r) (mask_ r) k (NF_ r) (ZU_ r).
Proof.
  intros M K. eexists. split; [|reflexivity]. unfold returns, orRounding, fn. rewrite M. cbn [Z.eqb negb ret].
  unfold set_rounding. rewrite Z.mod_small by lia. reflexivity.
Qed.
Lemma orRounding_bad r k env pos : rounding_ r <> 0 -> env_noexc env = false -> fails (orRounding r k) env pos ERR_ROUNDING_IS_ALREADY_SET.
Proof. intros M N. unfold fails, orRounding, fn. apply Z.eqb_neq in M. rewrite M. cbn [negb throw]. rewrite N. reflexivity. Qed.

Definition room (v : Z) (l : list Z) : Prop := if v =? 0 then (length l <= 1)%nat else l = [].
Lemma decorate_gen l : forall r env pos, Forall modifier_ok l -> room (mask_ r) (masks l) -> room (rounding_ r) (rounds l) ->
  exists q, returns (decorate r l) env pos q
  /\ idx_ q = idx_ r /\ kind_ q = kind_ r /\ bit_ q = bit_ r
  /\ mask_ q = hd (mask_ r) (masks l) /\ rounding_ q = hd (rounding_ r) (rounds l)
  /\ (zero_ q = true <-> zero_ r = true \/ In MZero l)
  /\ (NF_ q = true <-> NF_ r = true \/ In MNF l)
  /\ (ZU_ q = true <-> ZU_ r = true \/ In MZU l).
Proof.
  induction l as [|m l IH]; intros r env pos F RM RR.
  - exists r. cbn. unfold returns. repeat split; auto; intros [?|[]]; assumption.
  - inversion F as [|? ? Fm Fl]; subst. cbn [decorate].
    assert (Step : exists r', returns (decorate1 r m) env pos r' /\ idx_ r' = idx_ r /\ kind_ r' = kind_ r /\ bit_ r' = bit_ r
      /\ room (mask_ r') (masks l) /\ room (rounding_ r') (rounds l)
      /\ hd (mask_ r') (masks l) = hd (mask_ r) (masks (m :: l)) /\ hd (rounding_ r') (rounds l) = hd (rounding_ r) (rounds (m :: l))
      /\ (zero_ r' = true <-> zero_ r = true \/ m = MZero)
      /\ (NF_ r' = true <-> NF_ r = true \/ m = MNF)
      /\ (ZU_ r' = true <-> ZU_ r = true \/ m = MZU)).
    { unfold masks, rounds in *. destruct m; cbn [modifier_ok flat_map app] in *; cbn [decorate1].
      - unfold room in RM. destruct (Z.eqb_spec (mask_ r) 0) as [M0|]; [|discriminate].
        cbn [length] in RM. destruct (orOpmask_ok r k env pos M0) as (q & Q & ->); [lia|].
        eexists. split; [exact Q|]. cbn [idx_ kind_ bit_ mask_ rounding_ zero_ NF_ ZU_].
        assert (Nl : flat_map (fun m => match m with MMask k => [k] | _ => [] end) l = []).
        { apply length_zero_iff_nil. lia. }
        rewrite Nl. repeat split; auto; try (intros [?|?]; [assumption|discriminate]).
        unfold room. destruct (k =? 0); [cbn; lia|reflexivity].
      - eexists. split; [reflexivity|]. cbn. repeat split; auto; intros [?|?]; auto; discriminate.
      - unfold room in RR. destruct (Z.eqb_spec (rounding_ r) 0) as [M0|]; [|discriminate].
        cbn [length] in RR. destruct (orRounding_ok r rc env pos M0) as (q & Q & ->); [lia|].
        eexists. split; [exact Q|]. cbn [idx_ kind_ bit_ mask_ rounding_ zero_ NF_ ZU_].
        assert (Nl : flat_map (fun m => match m with MRound k => [k] | _ => [] end) l = []).
        { apply length_zero_iff_nil. lia. }
        rewrite Nl. repeat split; auto; try (intros [?|?]; [assumption|discriminate]).
        unfold room. destruct (rc =? 0); [cbn; lia|reflexivity].
      - eexists. split; [reflexivity|]. cbn. repeat split; auto; intros [?|?]; auto; discriminate.
      - eexists. split; [reflexivity|]. cbn. repeat split; auto; intros [?|?]; auto; discriminate. }
    destruct Step as (r' & R' & S1 & S2 & S3 & S4 & S5 & S6 & S7 & S8 & S9 & S10).
    destruct (IH r' env pos Fl S4 S5) as (q & Q & T1 & T2 & T3 & T4 & T5 & T6 & T7 & T8).
    exists q. split; [unfold returns; rewrite (bind_returns _ _ _ _ _ R'); exact Q|].
    rewrite T1, T2, T3, T4, T5, S6, S7. cbn [In]. repeat split; try congruence; try tauto; rewrite ?T6, ?T7, ?T8, ?S8, ?S9, ?S10; tauto.
Qed.
Lemma decorate_ok r l env pos : plain r -> Forall modifier_ok l -> unambiguous l -> exists q, returns (decorate r l) env pos q /\ decorated r l q.
Proof.
  intros [M R] F [U1 U2]. destruct (decorate_gen l r env pos F) as (q & Q & T).
  - unfold room. rewrite M. exact U1.
  - unfold room. rewrite R. exact U2.
  - exists q. split; [exact Q|]. rewrite M, R in T. exact T.
Qed.
Lemma decorate_bad_gen l : forall r env pos, env_noexc env = false -> Forall modifier_ok l ->
  ~ (room (mask_ r) (masks l) /\ room (rounding_ r) (rounds l)) ->
  exists e, fails (decorate r l) env pos e /\ (e = ERR_OPMASK_IS_ALREADY_SET \/ e = ERR_ROUNDING_IS_ALREADY_SET).
Proof.
  induction l as [|m l IH]; intros r env pos N F NR.
  - exfalso. apply NR. split; unfold room; cbn; destruct (_ =? 0); auto.
  - inversion F as [|? ? Fm Fl]; subst. cbn [decorate]. unfold masks, rounds in *.
    destruct m as [k| |k| |]; cbn [modifier_ok flat_map app] in *; cbn [decorate1].
    + destruct (Z.eqb_spec (mask_ r) 0) as [M0|M0].
      * destruct (orOpmask_ok r k env pos M0) as (q & Q & E0); [lia|].
        destruct (IH q env pos N Fl) as (e & H1 & H2).
        { rewrite E0. cbn [mask_ rounding_]. intros [A1 A2]. apply NR. split; [|exact A2]. unfold room in *. rewrite M0. cbn [Z.eqb].
          replace (k =? 0) with false in A1 by (symmetry; apply Z.eqb_neq; lia). rewrite A1. cbn. lia. }
        exists e. split; [|exact H2]. unfold fails. rewrite (bind_returns _ _ _ _ _ Q). exact H1.
      * exists ERR_OPMASK_IS_ALREADY_SET. split; [|auto]. apply bind_fails. apply orOpmask_bad; assumption.
    + destruct (IH (setZero r) env pos N Fl NR) as (e & H1 & H2). exists e. split; [|exact H2]. unfold fails. rewrite ret_bind. exact H1.
    + destruct (Z.eqb_spec (rounding_ r) 0) as [M0|M0].
      * destruct (orRounding_ok r k env pos M0) as (q & Q & E0); [lia|].
        destruct (IH q env pos N Fl) as (e & H1 & H2).
        { rewrite E0. cbn [mask_ rounding_]. intros [A1 A2]. apply NR. split; [exact A1|]. unfold room in *. rewrite M0. cbn [Z.eqb].
          replace (k =? 0) with false in A2 by (symmetry; apply Z.eqb_neq; lia). rewrite A2. cbn. lia. }
        exists e. split; [|exact H2]. unfold fails. rewrite (bind_returns _ _ _ _ _ Q). exact H1.
      * exists ERR_ROUNDING_IS_ALREADY_SET. split; [|auto]. apply bind_fails. apply orRounding_bad; assumption.
    + destruct (IH (setNF r) env pos N Fl NR) as (e & H1 & H2). exists e. split; [|exact H2]. unfold fails. rewrite ret_bind. exact H1.
    + destruct (IH (setZU r) env pos N Fl NR) as (e & H1 & H2). exists e. split; [|exact H2]. unfold fails. rewrite ret_bind. exact H1.
Qed.
Lemma decorate_bad r l env pos : plain r -> Forall modifier_ok l -> env_noexc env = false -> ~ unambiguous l ->
  exists e, fails (decorate r l) env pos e /\ (e = ERR_OPMASK_IS_ALREADY_SET \/ e = ERR_ROUNDING_IS_ALREADY_SET).
Proof.
  intros [M R] F N U. apply decorate_bad_gen; auto. intros [A1 A2]. apply U. unfold room in *. rewrite M in A1. rewrite R in A2. split; assumption.
Qed.

Lemma perm_short {A} (l l' : list A) : Permutation l l' -> (length l <= 1)%nat -> l = l'.
Proof.
  intros P L. destruct l as [|a [|b l]]; cbn in L; [|destruct (Permutation_length_1_inv P); reflexivity|lia].
  symmetry. apply Permutation_nil. exact P.
Qed.
Lemma decorated_eq r l l' q q' : masks l = masks l' -> rounds l = rounds l' -> (forall m, In m l <-> In m l') ->
  decorated r l q -> decorated r l' q' -> q = q'.
Proof.
  intros Hm Hr Hi (A1 & A2 & A3 & A4 & A5 & A6 & A7 & A8) (B1 & B2 & B3 & B4 & B5 & B6 & B7 & B8).
  rewrite Hi in A6, A7, A8. rewrite Hm in A4. rewrite Hr in A5.
  destruct q as [x1 x2 x3 x4 x5 x6 x7 x8], q' as [y1 y2 y3 y4 y5 y6 y7 y8]; cbn [idx_ kind_ bit_ mask_ rounding_ zero_ NF_ ZU_] in *. subst.
  assert (Bq : forall a b : bool, forall P, (a = true <-> P) -> (b = true <-> P) -> a = b).
  { intros [] [] P [P1 P2] [Q1 Q2]; auto; try (symmetry; apply Q2, P1; reflexivity). }
  rewrite (Bq _ _ _ A6 B6), (Bq _ _ _ A7 B7), (Bq _ _ _ A8 B8). reflexivity.
Qed.
Lemma decorate_order r l l' env pos : plain r -> Forall modifier_ok l -> unambiguous l -> Permutation l l' ->
  decorate r l' env pos = decorate r l env pos.
Proof.
  intros P F [U1 U2] Pm.
  assert (Mm : masks l = masks l') by (apply perm_short; [apply Permutation_flat_map; exact Pm|exact U1]).
  assert (Mr : rounds l = rounds l') by (apply perm_short; [apply Permutation_flat_map; exact Pm|exact U2]).
  destruct (decorate_ok r l env pos P F (conj U1 U2)) as (q & Q & D).
  destruct (decorate_ok r l' env pos P (Permutation_Forall Pm F)) as (q' & Q' & D'). { unfold unambiguous. rewrite <- Mm, <- Mr. split; assumption. }
  unfold returns in *. rewrite Q, Q'. f_equal. f_equal. symmetry. apply (decorated_eq r l l' q q'); auto.
  intros m. split; apply Permutation_in; [exact Pm|symmetry; exact Pm].
Qed.
Lemma opmask0 r env pos : 0 <= mask_ r < 8 -> mask_ r = 0 -> returns (orOpmask r (Opmask 0)) env pos r.
Proof.
  intros _ M. destruct (orOpmask_ok r 0 env pos M) as (q & Q & ->); [lia|]. destruct r; cbn in *. subst. exact Q.
Qed.

(* memory operands: only the operand part changes *)
Lemma addr_mask a k env pos : mask_ (a_op a) = 0 -> 0 <= k <= 7 ->
  exists b, returns (addrOrOpmask a (Opmask k)) env pos b /\ mask_ (a_op b) = k
  /\ set_aop b (a_op a) = a /\ idx_ (a_op b) = idx_ (a_op a) /\ kind_ (a_op b) = kind_ (a_op a) /\ bit_ (a_op b) = bit_ (a_op a)
  /\ zero_ (a_op b) = zero_ (a_op a) /\ rounding_ (a_op b) = rounding_ (a_op a).
Proof.
  intros M K. destruct (orOpmask_ok (a_op a) k env pos M K) as (q & Q & E0).
  eexists. split; [unfold returns, addrOrOpmask; rewrite (bind_returns _ _ _ _ _ Q); reflexivity|].
  rewrite E0. destruct a. cbn. repeat split.
Qed.
Lemma addr_mask_bad a k env pos : mask_ (a_op a) <> 0 -> env_noexc env = false ->
  fails (addrOrOpmask a k) env pos ERR_OPMASK_IS_ALREADY_SET.
Proof. intros M N. apply bind_fails. apply orOpmask_bad; assumption. Qed.

(* ---- rip expressions ---- *)
Lemma w64_same a : same64 (w64 a) a.
Proof. unfold same64, w64. change 18446744073709551616 with (2 ^ 64). apply Zmod_mod. Qed.
Lemma same64_add a b c d : same64 a b -> same64 c d -> same64 (a + c) (b + d).
Proof. unfold same64. intros A B. rewrite Zplus_mod, A, B, <- Zplus_mod. reflexivity. Qed.
Lemma same64_trans a b c : same64 a b -> same64 b c -> same64 a c. Proof. unfold same64. congruence. Qed.
Definition anchored (r : RegRip) : bool := (match rip_label r with Some _ => true | None => false end) || rip_isAddr r.
Lemma rip_gen l : forall r env pos, (length (rip_anchor r ++ anchors l) <= 1)%nat ->
  exists q, returns (ripSum r l) env pos q /\ rip_anchor q = rip_anchor r ++ anchors l /\ same64 (rip_disp q) (rip_disp r + numbers l).
Proof.
  induction l as [|t l IH]; intros r env pos L.
  - exists r. cbn [anchors flat_map numbers]. rewrite app_nil_r, Z.add_0_r. repeat split.
  - cbn [ripSum]. assert (Step : exists r', returns (ripStep r t) env pos r' /\ rip_anchor r' ++ anchors l = rip_anchor r ++ anchors (t :: l)
      /\ same64 (rip_disp r' + numbers l) (rip_disp r + numbers (t :: l))).
    { unfold anchors in *. destruct t as [n|n|lb|p]; cbn [flat_map app ripStep numbers] in *.
      - eexists. split; [reflexivity|]. split; [reflexivity|]. cbn [rip_disp ripAdd]. rewrite Z.add_assoc. apply same64_add; [apply w64_same|reflexivity].
      - eexists. split; [reflexivity|]. split; [reflexivity|]. cbn [rip_disp ripAdd]. replace (rip_disp r + (numbers l - n)) with (rip_disp r + - n + numbers l) by ring.
        apply same64_add; [apply w64_same|reflexivity].
      - assert (A0 : rip_anchor r = []). { destruct (rip_anchor r); [reflexivity|]. cbn [app length] in L. rewrite app_length in L. cbn [length] in L. lia. }
        unfold rip_anchor in A0. unfold ripAddLabel. destruct r as [d [?|] []]; try discriminate A0.
        eexists. split; [reflexivity|]. split; [reflexivity|]. reflexivity.
      - assert (A0 : rip_anchor r = []). { destruct (rip_anchor r); [reflexivity|]. cbn [app length] in L. rewrite app_length in L. cbn [length] in L. lia. }
        unfold rip_anchor in A0. unfold ripAddPtr. destruct r as [d [?|] []]; try discriminate A0.
        eexists. split; [reflexivity|]. split; [reflexivity|]. cbn [rip_disp]. rewrite Z.add_assoc. apply same64_add; [apply w64_same|reflexivity]. }
    destruct Step as (r' & R' & S1 & S2). destruct (IH r' env pos) as (q & Q & T1 & T2). { rewrite S1. exact L. }
    exists q. split; [unfold returns; rewrite (bind_returns _ _ _ _ _ R'); exact Q|]. split; [congruence|]. eapply same64_trans; eassumption.
Qed.
Lemma rip_bad_gen l : forall r env pos, env_noexc env = false -> (length (rip_anchor r ++ anchors l) > 1)%nat -> (length (rip_anchor r) <= 1)%nat ->
  fails (ripSum r l) env pos ERR_BAD_ADDRESSING.
Proof.
  induction l as [|t l IH]; intros r env pos N L R1.
  - cbn [anchors flat_map] in L. rewrite app_nil_r in L. lia.
  - cbn [ripSum]. unfold anchors in *. destruct t as [n|n|lb|p]; cbn [flat_map app ripStep] in *.
    1, 2: unfold fails; rewrite ret_bind; apply IH; auto.
    + unfold ripAddLabel. destruct (anchored r) eqn:A; unfold anchored in A; rewrite A.
      * apply bind_fails. unfold fails, fn, throw. rewrite N. reflexivity.
      * destruct r as [d [?|] []]; try discriminate A. unfold fails. rewrite (bind_returns _ _ _ _ (mkRip d (Some lb) false)) by reflexivity. apply IH; auto.
    + unfold ripAddPtr. destruct (anchored r) eqn:A; unfold anchored in A; rewrite A.
      * apply bind_fails. unfold fails, fn, throw. rewrite N. reflexivity.
      * destruct r as [d [?|] []]; try discriminate A. unfold fails. rewrite (bind_returns _ _ _ _ (mkRip (w64 (d + p)) None true)) by reflexivity. apply IH; auto.
Qed.
Lemma rip_ok l env pos : (length (anchors l) <= 1)%nat ->
  exists q, returns (ripSum rip0 l) env pos q /\ rip_anchor q = anchors l /\ same64 (rip_disp q) (numbers l).
Proof. intros L. exact (rip_gen l rip0 env pos L). Qed.
Lemma rip_bad l env pos : env_noexc env = false -> (length (anchors l) > 1)%nat -> fails (ripSum rip0 l) env pos ERR_BAD_ADDRESSING.
Proof. intros N L. apply (rip_bad_gen l rip0 env pos N L). cbn. lia. Qed.
(* the memory operand made of it *)
Lemma rip_operand l env pos bit bc : (length (anchors l) <= 1)%nat ->
  exists q, returns (ripSum rip0 l) env pos q /\
  let a := addressRip bit bc q in
  same64 (e_disp (a_e a)) (numbers l) /\ a_broadcast a = bc
  /\ match anchors l with
     | [] => a_mode a = M_rip /\ a_label a = None
     | [ALabel h] => a_mode a = M_rip /\ a_label a = Some h
     | [APtr] => a_mode a = M_ripAddr /\ a_label a = None
     | _ => False
     end.
Proof.
  intros L. destruct (rip_ok l env pos L) as (q & Q & A & D). exists q. split; [exact Q|]. cbn zeta.
  split; [cbn; eapply same64_trans; [apply w64_same|exact D]|]. split; [reflexivity|]. rewrite <- A. unfold rip_anchor.
  destruct q as [d [h|] []]; cbn in *; auto. unfold rip_anchor in A. cbn in A. rewrite <- A in L. cbn in L. lia.
Qed.

(* no-exception build: the first mask and rounding stay *)
Lemma orOpmask_keep r k env pos : mask_ r <> 0 -> env_noexc env = true -> orOpmask r k env pos = ([IErr ERR_OPMASK_IS_ALREADY_SET], Ok r).
Proof. intros M N. unfold orOpmask, fn. apply Z.eqb_neq in M. rewrite M. cbn [negb throw]. rewrite N. reflexivity. Qed.
Lemma orRounding_keep r k env pos : rounding_ r <> 0 -> env_noexc env = true -> orRounding r k env pos = ([IErr ERR_ROUNDING_IS_ALREADY_SET], Ok r).
Proof. intros M N. unfold orRounding, fn. apply Z.eqb_neq in M. rewrite M. cbn [negb throw]. rewrite N. reflexivity. Qed.

(* ---- cvt128, cvt256, cvt512 ---- *)
Definition vcvt (b : Z) (r : Reg) : E Reg := if b =? 128 then cvt128 r else if b =? 256 then cvt256 r else cvt512 r.
Definition vec_of (b i : Z) : Reg := if b =? 128 then Xmm i else if b =? 256 then Ymm i else Zmm i.
Lemma vcvt_vec r b env pos : vec_reg r -> In b vec_widths -> env_noexc env = false -> returns (vcvt b r) env pos (vec_of b (idx_ r)).
Proof.
  intros V B N. destruct (vec_resize r b env pos V B N) as (q & Q & Vq & Bq & Iq & _).
  assert (G : getIdx q = idx_ r).
  { destruct Vq as (_ & Vi). unfold getIdx. rewrite Iq in *. change 31 with (Z.ones 5). rewrite Z.land_ones by lia. apply Z.mod_small. cbn. lia. }
  unfold returns. destruct B as [<-|[<-|[<-|[]]]]; unfold vcvt, vec_of; cbn [Z.eqb Pos.eqb];
  unfold cvt128, cvt256, cvt512; rewrite (bind_returns _ _ _ _ _ Q), G; reflexivity.
Qed.
Lemma vcvt_gpr r b env pos : gpr r -> In b vec_widths -> env_noexc env = false ->
  (is_high r -> fails (vcvt b r) env pos ERR_CANT_CONVERT)
  /\ (~ is_high r -> exists i, gpr_meaning r = BLow i /\ returns (vcvt b r) env pos (vec_of b i)).
Proof.
  intros G B N. destruct (gpr_to_vec r b env pos G B N) as [H1 H2]. split.
  - intros Hh. specialize (H1 Hh). destruct B as [<-|[<-|[<-|[]]]]; apply bind_fails; exact H1.
  - intros Hh. destruct (H2 Hh) as (q & Q & Vq & Bq & Iq). exists (idx_ q). split; [symmetry; exact Iq|].
    assert (Gq : getIdx q = idx_ q).
    { destruct Vq as (_ & Vi). unfold getIdx. change 31 with (Z.ones 5). rewrite Z.land_ones by lia. apply Z.mod_small. cbn. lia. }
    unfold returns. destruct B as [<-|[<-|[<-|[]]]]; unfold vcvt, vec_of; cbn [Z.eqb Pos.eqb];
    unfold cvt128, cvt256, cvt512; rewrite (bind_returns _ _ _ _ _ Q), Gq; reflexivity.
Qed.
