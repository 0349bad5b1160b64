(* Trailing bytes after rip-relative displacements. *)
From Coq Require Import ZArith List Bool Lia.
From Verif Require Import Base Types SpecX86 Emit EmitFacts LegacyFacts MemFacts Encode SpecRip.
Import ListNotations.
Open Scope Z_scope.

(* only bytes *)
Definition B {A} (m : E A) : Prop := forall env pos its u, emits m env pos its u -> exists l, its = map IDb l.
(* nothing *)
Definition N {A} (m : E A) : Prop := forall env pos its u, emits m env pos its u -> its = [].
(* n bytes *)
Definition Bn {A} (n : Z) (m : E A) : Prop := forall env pos its u, emits m env pos its u -> exists l, its = map IDb l /\ Z.of_nat (length l) = n.
(* a reference, k more bytes to come *)
Definition R {A} (a : Address) (k : Z) (m : E A) : Prop := forall env pos its u, emits m env pos its u -> reference a (env_top env + pos) its k.
(* either that, or nothing *)
Definition Q (a : Address) (k : Z) (m : E bool) : Prop := forall env pos its u, emits m env pos its u ->
  u = true /\ reference a (env_top env + pos) its k \/ u = false /\ its = [].

Lemma B_bind {A C} (m : E A) (f : A -> E C) : B m -> (forall x, B (f x)) -> B (bind m f).
Proof. intros H1 H2 env pos its u H. ebind H i1 i2 x J1 J2. apply H1 in J1 as [l ->]. apply H2 in J2 as [l' ->]. exists (l ++ l'). now rewrite map_app. Qed.
Lemma B_fn {A} (d : A) m : B m -> B (fn d m).
Proof. intros H env pos its u J. apply emits_fn in J. eauto. Qed.
Lemma B_ret {A} (x : A) : B (ret x).
Proof. intros env pos its u J. apply emits_ret in J as [-> _]. now exists []. Qed.
Lemma B_throw {A} e : B (@throw A e).
Proof. intros env pos its u J. destruct (emits_throw _ _ _ _ _ J). Qed.
Lemma B_db b : B (db b).
Proof. intros env pos its u J. apply emits_db in J as ->. now exists [w8 b]. Qed.
Lemma B_ask : B ask.
Proof. intros env pos its u J. apply emits_ask in J as [-> _]. now exists []. Qed.
Lemma B_curr : B getCurr.
Proof. intros env pos its u J. apply emits_getCurr in J as [-> _]. now exists []. Qed.
Lemma B_dbs l : B (dbs l).
Proof. induction l; [apply B_ret|]. apply B_bind; auto using B_db. Qed.
Lemma B_dbn v n : B (dbn v n).
Proof. apply B_fn. destruct (8 <? n); (apply B_bind; [auto using B_throw, B_ret|intros; apply B_dbs]). Qed.
#[global] Hint Resolve B_ret B_throw B_db B_ask B_curr B_dbs B_dbn : rip.
Ltac bytes := repeat first [solve [auto with rip] |
  match goal with |- B (fn _ _) => apply B_fn | |- B (bind _ _) => apply B_bind; [|intros] | |- B (if ?c then _ else _) => destruct c | |- B (match ?x with _ => _ end) => destruct x | |- B (let _ := _ in _) => cbv zeta end].

Lemma N_ret {A} (x : A) : N (ret x).
Proof. intros env pos its u J. now apply emits_ret in J as [-> _]. Qed.
Lemma N_throw {A} e : N (@throw A e).
Proof. intros env pos its u J. destruct (emits_throw _ _ _ _ _ J). Qed.
Lemma N_fn {A} (d : A) m : N m -> N (fn d m).
Proof. intros H env pos its u J. apply emits_fn in J. eauto. Qed.
Lemma N_bind {A C} (m : E A) (f : A -> E C) : N m -> (forall x, N (f x)) -> N (bind m f).
Proof. intros H1 H2 env pos its u H. ebind H i1 i2 x J1 J2. apply H1 in J1 as ->. now apply H2 in J2 as ->. Qed.
Lemma N_B {A} (m : E A) : N m -> B m.
Proof. intros H env pos its u J. exists []. now apply H in J. Qed.

Lemma Bn_ret {A} (x : A) : Bn 0 (ret x).
Proof. intros env pos its u J. apply emits_ret in J as [-> _]. now exists []. Qed.
Lemma Bn_throw {A} n e : Bn n (@throw A e).
Proof. intros env pos its u J. destruct (emits_throw _ _ _ _ _ J). Qed.
Lemma Bn_db b : Bn 1 (db b).
Proof. intros env pos its u J. apply emits_db in J as ->. now exists [w8 b]. Qed.
Lemma Bn_dbn v n : 0 <= n -> Bn n (dbn v n).
Proof.
  intros Hn env pos its u J. apply emits_dbn in J as [_ ->]. eexists (map w8 _). rewrite map_map. split; [reflexivity|].
  rewrite map_length, le_bytes_length. lia.
Qed.

Lemma map_IDb_app a b : map IDb (a ++ b) = map IDb a ++ map IDb b.
Proof. apply map_app. Qed.
Lemma ref_pre a s l its k : reference a (s + Z.of_nat (length l)) its k -> reference a s (map IDb l ++ its) k.
Proof.
  intros (pre & post & H). exists (l ++ pre), post. destruct (a_label a).
  - rewrite H, map_app, app_assoc. reflexivity.
  - destruct H as (d & -> & Hd & Hr). exists d. split; [now rewrite <- !app_assoc, !map_app|]. split; auto.
    rewrite <- Hr. f_equal. rewrite items_size_app. replace (items_size (map IDb l)) with (Z.of_nat (length l)); [lia|].
    clear. induction l as [|b l IH]; cbn [map items_size item_size length]; lia.
Qed.
Lemma size_map l : items_size (map IDb l) = Z.of_nat (length l).
Proof. induction l as [|b l IH]; cbn [map items_size item_size length]; lia. Qed.
Lemma ref_post a s l its k n : Z.of_nat (length l) = n -> reference a s its (n + k) -> reference a s (its ++ map IDb l) k.
Proof.
  intros Hn (pre & post & H). exists pre, (post ++ l). destruct (a_label a).
  - rewrite H, <- app_assoc. cbn [app]. rewrite map_app, app_length, Nat2Z.inj_add, Hn, Z.add_assoc. reflexivity.
  - destruct H as (d & -> & Hd & Hr). exists d. split; [now rewrite <- map_app, <- !app_assoc|]. split; auto.
    rewrite <- Hr. f_equal. rewrite items_size_app, !size_map. lia.
Qed.
Lemma R_bind {A C} a k (m : E A) (f : A -> E C) : B m -> (forall x, R a k (f x)) -> R a k (bind m f).
Proof.
  intros H1 H2 env pos its u H. ebind H i1 i2 x J1 J2. apply H1 in J1 as [l ->]. apply H2 in J2. apply ref_pre.
  rewrite size_map, Z.add_assoc in J2. exact J2.
Qed.
(* with a fact about the value *)
Definition V {A} (P : A -> Prop) (m : E A) : Prop := forall env pos its u, emits m env pos its u -> P u.
Lemma R_bindv {A C} (P : A -> Prop) a k (m : E A) (f : A -> E C) : B m -> V P m -> (forall x, P x -> R a k (f x)) -> R a k (bind m f).
Proof.
  intros H1 H3 H2 env pos its u H. ebind H i1 i2 x J1 J2. pose proof (H3 _ _ _ _ J1) as Px. apply H1 in J1 as [l ->]. apply (H2 _ Px) in J2. apply ref_pre.
  rewrite size_map, Z.add_assoc in J2. exact J2.
Qed.
Lemma R_post {A C} a k n (m : E A) (f : A -> E C) : R a (n + k) m -> (forall x, Bn n (f x)) -> R a k (bind m f).
Proof.
  intros H1 H2 env pos its u H. ebind H i1 i2 x J1 J2. apply H1 in J1. apply H2 in J2 as (l & -> & L). eapply ref_post; eauto.
Qed.
Lemma R_then {A C} a k (m : E A) (f : A -> E C) : R a k m -> (forall x, N (f x)) -> R a k (bind m f).
Proof. intros H1 H2 env pos its u H. ebind H i1 i2 x J1 J2. apply H1 in J1. apply H2 in J2 as ->. now rewrite app_nil_r. Qed.
Lemma R_fn {A} (d : A) a k m : R a k m -> R a k (fn d m).
Proof. intros H env pos its u J. apply emits_fn in J. eauto. Qed.
Lemma R_throw {A} a k e : R a k (@throw A e).
Proof. intros env pos its u J. destruct (emits_throw _ _ _ _ _ J). Qed.
Lemma Q_R a k m1 m2 : Q a k m1 -> R a k m2 -> R a k (bind m1 (fun done : bool => if done then ret tt else m2)).
Proof.
  intros H1 H2 env pos its u H. ebind H i1 i2 x J1 J2. apply H1 in J1 as [[-> J]|[-> ->]].
  - apply emits_ret in J2 as [-> _]. now rewrite app_nil_r.
  - cbn [items_size] in J2. rewrite Z.add_0_r in J2. apply H2 in J2. exact J2.
Qed.
Lemma Q_R' a k m1 m2 : Q a k m1 -> R a k m2 -> R a k (bind m1 (fun done : bool => if negb done then m2 else ret tt)).
Proof.
  intros H1 H2 env pos its u H. ebind H i1 i2 x J1 J2. apply H1 in J1 as [[-> J]|[-> ->]].
  - apply emits_ret in J2 as [-> _]. now rewrite app_nil_r.
  - cbn [items_size] in J2. rewrite Z.add_0_r in J2. apply H2 in J2. exact J2.
Qed.
Lemma Q_false a k : Q a k (ret false).
Proof. intros env pos its u J. apply emits_ret in J as [-> ->]. auto. Qed.
Lemma R_refers {A} a (m : E A) : R a 0 m -> refers a m.
Proof. exact (fun H => H). Qed.

(* ---- helpers without memory ---- *)
Lemma B_rex2 b x r1 r2 r3 : B (rex2 b x r1 r2 r3).
Proof. unfold rex2. bytes. Qed.
#[global] Hint Resolve B_rex2 : rip.
Lemma B_rex o1 o2 t : B (rex o1 o2 t).
Proof. unfold rex. bytes. Qed.
Lemma B_vex r b p t c x : B (vex r b p t c x).
Proof. unfold vex. bytes. Qed.
Lemma B_setModRM x y z : B (setModRM x y z).
Proof. unfold setModRM. bytes. Qed.
Lemma B_setBit r b : B (setBit r b).
Proof. unfold setBit. bytes. Qed.
#[global] Hint Resolve B_rex B_vex B_setModRM B_setBit : rip.
Lemma B_evex r b p t c i bc aaa vl h : B (evex r b p t c i bc aaa vl h).
Proof. unfold evex, verifySAE, verifyER, verifyDuplicate. bytes. Qed.
Lemma B_evexLeg r b x v t sc : B (evexLeg r b x v t sc).
Proof. unfold evexLeg. bytes. Qed.
Lemma B_writeCode t r c x : B (writeCode t r c x).
Proof. unfold writeCode. bytes. Qed.
#[global] Hint Resolve B_evex B_evexLeg B_writeCode : rip.
Lemma B_verifyMem o : B (verifyMemHasSize o).
Proof. unfold verifyMemHasSize. bytes. Qed.
#[global] Hint Resolve B_verifyMem : rip.
Lemma B_getImmBit o i : B (getImmBit o i).
Proof. unfold getImmBit. bytes. Qed.
Lemma V_getImmBit o i : V (fun n => 0 <= n / 8) (getImmBit o i).
Proof.
  intros env pos its u H. unfold getImmBit in H. apply emits_fn in H. ebind H i1 i2 x H1 H2. cbv zeta in H2.
  destruct (_ <? _); [destruct (emits_throw _ _ _ _ _ H2)|]. apply emits_ret in H2 as [_ ->].
  repeat match goal with |- context [if ?c then _ else _] => destruct c end; vm_compute; discriminate.
Qed.
Lemma B_getEncoding e s : B (getEncoding e s).
Proof. unfold getEncoding. bytes. Qed.
#[global] Hint Resolve B_getImmBit B_getEncoding : rip.
Lemma B_orEvexIf e s t n : B (orEvexIf e s t n).
Proof. unfold orEvexIf. bytes. Qed.
#[global] Hint Resolve B_orEvexIf : rip.

(* ---- opAddr ---- *)
Definition same (a b : Address) : Prop := a_label b = a_label a /\ getDisp b = getDisp a /\ a_mode b = a_mode a.
Lemma opAddr_R a b reg : rip_mem a -> same a b -> R a (immSize b) (opAddr b reg).
Proof.
  intros (_ & _ & _ & _ & I0 & _ & M) (L & D & Md). unfold opAddr. apply R_fn. destruct (_ && _); [apply R_throw|]. rewrite Md, L.
  assert (K : a_mode a = M_rip \/ a_mode a = M_ripAddr) by tauto.
  assert (G : R a (immSize b) (setModRM 0 reg 5 ;;; match a_label a with
       | Some l => emit (IPutL (LObj l) true (w64 (getDisp b - immSize b)))
       | None => disp <- (match a_mode a with
                    | M_ripAddr => env <- ask ;; if env_autoGrow env then throw ERR_INVALID_RIP_IN_AUTO_GROW else
                        c <- getCurr ;; ret (w64 (getDisp b - (c + 4 + immSize b)))
                    | _ => ret (getDisp b) end) ;; d <- VerifyInInt32 disp ;; dd d end)).
  { apply R_bind; [auto with rip|]. intros _. destruct (a_label a) as [l|] eqn:La.
    - intros env pos its u H. apply emits_emit in H as ->. exists [], []. rewrite La. cbn [map app length]. rewrite D. reflexivity.
    - destruct M as [[_ X]|M]; [destruct X; reflexivity|]. rewrite M. intros env pos its u H. ebind H i1 i2 disp H1 H2.
      ebind H1 j1 j2 e J1 J2. apply emits_ask in J1 as [-> ->]. destruct (env_autoGrow env); [destruct (emits_throw _ _ _ _ _ J2)|].
      ebind J2 k1 k2 c K1 K2. apply emits_getCurr in K1 as [-> ->]. apply emits_ret in K2 as [-> ->]. cbn [app items_size] in *.
      rewrite ?Z.add_0_r in H2. ebind H2 k1 k2 d K1 K2. unfold VerifyInInt32 in K1. apply emits_fn in K1.
      destruct (IsInInt32 _) eqn:I32; [|destruct (emits_throw _ _ _ _ _ K1)]. apply emits_ret in K1 as [-> ->]. cbn [app].
      unfold dd in K2. apply emits_dbn in K2 as [_ ->].
      set (t := w64 (getDisp b - (w64 (env_top env + pos) + 4 + immSize b))) in *.
      assert (T : 0 <= t < 2 ^ 64) by (unfold t, w64; change 18446744073709551616 with (2 ^ 64); apply Z.mod_pos_bound; lia).
      exists [], []. rewrite La. exists (w32 t).
      assert (W : 0 <= w32 t < 2 ^ 32) by (unfold w32; change 4294967296 with (2 ^ 32); apply Z.mod_pos_bound; lia).
      assert (Its : map (fun b => IDb (w8 b)) (le_bytes (w64 (w32 (w32 t))) (Z.to_nat 4)) = map IDb (le_bytes (w32 t) 4)).
      { change (Z.to_nat 4) with 4%nat.
        replace (w64 (w32 (w32 t))) with (w32 t) by (unfold w64, w32 in *; rewrite Z.mod_mod by lia; symmetry; apply Z.mod_small; change (2 ^ 32) with 4294967296 in W; lia).
        cbn [le_bytes map]. rewrite !w8_idem. reflexivity. }
      split; [|split; [exact W|]].
      + cbn [app]. rewrite app_nil_r. exact Its.
      + rewrite Its, size_map, le_bytes_length. change (Z.of_nat 4) with 4.
        assert (S32 : signed 32 (w32 t) mod 2 ^ 64 = t).
        { unfold IsInInt32 in I32. unfold signed, w32. unfold w64 in I32. rewrite Z.mod_small in I32 by exact T.
          change (2 ^ (32 - 1)) with 2147483648. change (2 ^ 32) with 4294967296.
          apply orb_prop in I32 as [Q1|Q1]; apply Z.leb_le in Q1.
          - pose proof (Z.div_mod t 4294967296 ltac:(lia)). pose proof (Z.mod_pos_bound t 4294967296 ltac:(lia)).
            assert (t / 4294967296 = 4294967295) by (change (2 ^ 64) with (4294967296 * 4294967296) in T; lia).
            change (2 ^ 64) with (4294967296 * 4294967296) in *. destruct (_ <? _) eqn:Q2; [lia|].
            replace (t mod 4294967296 - 4294967296) with (t + (-1) * (4294967296 * 4294967296)) by lia. rewrite Z_mod_plus_full. apply Z.mod_small. lia.
          - rewrite (Z.mod_small t 4294967296) by lia. replace (t <? 2147483648) with true by lia. apply Z.mod_small. exact T. }
        set (sg := signed 32 (w32 t)) in *. clearbody sg. unfold t in S32. unfold w64 in S32. change 18446744073709551616 with (2 ^ 64) in S32.
        set (M64 := 2 ^ 64) in *. set (e := env_top env + pos) in *. rewrite <- D.
        pose proof (Z.div_mod sg M64 ltac:(discriminate)) as E1. pose proof (Z.div_mod e M64 ltac:(discriminate)) as E2.
        pose proof (Z.div_mod (getDisp b - (e mod M64 + 4 + immSize b)) M64 ltac:(discriminate)) as E3. rewrite S32 in E1.
        set (g := (getDisp b - (e mod M64 + 4 + immSize b)) mod M64) in *.
        replace (e + 4 + immSize b + sg) with (getDisp b + (e / M64 + sg / M64 - (getDisp b - (e mod M64 + 4 + immSize b)) / M64) * M64) by (rewrite !Z.mul_add_distr_r || idtac; clearbody g M64; lia).
        apply Z_mod_plus_full. }
  destruct K as [K|K]; rewrite K in *; exact G.
Qed.

(* ---- encoder helpers with the memory operand a ---- *)
Lemma mem_rip_same a n : same a (set_immSize a n).
Proof. repeat split. Qed.
Lemma same_refl a : same a a.
Proof. repeat split. Qed.
Ltac mem H K Nf Zu I0 Ex M := destruct H as (K & _ & Nf & Zu & I0 & Ex & M).
Lemma rip_is64 a b : rip_mem a -> same a b -> is64bitDisp b = false.
Proof. intros H (_ & _ & Md). mem H K Nf Zu I0 Ex M. unfold is64bitDisp. rewrite Md. destruct M as [[-> _]| ->]; reflexivity. Qed.
Lemma rip_rex2 a : rip_mem a -> hasRex2 (OMem a) = false.
Proof. intros H. mem H K Nf Zu I0 Ex M. cbn [hasRex2]. unfold addrHasRex2. rewrite Ex. reflexivity. Qed.
Lemma rip_nfzu a : rip_mem a -> hasRex2NFZU (OMem a) = false.
Proof. intros H. unfold hasRex2NFZU. rewrite (rip_rex2 _ H). mem H K Nf Zu I0 Ex M. cbn [ob]. now rewrite Nf, Zu. Qed.
Lemma rip_oREG a : rip_mem a -> oREG (OMem a) = false.
Proof. intros H. mem H K Nf Zu I0 Ex M. unfold oREG, isREG, is_. cbn [ob]. rewrite K. reflexivity. Qed.
Lemma rip_oREGb a b : rip_mem a -> oREGb (OMem a) b = false.
Proof. intros H. mem H K Nf Zu I0 Ex M. unfold oREGb, isREGb, is_. cbn [ob]. rewrite K. reflexivity. Qed.

Lemma roo_Q1 a d r t c n sc : rip_mem a -> Q a n (opROO d (OMem a) (OReg r) t c n sc).
Proof.
  intros Ha env pos its u H. unfold opROO in H. apply emits_fn in H. destruct (_ && _ && _) eqn:C.
  - apply emits_ret in H as [-> ->]. auto.
  - cbn [isMEM] in H. left. ebind H i1 i2 x H1 H2. ebind H2 i3 i4 y H3 H4. ebind H4 i5 i6 z H5 H6. apply emits_ret in H6 as [-> ->]. split; auto.
    assert (X : R a n (evexLeg r (e_base (getRegExp a)) (e_index (getRegExp a)) d t sc ;;; writeCode t d c false ;;; opAddr (set_immSize a n) (getIdx r))).
    { apply R_bind; [auto with rip|intros _]. apply R_bind; [auto with rip|intros _]. apply (opAddr_R a (set_immSize a n)); auto using mem_rip_same. }
    rewrite app_nil_r. refine (X env pos _ tt _). cbn [ob] in *. destruct H1 as [Hn H1], H3 as [_ H3], H5 as [_ H5]. split; auto.
    unfold bind. cbn [ob] in *. rewrite H1, H3, H5. destruct z; reflexivity.
Qed.
Lemma roo_Q2 a d r t c n sc : rip_mem a -> Q a n (opROO d (OReg r) (OMem a) t c n sc).
Proof.
  intros Ha env pos its u H. unfold opROO in H. apply emits_fn in H. destruct (_ && _ && _) eqn:C.
  - apply emits_ret in H as [-> ->]. auto.
  - cbn [isMEM] in H. left. ebind H i1 i2 x H1 H2. ebind H2 i3 i4 y H3 H4. ebind H4 i5 i6 z H5 H6. apply emits_ret in H6 as [-> ->]. split; auto.
    assert (X : R a n (evexLeg r (e_base (getRegExp a)) (e_index (getRegExp a)) d t sc ;;; writeCode t d (c ||| 2) false ;;; opAddr (set_immSize a n) (getIdx r))).
    { apply R_bind; [auto with rip|intros _]. apply R_bind; [auto with rip|intros _]. apply (opAddr_R a (set_immSize a n)); auto using mem_rip_same. }
    rewrite app_nil_r. refine (X env pos _ tt _). cbn [ob] in *. destruct H1 as [Hn H1], H3 as [_ H3], H5 as [_ H5]. split; auto.
    unfold bind. cbn [ob] in *. rewrite H1, H3, H5. destruct z; reflexivity.
Qed.
(* when the destination decides that the extended form is used, the result is known *)
Lemma roo_R1 a d r t c n sc : rip_mem a -> negb (has t T_MUST_EVEX) && negb (isREG d) && negb (hasRex2NFZU (OReg d) || hasRex2NFZU (OMem a) || hasRex2NFZU (OReg r)) = false ->
  R a n (opROO d (OMem a) (OReg r) t c n sc).
Proof.
  intros Ha C env pos its u H. pose proof H as H0. apply (roo_Q1 a) in H0 as [[_ X]|[-> X]]; auto. exfalso.
  unfold opROO in H. apply emits_fn in H. rewrite C in H. cbn [isMEM] in H. ebind H i1 i2 x H1 H2. ebind H2 i3 i4 y H3 H4. ebind H4 i5 i6 z H5 H6.
  apply emits_ret in H6 as [_ H6]. discriminate H6.
Qed.
Lemma roo_R2 a d r t c n sc : rip_mem a -> negb (has t T_MUST_EVEX) && negb (isREG d) && negb (hasRex2NFZU (OReg d) || hasRex2NFZU (OReg r) || hasRex2NFZU (OMem a)) = false ->
  R a n (opROO d (OReg r) (OMem a) t c n sc).
Proof.
  intros Ha C env pos its u H. pose proof H as H0. apply (roo_Q2 a) in H0 as [[_ X]|[-> X]]; auto. exfalso.
  unfold opROO in H. apply emits_fn in H. rewrite C in H. cbn [isMEM] in H. ebind H i1 i2 x H1 H2. ebind H2 i3 i4 y H3 H4. ebind H4 i5 i6 z H5 H6.
  apply emits_ret in H6 as [_ H6]. discriminate H6.
Qed.
Lemma mr_R a b r t c c2 : rip_mem a -> same a b -> R a (immSize b) (opMR b r t c 0 c2).
Proof.
  intros Ha S. unfold opMR. apply R_fn. cbv zeta. change (negb (0 =? 0)) with false. apply Q_R; [apply Q_false|].
  rewrite (rip_is64 _ _ Ha S). destruct (_ && _); [apply R_throw|]. apply R_bind; [auto with rip|intros x2]. apply R_bind; [auto with rip|intros _].
  now apply opAddr_R.
Qed.
Lemma rip_imm a : rip_mem a -> immSize a = 0.
Proof. intros H. mem H K Nf Zu I0 Ex M. exact I0. Qed.
Lemma mr0_R a r t c t2 c2 : rip_mem a -> R a 0 (opMR a r t c t2 c2).
Proof.
  intros Ha. unfold opMR. apply R_fn. cbv zeta. apply Q_R; [destruct (negb _); [now apply roo_Q1|apply Q_false]|].
  rewrite (rip_is64 _ _ Ha (same_refl a)). destruct (_ && _); [apply R_throw|]. apply R_bind; [auto with rip|intros x2]. apply R_bind; [auto with rip|intros _].
  rewrite <- (rip_imm _ Ha) at 1. now apply opAddr_R; auto using same_refl.
Qed.
Lemma mrn_R a n r t c c2 : rip_mem a -> R a n (opMR (set_immSize a n) r t c 0 c2).
Proof. intros Ha. exact (mr_R a (set_immSize a n) r t c c2 Ha (mem_rip_same a n)). Qed.
Lemma rext_R a bit ext t c dis n : rip_mem a -> R a n (opRext (OMem a) bit ext t c dis n None).
Proof.
  intros Ha. unfold opRext. apply R_fn. cbv zeta. rewrite (rip_nfzu _ Ha), andb_false_r. apply Q_R; [apply Q_false|]. now apply mrn_R.
Qed.
Lemma rext0_R a bit ext t c dis d : rip_mem a -> R a 0 (opRext (OMem a) bit ext t c dis 0 d).
Proof.
  intros Ha. unfold opRext. apply R_fn. cbv zeta. apply Q_R; [|now apply mrn_R]. destruct (_ && _); [now apply roo_Q1|apply Q_false].
Qed.
Lemma ro_R a r t c cond n : rip_mem a -> R a n (opRO r (OMem a) t c cond n).
Proof. intros Ha. unfold opRO. apply R_fn. now apply mrn_R. Qed.
Lemma vex_R a r p t c imm8 : rip_mem a -> R a 0 (opVex r p (OMem a) t c imm8).
Proof.
  intros Ha. unfold opVex. apply R_fn.
  apply (R_post a 0 (if imm8 =? NONE then 0 else 1)).
  - cbv zeta. apply R_bind; [bytes|intros _]. apply R_bind; [bytes|intros d8].
    match goal with |- R _ _ (opAddr ?x _) => set (b := x) end.
    assert (S : same a b) by (unfold b; repeat match goal with |- context [if ?c then _ else _] => destruct c end; repeat split).
    replace ((if imm8 =? NONE then 0 else 1) + 0) with (immSize b); [now apply opAddr_R|].
    unfold b. pose proof (rip_imm _ Ha). destruct (imm8 =? NONE); [|reflexivity]. repeat match goal with |- context [if ?c then _ else _] => destruct c end; exact H.
  - intros _. destruct (imm8 =? NONE); [apply Bn_ret|apply Bn_db].
Qed.
#[global] Hint Resolve mr0_R mrn_R rext_R rext0_R ro_R vex_R : ripR.
Ltac ref := repeat first [solve [auto with ripR] | progress cbv zeta |
  match goal with
  | |- R _ _ (throw _) => apply R_throw
  | |- R _ _ (fn _ _) => apply R_fn
  | |- R _ _ (if ?c then _ else _) => destruct c
  | |- R _ _ (bind (if ?c then ret tt else throw _) _) => destruct c
  | |- R _ _ (bind _ _) => apply R_bind; [solve [bytes]|intros]
  | |- R _ _ (match ?x with _ => _ end) => destruct x end].
Lemma sse_R a r t c v imm8 : rip_mem a -> R a 0 (opSSE r (OMem a) t c v imm8).
Proof.
  intros Ha. unfold opSSE. apply R_fn. destruct v as [f|]; [destruct (negb (f _ _)); [apply R_throw|]|]; (destruct (_ || _); [apply R_throw|]);
    (apply (R_post a 0 (if imm8 =? NONE then 0 else 1)); [rewrite Z.add_0_r; now apply ro_R|intros _; destruct (imm8 =? NONE); [apply Bn_ret|apply Bn_db]]).
Qed.
#[global] Hint Resolve sse_R : ripR.
Lemma mmx_R a r c t p imm8 : rip_mem a -> R a 0 (opMMX r (OMem a) c t p imm8).
Proof. intros Ha. unfold opMMX. ref. Qed.
Lemma movxmm1_R a r t c : rip_mem a -> R a 0 (opMovXMM (OReg r) (OMem a) t c).
Proof. intros Ha. unfold opMovXMM. ref. Qed.
Lemma movxmm2_R a r t c : rip_mem a -> R a 0 (opMovXMM (OMem a) (OReg r) t c).
Proof. intros Ha. unfold opMovXMM. ref. Qed.
Lemma ext_R a r c i h : rip_mem a -> R a 0 (opExt (OMem a) r c i h).
Proof. intros Ha. unfold opExt. rewrite (rip_oREGb _ _ Ha), andb_false_r. ref. Qed.
Lemma setcc_R a e : rip_mem a -> R a 0 (opSetCC (OMem a) e).
Proof. intros Ha. unfold opSetCC. apply Q_R; [now apply roo_Q1|ref]. Qed.
(* shifts by an immediate without a new data destination *)
Lemma shift_R a imm e : rip_mem a -> R a 0 (opShift (OMem a) imm e None).
Proof.
  intros Ha. unfold opShift. apply R_fn. apply R_bind; [auto with rip|intros _].
  apply (R_post a 0 (if imm =? 1 then 0 else 1)); [rewrite Z.add_0_r; now apply rext_R|intros _; destruct (imm =? 1); [apply Bn_ret|apply Bn_db]].
Qed.
Lemma shift1_R a e d : rip_mem a -> R a 0 (opShift (OMem a) 1 e d).
Proof.
  intros Ha. unfold opShift. apply R_fn. apply R_bind; [destruct d; auto with rip|intros _]. change (1 =? 1) with true. cbn [negb].
  assert (X : forall t, R a 0 (opRext (OMem a) 0 (e &&& 7) (shiftType e d) t false 0 d ;;; ret tt)) by (intros t; apply R_then; [now apply rext0_R|intros; apply N_ret]).
  destruct d; [destruct (_ && _); [apply R_throw|]|]; apply X.
Qed.
Lemma shiftcl_R a cl e d : rip_mem a -> R a 0 (opShiftCL (OMem a) cl e d).
Proof. intros Ha. unfold opShiftCL. ref. Qed.
Lemma shxd_R a d r i c c2 cl : rip_mem a -> R a 0 (opShxd d (OMem a) r i c c2 cl).
Proof.
  intros Ha. unfold opShxd. apply R_fn. cbv zeta.
  assert (X : R a 0 (done <- opROO d (OMem a) (OReg r) (T_APX ||| T_NF ||| (if isREG d then T_ND1 else 0)) (match cl with Some _ => match cl with Some _ => c ||| 1 | None => c end | None => c2 end) (match cl with Some _ => 0 | None => 1 end) NONE ;;
     when negb done do opRO r (OMem a) T_0F (match cl with Some _ => c ||| 1 | None => c end) true (match cl with Some _ => 0 | None => 1 end) ;;;
     match cl with Some _ => ret tt | None => db i end)).
  { intros env pos its u H. ebind H i1 i2 x H1 H2. apply (roo_Q1 a) in H1 as [[-> J]|[-> ->]]; auto; cbn [negb] in H2.
    - ebind H2 i3 i4 y H3 H4. apply emits_ret in H3 as [-> _]. cbn [app]. destruct cl.
      + apply emits_ret in H4 as [-> _]. now rewrite app_nil_r.
      + apply Bn_db in H4 as (l & -> & L). apply (ref_post a _ l _ 0 1 L). exact J.
    - cbn [items_size] in H2. rewrite Z.add_0_r in H2. cbn [app]. revert H2. apply (R_post a 0 (match cl with Some _ => 0 | None => 1 end)).
      + rewrite Z.add_0_r. now apply ro_R.
      + intros _. destruct cl; [apply Bn_ret|apply Bn_db]. }
  destruct cl as [c0|]; [destruct (negb (getIdx c0 =? 1)); [apply R_throw|]|]; (destruct (negb (isREGb _ _)); [apply R_throw|exact X]).
Qed.
Lemma romr1_R a r c : rip_mem a -> R a 0 (opRO_MR (OMem a) (OReg r) c).
Proof. intros Ha. unfold opRO_MR. ref. Qed.
Lemma romr2_R a r c : rip_mem a -> R a 0 (opRO_MR (OReg r) (OMem a) c).
Proof. intros Ha. unfold opRO_MR. ref. Qed.
Lemma oi_R a imm c e : rip_mem a -> R a 0 (opOI (OMem a) imm c e).
Proof.
  intros Ha. unfold opOI. cbv zeta. rewrite (rip_oREG _ Ha). cbn [andb]. eapply R_bindv; [auto with rip|apply V_getImmBit|]. intros n Hn.
  apply (R_post a 0 (n / 8)); [rewrite Z.add_0_r; now apply rext_R|intros _; now apply Bn_dbn].
Qed.
Lemma roi_R a d imm t e : rip_mem a -> isREG d = true -> R a 0 (opROI d (OMem a) imm t e).
Proof.
  intros Ha Hd. unfold opROI. cbv zeta. eapply R_bindv; [auto with rip|apply V_getImmBit|]. intros n Hn.
  apply (R_post a 0 (n / 8)); [rewrite Z.add_0_r|intros _; now apply Bn_dbn]. apply roo_R1; auto. rewrite Hd. cbn [negb]. now rewrite andb_false_r.
Qed.
Lemma incdec_R a d e : rip_mem a -> R a 0 (opIncDec d (OMem a) e).
Proof.
  intros Ha. unfold opIncDec. destruct (isREG d) eqn:Hd; [|ref]. cbv zeta. apply R_then; [|intros; apply N_ret]. apply roo_R1; auto. rewrite Hd. cbn [negb]. now rewrite andb_false_r.
Qed.
Lemma pushpop_R a c e al : rip_mem a -> R a 0 (opPushPop (OMem a) c e al).
Proof. intros Ha. unfold opPushPop. rewrite (rip_oREG _ Ha). cbn [andb]. ref. Qed.
Lemma movxx_R a r c : rip_mem a -> R a 0 (opMovxx r (OMem a) c).
Proof. intros Ha. unfold opMovxx. ref. Qed.
Lemma fpumem_R a x y z e f : rip_mem a -> R a 0 (opFpuMem a x y z e f).
Proof.
  intros Ha. unfold opFpuMem. rewrite (rip_is64 _ _ Ha (same_refl a)). apply R_fn. cbv zeta. destruct (_ =? 0); [apply R_throw|].
  apply R_bind; [auto with rip|intros _]. apply R_bind; [auto with rip|intros _]. rewrite <- (rip_imm _ Ha) at 1. apply opAddr_R; auto using same_refl.
Qed.
#[global] Hint Resolve mmx_R movxmm1_R movxmm2_R ext_R setcc_R shift_R shift1_R shiftcl_R shxd_R romr1_R romr2_R oi_R roi_R incdec_R pushpop_R movxx_R fpumem_R : ripR.
Lemma rip_none a : rip_mem a -> isNone (ob (OMem a)) = false.
Proof. intros H. mem H K Nf Zu I0 Ex M. cbn [ob]. unfold isNone. rewrite K. reflexivity. Qed.
Lemma rip_vec a : rip_mem a -> isXMM (a_op a) = false /\ isYMM (a_op a) = false /\ isZMM (a_op a) = false /\ isOPMASK (a_op a) = false.
Proof. intros H. mem H K Nf Zu I0 Ex M. unfold isXMM, isYMM, isZMM, isOPMASK, is_. rewrite K. repeat split; reflexivity. Qed.
Lemma avx_R a x1 r t c i : rip_mem a -> R a 0 (opAVX_X_X_XM x1 (OReg r) (OMem a) t c i).
Proof. intros Ha. unfold opAVX_X_X_XM. rewrite (rip_none _ Ha). ref. Qed.
Lemma avx1_R a x1 r t c i : rip_mem a -> R a 0 (opAVX_X_X_XM x1 (OMem a) (OReg r) t c i).
Proof.
  intros Ha. unfold opAVX_X_X_XM. apply R_fn. cbn [ob]. destruct (isNone r); cbv beta iota zeta; [ref|].
  destruct (rip_vec _ Ha) as (-> & -> & -> & _). rewrite !andb_false_r. cbn [orb negb]. apply R_throw.
Qed.
Lemma avxk_R a k x t c i : rip_mem a -> R a 0 (opAVX_K_X_XM k x (OMem a) t c i).
Proof. intros Ha. unfold opAVX_K_X_XM. ref. Qed.
#[global] Hint Resolve avx_R avx1_R avxk_R : ripR.
Lemma B_cvt1 x o : B (checkCvt1 x o).
Proof. unfold checkCvt1. bytes. Qed.
Lemma B_cvt2 x o : B (checkCvt2 x o).
Proof. unfold checkCvt2. bytes. Qed.
Lemma B_cvt4 x o : B (checkCvt4 x o).
Proof. unfold checkCvt4. bytes. Qed.
#[global] Hint Resolve B_cvt1 B_cvt2 B_cvt4 : rip.
Lemma cvt_R a x t c : rip_mem a -> R a 0 (opCvt x (OMem a) t c).
Proof. intros Ha. unfold opCvt. ref. Qed.
#[global] Hint Resolve cvt_R : ripR.
Lemma cvt2_R a x t c : rip_mem a -> R a 0 (opCvt2 x (OMem a) t c).
Proof. intros Ha. unfold opCvt2. ref. Qed.
Lemma cvt3_R a x1 x2 t u v c : rip_mem a -> R a 0 (opCvt3 x1 x2 (OMem a) t u v c).
Proof. intros Ha. unfold opCvt3. rewrite (rip_oREG _ Ha). ref. Qed.
Lemma cvt5_R a x t c : rip_mem a -> R a 0 (opCvt5 x (OMem a) t c).
Proof. intros Ha. unfold opCvt5. ref. Qed.
Lemma cvt6_R a x1 x2 t c : rip_mem a -> R a 0 (opCvt6 x1 x2 (OMem a) t c).
Proof. intros Ha. unfold opCvt6. ref. Qed.
Lemma avximm_R a x t c i : rip_mem a -> R a 0 (opAVX_X_XM_IMM x (OMem a) t c i).
Proof. intros Ha. unfold opAVX_X_XM_IMM. ref. Qed.
Lemma cnt_R a r c : rip_mem a -> R a 0 (opCnt r (OMem a) c).
Proof. intros Ha. unfold opCnt. ref. Qed.
Lemma rip_exp a : rip_mem a -> getRegExp a = regExpDisp (getDisp a).
Proof. intros H. mem H K Nf Zu I0 Ex M. unfold getRegExp. rewrite Ex. destruct (a_optimize a); reflexivity. Qed.
Lemma gather_R a x1 x2 t c m : rip_mem a -> R a 0 (opGather x1 a x2 t c m).
Proof. intros Ha. unfold opGather. ref. Qed.
Lemma B_gather2 x y m : B (checkGather2 x y m).
Proof. unfold checkGather2. bytes. Qed.
#[global] Hint Resolve B_gather2 : rip.
Lemma gather2_R a x t c m : rip_mem a -> R a 0 (opGather2 x a t c m).
Proof. intros Ha. unfold opGather2. ref. Qed.
Lemma vmov_R a x t c m : rip_mem a -> R a 0 (opVmov (OMem a) x t c m).
Proof. intros Ha. unfold opVmov. ref. Qed.
Lemma gatherf_R a x t c k : rip_mem a -> R a 0 (opGatherFetch a x t c k).
Proof. intros Ha. unfold opGatherFetch. ref. Qed.
Lemma enc_R a x1 x2 t c e i tv te s : rip_mem a -> R a 0 (opEncoding x1 x2 (OMem a) t c e i tv te s).
Proof. intros Ha. unfold opEncoding. ref. Qed.
Lemma regOf_isREG n b e : isREG (regOf n REG b e) = true.
Proof. destruct e; reflexivity. Qed.
Lemma ccmp1_R a r d c s : rip_mem a -> R a 0 (opCcmp (OMem a) (OReg r) d c s).
Proof.
  intros Ha. unfold opCcmp. apply R_fn. destruct (_ || _); [apply R_throw|]. apply R_then; [|intros; apply N_ret]. apply roo_R1; auto.
Qed.
Lemma ccmp2_R a r d c s : rip_mem a -> R a 0 (opCcmp (OReg r) (OMem a) d c s).
Proof.
  intros Ha. unfold opCcmp. apply R_fn. destruct (_ || _); [apply R_throw|]. apply R_then; [|intros; apply N_ret]. apply roo_R2; auto.
Qed.
Lemma ccmpi_R a i d s : rip_mem a -> R a 0 (opCcmpi (OMem a) i d s).
Proof.
  intros Ha. unfold opCcmpi. apply R_fn. destruct (_ || _); [apply R_throw|]. eapply R_bindv; [auto with rip|apply V_getImmBit|]. intros n Hn. cbv zeta.
  apply (R_post a 0 (n / 8)); [rewrite Z.add_0_r|intros _; now apply Bn_dbn]. apply roo_R1; auto.
Qed.
Lemma rip_bit a : rip_mem a -> 0 <= ogetBit (OMem a).
Proof. intros (_ & H & _). exact H. Qed.
Lemma rip_bits a : rip_mem a -> 0 <= Z.min (ogetBit (OMem a)) 32 / 8.
Proof. intros H. pose proof (rip_bit _ H). apply Z.div_pos; lia. Qed.
Lemma testi_R a i d s : rip_mem a -> R a 0 (opTesti (OMem a) i d s).
Proof.
  intros Ha. pose proof (rip_bit _ Ha) as Hb. unfold opTesti. apply R_fn. destruct (_ || _); [apply R_throw|]. cbv zeta. destruct (_ =? 0); [apply R_throw|].
  apply (R_post a 0 (Z.min (ogetBit (OMem a)) 32 / 8)); [rewrite Z.add_0_r|intros _; apply Bn_dbn; now apply rip_bits]. apply roo_R1; auto.
Qed.
Lemma cfcmov1_R a d r c : rip_mem a -> R a 0 (opCfcmov d (OMem a) (OReg r) c).
Proof.
  intros Ha. unfold opCfcmov. apply R_fn. cbv zeta. destruct (_ && _ && _); [apply R_throw|]. destruct (_ || _); [apply R_throw|].
  apply R_then; [|intros; apply N_ret]. apply roo_R1; auto.
Qed.
Lemma cfcmov2_R a d r c : rip_mem a -> R a 0 (opCfcmov d (OReg r) (OMem a) c).
Proof.
  intros Ha. unfold opCfcmov. apply R_fn. cbv zeta. destruct (_ && _ && _); [apply R_throw|]. destruct (_ || _); [apply R_throw|]. cbn [isMEM].
  apply R_then; [|intros; apply N_ret]. apply roo_R1; auto. destruct (0 <? _); reflexivity.
Qed.
Lemma amx_R a t1 t c : rip_mem a -> R a 0 (opAMX t1 a t c).
Proof.
  intros Ha. unfold opAMX. apply R_fn. cbv zeta. mem Ha K Nf Zu I0 Ex M.
  replace (getBit (e_base (getRegExp (cloneNoOptimize a))) =? 0) with true; [apply R_throw|]. unfold getRegExp, cloneNoOptimize. cbn [a_optimize a_e]. rewrite Ex. reflexivity.
Qed.
Lemma kmov_R a k rev size : rip_mem a -> R a 0 (opKmov k (OMem a) rev size).
Proof.
  intros Ha. unfold opKmov. apply R_fn. cbv zeta. rewrite (rip_oREGb _ _ Ha). cbn [isMEM ob]. destruct (rip_vec _ Ha) as (_ & _ & _ & ->). cbn [orb].
  destruct rev; cbn [Z.eqb Pos.eqb]; (apply Q_R; [now apply roo_Q1|ref]).
Qed.
Lemma sseapx_R a x t1 c1 t2 c2 i : rip_mem a -> R a 0 (opSSE_APX x (OMem a) t1 c1 t2 c2 i).
Proof.
  intros Ha. unfold opSSE_APX. rewrite (rip_rex2 _ Ha), andb_false_r.
  intros env pos its u H. ebind H i1 i2 dn H1 H2. apply emits_ret in H1 as [-> ->]. cbn [app items_size] in *. rewrite Z.add_0_r in H2. revert H2. now apply sse_R.
Qed.
Lemma avx_bad_R a r t c i : rip_mem a -> R a 0 (opAVX_X_X_XM (ob (OMem a)) (OReg (Xmm 0)) (OReg r) t c i).
Proof.
  intros Ha. unfold opAVX_X_X_XM. apply R_fn. cbn [ob]. destruct (rip_vec _ Ha) as (X & Y & W & _).
  destruct (isNone r); cbv beta iota zeta; rewrite X, Y, W; cbn [andb orb]; rewrite andb_false_r; apply R_throw.
Qed.
#[global] Hint Resolve avx_bad_R : ripR.
Lemma zext1_R a r t c e b : rip_mem a -> R a 0 (opAVX10ZeroExt (OMem a) (OReg r) t c e b).
Proof. intros Ha. unfold opAVX10ZeroExt. apply R_fn. cbn [isMEM]. destruct (oXMM (OReg r)) eqn:X; cbv beta iota zeta; ref. Qed.
Lemma zext2_R a r t c e b : rip_mem a -> R a 0 (opAVX10ZeroExt (OReg r) (OMem a) t c e b).
Proof. intros Ha. unfold opAVX10ZeroExt. apply R_fn. cbn [isMEM]. destruct (oXMM (OReg r)) eqn:X; cbv beta iota zeta; ref. Qed.
(* three operands with VEX or extended registers; the immediate only without extended registers *)
Lemma rro_R a d r t c : rip_mem a -> R a 0 (opRRO d r (OMem a) t c NONE).
Proof.
  intros Ha. unfold opRRO. apply R_fn. cbv zeta. rewrite (rip_oREG _ Ha). cbn [andb]. destruct (_ || false); [apply R_throw|].
  destruct (_ || NF_ d) eqn:C; [|ref]. apply R_then; [|intros; apply N_ret]. apply roo_R1; auto. rewrite (rip_rex2 _ Ha) in C.
  unfold hasRex2NFZU at 1 3. cbn [ob].
  destruct (hasRex2 (OReg d)); [now rewrite !orb_true_r, andb_false_r|]. destruct (hasRex2 (OReg r)); [now rewrite andb_false_r|]. cbn [orb] in C. rewrite C. now rewrite !orb_true_r, andb_false_r.
Qed.
Lemma rro_imm_R a d r t c i : rip_mem a -> hasRex2 (OReg d) = false -> hasRex2 (OReg r) = false -> NF_ d = false -> R a 0 (opRRO d r (OMem a) t c i).
Proof. intros Ha H1 H2 H3. unfold opRRO. rewrite H1, H2, H3, (rip_rex2 _ Ha). cbn [orb]. ref. Qed.
Lemma mib_R a r t c : rip_mem a -> R a 0 (opMIB a r t c).
Proof.
  intros Ha. unfold opMIB. apply R_fn. replace (negb (AMode_beq (a_mode a) M_ModRM)) with true; [apply R_throw|].
  mem Ha K Nf Zu I0 Ex M. destruct M as [[-> _]| ->]; reflexivity.
Qed.
Lemma loadseg_R a r t c : rip_mem a -> R a 0 (opLoadSeg a r t c).
Proof.
  intros Ha. unfold opLoadSeg. apply R_fn. rewrite (rip_is64 _ _ Ha (same_refl a)). destruct (isBit r 8); [apply R_throw|].
  apply R_bind; [auto with rip|intros _]. apply R_bind; [bytes|intros _]. apply R_bind; [auto with rip|intros _]. rewrite <- (rip_imm _ Ha) at 1. apply opAddr_R; auto using same_refl.
Qed.
Lemma jmpop_R a t e : rip_mem a -> R a 0 (opJmpOp (OMem a) t e).
Proof. intros Ha. unfold opJmpOp. ref. Qed.
Lemma testimm_R a i : rip_mem a -> R a 0 (test_imm (OMem a) i).
Proof.
  intros Ha. pose proof (rip_bit _ Ha) as Hb. unfold test_imm. cbv zeta. rewrite (rip_oREG _ Ha). cbn [andb]. apply R_bind; [auto with rip|intros _].
  apply (R_post a 0 (Z.min (ogetBit (OMem a) / 8) 4)); [rewrite Z.add_0_r; now apply rext_R|intros _; apply Bn_dbn].
  pose proof (Z.div_pos (ogetBit (OMem a)) 8 Hb ltac:(lia)). lia.
Qed.
Lemma imulimm_R a r i : rip_mem a -> R a 0 (imul_imm r (OMem a) i).
Proof.
  intros Ha. unfold imul_imm. cbv zeta. set (n := if _ =? 1 then 1 else _). set (cc := 105 ||| _).
  assert (Hn : 0 <= n) by (unfold n; destruct (_ =? 1); [lia|destruct (isREGb r 16); lia]).
  intros env pos its u H. ebind H i1 i2 x H1 H2. apply (roo_Q1 a) in H1 as [[-> J]|[-> ->]]; auto; cbn [negb] in H2.
  - ebind H2 i3 i4 y H3 H4. apply emits_ret in H3 as [-> _]. cbn [app]. apply (Bn_dbn _ _ Hn) in H4 as (l & -> & L).
    apply (ref_post a _ l _ 0 n L). rewrite Z.add_0_r. exact J.
  - cbn [items_size] in H2. rewrite Z.add_0_r in H2. cbn [app]. revert H2. apply (R_post a 0 n).
    + rewrite Z.add_0_r. now apply ro_R.
    + intros _. now apply Bn_dbn.
Qed.
Lemma moi_R a i : rip_mem a -> R a 0 (mov_oi (OMem a) i).
Proof.
  intros Ha. pose proof (rip_bit _ Ha) as Hb. unfold mov_oi. apply R_fn. cbv zeta. apply R_bind; [auto with rip|intros _].
  destruct (if ogetBit (OMem a) / 8 <=? 4 then _ else _); [apply R_throw|]. set (n := if ogetBit (OMem a) / 8 <=? 4 then _ else _).
  apply (R_post a 0 n); [rewrite Z.add_0_r; now apply mrn_R|intros _; apply Bn_dbn]. unfold n.
  pose proof (Z.div_pos (ogetBit (OMem a)) 8 Hb ltac:(lia)). destruct (_ <=? 4); lia.
Qed.
Lemma moo1_R a r : rip_mem a -> R a 0 (mov_oo (OMem a) (OReg r)).
Proof. intros Ha. unfold mov_oo. apply R_fn. cbv zeta. destruct (_ && _); [rewrite (rip_is64 _ _ Ha (same_refl a))|]; ref. Qed.
Lemma moo2_R a r : rip_mem a -> R a 0 (mov_oo (OReg r) (OMem a)).
Proof. intros Ha. unfold mov_oo. apply R_fn. cbv zeta. destruct (_ && _); [rewrite (rip_is64 _ _ Ha (same_refl a))|]; ref. Qed.
Lemma xchg1_R a r : rip_mem a -> R a 0 (xchg (OMem a) (OReg r)).
Proof. intros Ha. unfold xchg. apply R_fn. cbn [isMEM orb]. cbv beta iota zeta. cbn [isMEM]. rewrite (rip_oREG _ Ha). cbn [andb]. rewrite andb_false_r. cbv beta iota zeta. ref. Qed.
Lemma xchg2_R a r : rip_mem a -> R a 0 (xchg (OReg r) (OMem a)).
Proof. intros Ha. unfold xchg. apply R_fn. cbn [isMEM orb]. rewrite (rip_oREGb _ _ Ha). cbn [andb]. cbv beta iota zeta. cbn [isMEM]. rewrite (rip_oREG _ Ha). cbn [andb]. rewrite andb_false_r. cbv beta iota zeta. ref. Qed.
#[global] Hint Resolve cvt2_R cvt3_R cvt5_R cvt6_R avximm_R cnt_R gather_R gather2_R vmov_R gatherf_R enc_R ccmp1_R ccmp2_R ccmpi_R testi_R cfcmov1_R cfcmov2_R
  amx_R kmov_R sseapx_R zext1_R zext2_R rro_R mib_R loadseg_R jmpop_R testimm_R imulimm_R moi_R moo1_R moo2_R xchg1_R xchg2_R : ripR.

(* methods written out in the mnemonic layer *)
From Verif Require Import Mnemonic MnemonicAvx.
Lemma roo1_R a d r t c sc : rip_mem a -> isREG d = true -> R a 0 (opROO d (OMem a) (OReg r) t c 0 sc ;;; ret tt).
Proof. intros Ha Hd. apply R_then; [|intros; apply N_ret]. apply roo_R1; auto. now rewrite Hd, andb_false_r. Qed.
Lemma roo2_R a d r t c sc : rip_mem a -> isREG d = true -> R a 0 (opROO d (OReg r) (OMem a) t c 0 sc ;;; ret tt).
Proof. intros Ha Hd. apply R_then; [|intros; apply N_ret]. apply roo_R2; auto. now rewrite Hd, andb_false_r. Qed.
Lemma rooq_R a d r t c sc m : rip_mem a -> R a 0 m -> R a 0 (done <- opROO d (OMem a) (OReg r) t c 0 sc ;; if (done : bool) then ret tt else m).
Proof. intros Ha Hm. apply Q_R; auto. now apply roo_Q1. Qed.
Lemma btoi_R a bit ext t c imm : rip_mem a -> R a 0 (opRext (OMem a) bit ext t c false 1 None ;;; db imm).
Proof. intros Ha. apply (R_post a 0 1); [now apply rext_R|intros _; apply Bn_db]. Qed.
Lemma vpextrw_R a x imm : rip_mem a -> R a 0 (i_vpextrw (OMem a) x imm).
Proof.
  intros Ha. unfold i_vpextrw. apply R_fn. cbv zeta. destruct (negb _); [apply R_throw|]. rewrite (rip_oREG _ Ha : isREG (ob (OMem a)) = false). cbn [andb]. ref.
Qed.
Lemma B_cvt32 r : B (cvt32 r).
Proof. unfold cvt32. bytes. Qed.
#[global] Hint Resolve B_cvt32 : rip.
Lemma movdir64b_R a r : rip_mem a -> R a 0 (i_movdir64b r a).
Proof. intros Ha. unfold i_movdir64b. ref. Qed.
Lemma movoseg_R a s : rip_mem a -> R a 0 (mov_o_seg (OMem a) s).
Proof. intros Ha. unfold mov_o_seg. ref. Qed.
Lemma movsego_R a s : rip_mem a -> R a 0 (mov_seg_o s (OMem a)).
Proof. intros Ha. unfold mov_seg_o. rewrite (rip_oREGb _ _ Ha). intros env pos its u H. ebind H i1 i2 x H1 H2. apply emits_ret in H1 as [-> ->]. cbn [app items_size] in *. rewrite Z.add_0_r in H2. revert H2. apply (ro_R a). exact Ha. Qed.
#[global] Hint Resolve movoseg_R movsego_R roo1_R roo2_R rooq_R btoi_R vpextrw_R movdir64b_R : ripR.
