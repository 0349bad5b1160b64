(* The 32-bit build against the 64-bit build: helpers. *)
From Coq Require Import ZArith List Bool Lia.
From Verif Require Import Base Types Emit EmitFacts MemFacts BitFacts VexFacts LegacyFacts SpecX86 SpecAddr Encode Encode32 Spec32.
Import ListNotations.
Open Scope Z_scope.
Section Basics.
Context {M : Prop}.
Notation sim := (bsame M).

Lemma emits_fn_i {A} (d : A) m env pos its u : emits m env pos its u -> emits (fn d m) env pos its u.
Proof. intros [N H]. split; [exact N|]. unfold fn. now rewrite H. Qed.
Lemma emits_bind_i {A C} (m : E A) (f : A -> E C) env pos i1 i2 a u :
  emits m env pos i1 a -> emits (f a) env (pos + items_size i1) i2 u -> emits (bind m f) env pos (i1 ++ i2) u.
Proof. intros [N H] [_ K]. split; [exact N|]. unfold bind. now rewrite H, K. Qed.
Lemma same_fn {A} (d d' : A) m m' : same_code m m' -> same_code (fn d m) (fn d' m').
Proof. intros S0 env pos its u H. apply emits_fn_i, S0. now apply emits_fn in H. Qed.
Lemma same_bind {A C} (m m' : E A) (f f' : A -> E C) : same_code m m' -> (forall x, same_code (f x) (f' x)) -> same_code (bind m f) (bind m' f').
Proof. intros H1 H2 env pos its u H. ebind H i1 i2 x J1 J2. eapply emits_bind_i; [exact (H1 _ _ _ _ J1)|exact (H2 _ _ _ _ _ J2)]. Qed.
Lemma sim_refl {A} (m : E A) : sim m m. Proof. split; [|intros _]; intros env pos its u H; exact H. Qed.
Lemma sim_throw {A} e e' : sim (throw e : E A) (throw e').
Proof. split; [|intros _]; intros env pos its u H; destruct (emits_throw _ _ _ _ _ H). Qed.
Lemma sim_fn {A} (d d' : A) m m' : sim m m' -> sim (fn d m) (fn d' m').
Proof. intros [S1 S2]. split; [|intros Q]; apply same_fn; auto. Qed.
Lemma sim_bind {A C} (m m' : E A) (f f' : A -> E C) : sim m m' -> (forall x, sim (f x) (f' x)) -> sim (bind m f) (bind m' f').
Proof. intros [S1 S2] F. split; [|intros Q]; (apply same_bind; [auto|intros x; apply F; auto]). Qed.
Lemma emits_bret {A C} (x : A) (f : A -> E C) env pos its u : emits (bind (ret x) f) env pos its u <-> emits (f x) env pos its u.
Proof.
  split; intros J.
  - ebind J i1 i2 y J1 J2. apply emits_ret in J1 as [-> ->]. cbn [items_size] in J2. rewrite Z.add_0_r in J2. exact J2.
  - rewrite <- (app_nil_l its). apply (emits_bind_i (ret x) _ env pos [] its x); [split; [exact (proj1 J)|reflexivity]|]. cbn [items_size]. rewrite Z.add_0_r. exact J.
Qed.
Lemma sim_retr {A C} (m : E C) (x : A) f : sim m (f x) -> sim m (bind (ret x) f).
Proof. intros [S1 S2]. split; [|intros Q]; intros env pos its u J; [apply S1; now apply emits_bret|apply emits_bret; now apply S2]. Qed.
Lemma sim_retl {A C} (m : E C) (x : A) f : sim (f x) m -> sim (bind (ret x) f) m.
Proof. intros [S1 S2]. split; [|intros Q]; intros env pos its u J; [apply emits_bret; now apply S1|apply S2; [exact Q|]; now apply emits_bret]. Qed.
Lemma emits_bfret {A C} (d x : A) (f : A -> E C) env pos its u : emits (bind (fn d (ret x)) f) env pos its u <-> emits (f x) env pos its u.
Proof. exact (emits_bret x f env pos its u). Qed.
Lemma sim_fnretr {A C} (m : E C) (d x : A) f : sim m (f x) -> sim m (bind (fn d (ret x)) f).
Proof. exact (sim_retr m x f). Qed.
Lemma sim_fnret {A C} (d x : A) (f f' : A -> E C) : sim (f x) (f' x) -> sim (bind (fn d (ret x)) f) (bind (fn d (ret x)) f').
Proof. intros H. apply (sim_retr _ x). apply (sim_retl _ x). exact H. Qed.
Lemma sim_fnthrow {A C} (d : A) e (f f' : A -> E C) : sim (bind (fn d (throw e)) f) (bind (fn d (throw e)) f').
Proof. split; [|intros _]; intros env pos its u J; ebind J i1 i2 x J1 J2; apply emits_fn in J1; destruct (emits_throw _ _ _ _ _ J1). Qed.
Lemma sim_fnl {A} (d : A) m m' : sim m m' -> sim (fn d m) m'.
Proof. intros [S1 S2]. split; [|intros Q]; intros env pos its u J; [apply emits_fn_i; now apply S1|apply emits_fn in J; now apply S2]. Qed.
Lemma sim_eq {A} (m m' : E A) : m = m' -> sim m m'. Proof. intros ->. apply sim_refl. Qed.

(* ---- the two values of i32e ---- *)
Lemma has_lor x a b : has x (a ||| b) = has x a || has x b.
Proof. unfold has. rewrite Z.land_lor_distr_r. destruct (Z.land x a =? 0) eqn:P, (Z.land x b =? 0) eqn:Q; cbn;
  rewrite ?Z.eqb_eq, ?Z.eqb_neq, ?negb_true_iff, ?negb_false_iff in *; rewrite ?Z.eqb_eq, ?Z.eqb_neq; rewrite Z.lor_eq_0_iff; intuition. Qed.
Lemma has96 x : has x 96 = has x 32 || has x 64. Proof. exact (has_lor x 32 64). Qed.
Lemma isREGb_w r k : reg32 r -> isREGb r (k ||| 96) = isREGb r (k ||| 32).
Proof.
  intros (_ & _ & H & _). unfold isREGb, is_. unfold isREG, is_ in H. change (0 =? 0) with true in H. rewrite orb_true_l, andb_true_r in H.
  change (REG =? 0) with false in *. cbn [orb] in *. destruct (has (kind_ r) REG) eqn:K; [|reflexivity]. cbn [andb].
  unfold isBit in H. specialize (H eq_refl). rewrite !has_lor, has96, H, orb_false_r.
  destruct (k ||| 96 =? 0) eqn:P; [apply Z.eqb_eq, Z.lor_eq_0_iff in P; lia|].
  destruct (k ||| 32 =? 0) eqn:Q; [apply Z.eqb_eq, Z.lor_eq_0_iff in Q; lia|]. reflexivity.
Qed.
Lemma isREGb_96 r : reg32 r -> isREGb r 96 = isREGb r 32. Proof. exact (isREGb_w r 0). Qed.
Lemma isREGb_112 r : reg32 r -> isREGb r 112 = isREGb r 48. Proof. exact (isREGb_w r 16). Qed.
Lemma isREGb_64 r : reg32 r -> isREGb r 64 = false.
Proof.
  intros (_ & _ & H & _). unfold isREGb, is_. unfold isREG, is_, isBit in H. change (0 =? 0) with true in H. rewrite orb_true_l, andb_true_r in H.
  change (REG =? 0) with false in *. change (64 =? 0) with false. cbn [orb] in *. destruct (has (kind_ r) REG); [|reflexivity]. now rewrite H.
Qed.
Lemma isBit_96 r : isBit r 64 = false -> isBit r 96 = isBit r 32.
Proof. unfold isBit. rewrite has96. intros ->. apply orb_false_r. Qed.
Lemma op32_ob o : op32 o -> reg32 (ob o). Proof. destruct o as [r|a]; [auto|intros (_ & H & _); exact H]. Qed.

(* ---- widening ---- *)
Lemma ob_w o : ob (widen_op o) = ob o. Proof. destruct o; reflexivity. Qed.
Lemma isMEM_w o : isMEM (widen_op o) = isMEM o. Proof. destruct o; reflexivity. Qed.
Lemma widen_idx r : idx_ (widen r) = idx_ r. Proof. unfold widen. destruct (isREG r); reflexivity. Qed.
Lemma widen_kind r : kind_ (widen r) = kind_ r. Proof. unfold widen. destruct (isREG r); reflexivity. Qed.
Lemma widen_getIdx r : getIdx (widen r) = getIdx r. Proof. unfold getIdx. now rewrite widen_idx. Qed.
Lemma widen_hasIdxBit r k : hasIdxBit (widen r) k = hasIdxBit r k. Proof. unfold hasIdxBit. now rewrite widen_idx. Qed.
Lemma widen_is r k : is_ (widen r) k 0 = is_ r k 0. Proof. unfold is_. now rewrite widen_kind. Qed.
Lemma widen_ext r : isExtIdx (widen r) = isExtIdx r. Proof. unfold isExtIdx. now rewrite widen_getIdx. Qed.
Lemma widen_ext2 r : isExtIdx2 (widen r) = isExtIdx2 r. Proof. unfold isExtIdx2. now rewrite widen_getIdx. Qed.
Lemma widen_rex2 r : regHasRex2 (widen r) = regHasRex2 r. Proof. unfold regHasRex2, isREG. now rewrite widen_is, widen_ext2. Qed.
Lemma widen_mods r : zero_ (widen r) = zero_ r /\ mask_ (widen r) = mask_ r /\ rounding_ (widen r) = rounding_ r /\ NF_ (widen r) = NF_ r /\ ZU_ (widen r) = ZU_ r.
Proof. unfold widen. destruct (isREG r); repeat split; reflexivity. Qed.
Lemma noReg_b : base32 noReg. Proof. now left. Qed.
Definition bits32 (r : Reg) : Prop := (bit_ r = 0 /\ bit_ (widen r) = 0) \/ (bit_ r = 32 /\ bit_ (widen r) = 64 /\ kind_ r = REG) \/ (128 <= bit_ r <= 512 /\ bit_ (widen r) = bit_ r /\ has (bit_ r) 96 = false /\ has (bit_ r) 896 = true).
Lemma index_bits r : index32 r -> bits32 r.
Proof.
  intros [[->|(K & B & _)]|(_ & [(K & B)|[(K & B)|(K & B)]])]; unfold bits32, widen, isREG, is_; rewrite ?K, ?B.
  - left. split; reflexivity.
  - right; left. cbn [bit_ set_kindbit]. repeat split; auto.
  - right; right. cbn. rewrite B. repeat split; auto; lia.
  - right; right. cbn. rewrite B. repeat split; auto; lia.
  - right; right. cbn. rewrite B. repeat split; auto; lia.
Qed.
Lemma base_bits r : base32 r -> (bit_ r = 0 /\ bit_ (widen r) = 0) \/ (bit_ r = 32 /\ bit_ (widen r) = 64 /\ kind_ r = REG).
Proof. intros [->|(K & B & _)]; unfold widen, isREG, is_; rewrite ?K, ?B; [left|right]; cbn; auto. Qed.

Lemma optimize_w e : exp32 e -> Types.optimize (widen_exp e) = widen_exp (optimize e).
Proof.
  intros (HB & HI & HD). unfold Types.optimize, optimize, Types.i32e, i32e, isBit, getBit. cbn [widen_exp e_index e_base e_scale e_disp].
  assert (Q1 : has (bit_ (widen (e_index e))) 96 = has (bit_ (e_index e)) 32).
  { destruct (index_bits _ HI) as [[-> ->]|[(-> & -> & _)|(A1 & -> & A3 & _)]]; [reflexivity|reflexivity|].
    rewrite A3. rewrite has96 in A3. apply orb_false_iff in A3 as [A3 _]. now rewrite A3. }
  assert (Q2 : (bit_ (widen (e_base e)) =? 0) = (bit_ (e_base e) =? 0)).
  { destruct (base_bits _ HB) as [[-> ->]|(-> & -> & _)]; reflexivity. }
  rewrite Q1, Q2. destruct (has _ 32 && _ && _); reflexivity.
Qed.
Lemma optimize_32 e : exp32 e -> exp32 (optimize e).
Proof.
  intros (HB & HI & HD). unfold optimize. destruct (_ && _ && _) eqn:Q; [|split; auto].
  apply andb_true_iff in Q as [Q _]. apply andb_true_iff in Q as [Q _]. unfold isBit, i32e in Q. split; [|split]; cbn; auto.
  destruct HI as [HI|(I & [(K & B)|[(K & B)|(K & B)]])]; auto; rewrite B in Q; discriminate.
Qed.
Lemma getRegExp_32 a : addr32 a -> exp32 (getRegExp a).
Proof. intros (_ & _ & _ & _ & H). unfold getRegExp. destruct (a_optimize a); auto using optimize_32. Qed.
Lemma getRegExp_w a : addr32 a -> Types.getRegExp (widen_addr a) = widen_exp (getRegExp a).
Proof. intros (_ & _ & _ & _ & H). unfold Types.getRegExp, getRegExp. cbn [widen_addr a_optimize a_e]. destruct (a_optimize a); auto using optimize_w. Qed.
Lemma is32bit_w a : addr32 a -> is32bit (widen_addr a) = false.
Proof.
  intros (_ & _ & _ & _ & HB & HI & _). unfold is32bit, getBit. cbn [widen_addr a_e widen_exp e_base e_index].
  destruct (base_bits _ HB) as [[_ ->]|(_ & -> & _)], (index_bits _ HI) as [[_ ->]|[(_ & -> & _)|(A1 & -> & _)]]; cbn; auto; apply Z.eqb_neq; lia.
Qed.
Lemma addrRex2_w a : addrHasRex2 (widen_addr a) = addrHasRex2 a.
Proof. unfold addrHasRex2. cbn [widen_addr a_e widen_exp e_base e_index]. now rewrite !widen_rex2. Qed.
Lemma rex2_w o : hasRex2 (widen_op o) = hasRex2 o.
Proof. destruct o; [reflexivity|apply addrRex2_w]. Qed.
Lemma rex2nf_w o : hasRex2NFZU (widen_op o) = hasRex2NFZU o.
Proof. unfold hasRex2NFZU. now rewrite rex2_w, ob_w. Qed.
Lemma vsib_w r : index32 r -> isBit (widen r) 896 = isBit r 896.
Proof. intros H. unfold isBit. destruct (index_bits _ H) as [[-> ->]|[(-> & -> & _)|(_ & -> & _)]]; reflexivity. Qed.
Lemma isVsib_w a : addr32 a -> isVsib (widen_addr a) = isVsib a.
Proof. intros (_ & _ & _ & _ & _ & HI & _). unfold isVsib, isVsibE, vsib_bits. cbn. now apply vsib_w. Qed.
Lemma s32_range x : - 2147483648 <= s32 x < 2147483648.
Proof. unfold s32. pose proof (Z.mod_pos_bound x 4294967296 ltac:(lia)). unfold w32. destruct (_ <? _) eqn:Q; lia. Qed.
Lemma w32_w64_s32 x : w32 (w64 (s32 x)) = w32 x.
Proof.
  unfold w64, w32. rewrite <- (Znumtheory.Zmod_div_mod 4294967296 18446744073709551616) by (try lia; exists 4294967296; reflexivity).
  unfold s32, w32. destruct (_ <? _).
  - apply Z.mod_mod; lia.
  - replace (x mod 4294967296 - 4294967296) with (x mod 4294967296 + (-1) * 4294967296) by ring. rewrite Z.mod_add by lia. apply Z.mod_mod; lia.
Qed.
Lemma high_s32 x : let h := w64 (s32 x) >>> 31 in negb (h =? 0) && negb (h =? 0x1FFFFFFFF) = false.
Proof.
  cbv zeta. pose proof (s32_range x) as R. rewrite Z.shiftr_div_pow2 by lia. change (2 ^ 31) with 2147483648. unfold w64.
  destruct (Z.ltb_spec (s32 x) 0).
  - replace (s32 x mod 18446744073709551616) with (s32 x + 18446744073709551616).
    2: { rewrite <- (Z.mod_add (s32 x) 1 18446744073709551616) by lia. rewrite Z.mod_small; lia. }
    replace ((s32 x + 18446744073709551616) / 2147483648) with 8589934591.
    2: { apply Z.div_unique with (s32 x + 2147483648); lia. }
    reflexivity.
  - rewrite Z.mod_small by lia. rewrite Z.div_small by lia. reflexivity.
Qed.
Lemma int32_s32 x : IsInInt32 (w64 (s32 x)) = true.
Proof.
  pose proof (s32_range x) as R. unfold IsInInt32. replace (w64 (w64 (s32 x))) with (w64 (s32 x)) by (unfold w64; symmetry; apply Z.mod_mod; lia).
  unfold w64. apply orb_true_iff. rewrite !Z.leb_le. destruct (Z.ltb_spec (s32 x) 0).
  - left. rewrite <- (Z.mod_add (s32 x) 1 18446744073709551616) by lia. rewrite Z.mod_small; lia.
  - right. rewrite Z.mod_small; lia.
Qed.

(* ---- addresses ---- *)
Lemma sim_setSIB e reg n : exp32 e -> (bit_ (e_base e) =? 0) && (bit_ (e_index e) =? 0) = false ->
  sim (setSIB e reg n) (Encode.setSIB (widen_exp e) reg n).
Proof.
  intros (HB & HI & HD) NE. unfold setSIB, Encode.setSIB. apply sim_fn. cbn [widen_exp e_base e_index e_scale e_disp]. cbv zeta.
  rewrite high_s32, w32_w64_s32, !widen_getIdx. unfold getBit.
  assert (Q1 : (bit_ (widen (e_index e)) =? 0) = (bit_ (e_index e) =? 0)).
  { destruct (index_bits _ HI) as [[-> ->]|[(-> & -> & _)|(A1 & -> & _)]]; reflexivity. }
  assert (Q2 : (bit_ (widen (e_base e)) =? 0) = (bit_ (e_base e) =? 0)).
  { destruct (base_bits _ HB) as [[-> ->]|(-> & -> & _)]; reflexivity. }
  rewrite !Q1, !Q2, NE, !orb_false_r. apply sim_refl.
Qed.
Lemma only_opt a : addr32 a -> (bit_ (e_base (getRegExp a)) =? 0) && (bit_ (e_index (getRegExp a)) =? 0) = isOnlyDisp a.
Proof.
  intros (_ & _ & _ & _ & HB & HI & _). unfold getRegExp, isOnlyDisp, getBit. destruct (a_optimize a); [|reflexivity]. unfold optimize.
  destruct (_ && _ && _) eqn:Q; [|reflexivity]. cbn. apply andb_true_iff in Q as [Q _]. apply andb_true_iff in Q as [Q Q2]. unfold getBit in Q2. rewrite Q2.
  destruct (bit_ (e_index (a_e a)) =? 0); reflexivity.
Qed.
Lemma sim_opAddr a reg : addr32 a -> sim (opAddr a reg) (Encode.opAddr (widen_addr a) reg).
Proof.
  intros H. pose proof H as (_ & _ & MO & LB & HE). unfold opAddr, Encode.opAddr. apply sim_fn. rewrite isVsib_w by exact H.
  change (permitVsib (widen_addr a)) with (permitVsib a). destruct (negb (permitVsib a) && isVsib a); [apply sim_throw|].
  cbn [widen_addr a_mode]. pose proof (only_opt _ H) as OO. destruct (isOnlyDisp a) eqn:OD.
  - change (a_label (widen_addr a)) with (a_label a). rewrite LB.
    assert (DE : e_disp (getRegExp a) = e_disp (a_e a)) by (unfold getRegExp; destruct (a_optimize a); [unfold optimize; destruct (_ && _ && _)|]; reflexivity).
    unfold setSIB. apply andb_true_iff in OO as [O1 O2]. unfold getBit. cbv zeta. rewrite O1, O2, DE. cbn [orb negb andb].
    assert (NB : e_base (getRegExp a) = noReg).
    { destruct (getRegExp_32 _ H) as ([->|(_ & B & _)] & _); [reflexivity|]. rewrite B in O1. discriminate. }
    rewrite NB. change (getIdx noReg &&& 7 =? 4) with false. cbn [Z.eqb].
    apply (sim_fnl tt). apply sim_bind; [apply sim_refl|intros _]. apply sim_retr. unfold VerifyInInt32.
    change (getDisp (widen_addr a)) with (w64 (s32 (e_disp (a_e a)))). rewrite int32_s32. apply sim_fnretr. rewrite w32_w64_s32. apply sim_refl.
  - rewrite MO, getRegExp_w by exact H. apply sim_setSIB; [now apply getRegExp_32|exact OO].
Qed.
End Basics.
