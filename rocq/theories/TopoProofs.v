(* Proofs for C45: family, cores, caches; Clock and Profiler. *)
From Coq Require Import ZArith List Bool String Ascii Lia.
From Verif Require Import Base Types Cpu SpecCpu CpuProofs CpuTopo SpecTopo.
Import ListNotations.
Open Scope Z_scope.

Lemma extract_field x lo hi : 0 <= lo -> lo <= hi -> hi - lo < 31 -> extractBit x lo hi = field x lo hi.
Proof.
  intros H0 H1 H2. unfold extractBit, field, w32.
  replace (hi + 1 - lo) with (hi - lo + 1) by lia.
  assert (P : 0 < 2 ^ (hi - lo + 1) < 4294967296).
  { split; [apply Z.pow_pos_nonneg; lia|]. change 4294967296 with (2 ^ 32). apply Z.pow_lt_mono_r; lia. }
  rewrite Z.shiftl_1_l, (Z.mod_small (2 ^ (hi - lo + 1))) by lia. rewrite Z.mod_small by lia.
  replace (2 ^ (hi - lo + 1) - 1) with (Z.ones (hi - lo + 1)) by (rewrite Z.ones_equiv; lia).
  rewrite Z.land_ones by lia. rewrite Z.shiftr_div_pow2 by lia. reflexivity.
Qed.
Lemma field_range x lo hi : lo <= hi -> 0 <= field x lo hi < 2 ^ (hi - lo + 1).
Proof. intros. unfold field. apply Z.mod_pos_bound. apply Z.pow_pos_nonneg; lia. Qed.

Lemma hasI_intel o : hasI o = intel o && negb (amd o).
Proof. unfold hasI. pose proof (plain_ok o) as H. unfold plain_rows in H. inversion H as [|? ? R ?]. exact R. Qed.
Lemma hasA_amd o : hasA o = amd o.
Proof. unfold hasA. pose proof (plain_ok o) as H. unfold plain_rows in H. inversion H as [|? ? ? H2]. inversion H2 as [|? ? R ?]. exact R. Qed.

Ltac ans o l s r := change (r (cpuid o l s)) with (answer o l s r).
Lemma EAX_answer o l s : EAX (cpuid o l s) = answer o l s A. Proof. reflexivity. Qed.
Lemma EBX_answer o l s : EBX (cpuid o l s) = answer o l s B. Proof. reflexivity. Qed.
Lemma ECX_answer o l s : ECX (cpuid o l s) = answer o l s C. Proof. reflexivity. Qed.
Lemma EDX_answer o l s : EDX (cpuid o l s) = answer o l s D. Proof. reflexivity. Qed.
Ltac answers := rewrite ?EAX_answer, ?EBX_answer, ?ECX_answer, ?EDX_answer.
Ltac fields := rewrite ?extract_field by lia.

Lemma family_ok o : displayFamily (setFamily o) = display_family o /\ displayModel (setFamily o) = display_model o
  /\ stepping (setFamily o) = field (answer o 1 0 A) 0 3.
Proof.
  unfold setFamily, display_family, display_model, fam. cbn [displayFamily displayModel stepping]. answers. fields.
  rewrite hasI_intel. rewrite Z.shiftl_mul_pow2 by lia. change (2 ^ 4) with 16.
  repeat split.
  destruct (field (answer o 1 0 A) 8 11 =? 15), (field (answer o 1 0 A) 8 11 =? 6), (intel o), (amd o); cbn [andb orb negb]; lia.
Qed.

(* ---- cores ---- *)
Lemma x2apic_cores o : intel o = true \/ amd o = true -> x2apic o ->
  exists n, setNumCores o = Val n /\ smt n = Z.max 1 (threads_per_core o) /\ core n = Z.max (smt n) (threads o)
  /\ 1 <= smt n <= core n.
Proof.
  intros V (M & B & T0 & T1). unfold setNumCores. rewrite hasI_intel, hasA_amd.
  replace (negb (intel o && negb (amd o)) && negb (amd o)) with false
    by (destruct V as [V|V]; rewrite V; destruct (amd o), (intel o); cbn in *; congruence).
  answers. change (0xB) with 11. fold (max_basic o).
  replace (11 <=? max_basic o) with true by (symmetry; apply Z.leb_le; exact M).
  replace (negb (answer o 11 0 A =? 0) || negb (answer o 11 0 SpecCpu.B =? 0)) with true
    by (destruct (Z.eqb_spec (answer o 11 0 A) 0), (Z.eqb_spec (answer o 11 0 SpecCpu.B) 0); cbn; try reflexivity; lia).
  cbn [andb].
  unfold levelB. answers. change 0xB with 11. fields. rewrite T0, T1.
  cbn [Z.eqb Pos.eqb smt core]. eexists. split; [reflexivity|]. cbn [smt core]. unfold threads_per_core, threads. lia.
Qed.
Lemma x2apic_queries n : 1 <= smt n <= core n ->
  getNumCores n 1 = Val (inl (smt n)) /\ getNumCores n 2 = Val (inl (core n / smt n)) /\ 1 <= core n / smt n
  /\ forall l, l <> 1 -> l <> 2 -> getNumCores n l = Val (inr ERR_X2APIC_IS_NOT_SUPPORTED).
Proof.
  intros H. unfold getNumCores, odiv. cbn [Z.eqb Pos.eqb obind].
  destruct (Z.eqb_spec (smt n) 0); [lia|]. cbn [obind]. repeat split.
  - apply Z.div_le_lower_bound; lia.
  - intros l H1 H2. destruct (Z.eqb_spec l 1); [lia|]. destruct (Z.eqb_spec l 2); [lia|]. reflexivity.
Qed.
(* without leaf 0Bh the construction is defined unless AMD's count of threads per unit exceeds the number of threads *)
Lemma cores_defined o : (amd o = true -> 0x8000001E <= max_ext o ->
    field (answer o 0x8000001E 0 B) 8 15 <= field (answer o 0x80000008 0 C) 0 7) -> exists n, setNumCores o = Val n /\ 0 <= smt n /\ 0 <= core n.
Proof.
  intros H. unfold setNumCores. rewrite hasI_intel, hasA_amd.
  destruct (negb (intel o && negb (amd o)) && negb (amd o)); [eexists; split; [reflexivity|cbn; lia]|].
  destruct ((_ <=? _) && _).
  { eexists. split; [reflexivity|]. cbn [smt core]. lia. }
  destruct (amd o) eqn:EA.
  - unfold coresAMD. answers. fields.
    pose proof (field_range (answer o 1 0 B) 16 23 ltac:(lia)) as RL.
    pose proof (field_range (answer o 0x80000008 0 C) 0 7 ltac:(lia)) as RP.
    pose proof (field_range (answer o 0x8000001E 0 B) 8 15 ltac:(lia)) as RT.
    destruct (field (answer o 1 0 D) 28 28 =? 0); [eexists; split; [reflexivity|cbn; lia]|].
    destruct (1 <? _) eqn:EP; [|eexists; split; [reflexivity|cbn [smt core]; destruct (1 <? field (answer o 1 0 B) 16 23); lia]].
    apply Z.ltb_lt in EP. destruct (Z.leb_spec 0x80000008 (answer o 0x80000000 0 A)); [|lia].
    fold (max_ext o) in *.
    destruct ((0x17 <=? displayFamily (setFamily o)) && (0x8000001E <=? max_ext o)) eqn:EZ.
    + apply andb_prop in EZ. destruct EZ as [_ EZ]. apply Z.leb_le in EZ. specialize (H eq_refl EZ).
      unfold odiv at 1. destruct (Z.eqb_spec (field (answer o 0x8000001E 0 B) 8 15 + 1) 0); [lia|]. cbn [obind].
      assert (1 <= (field (answer o 0x80000008 0 C) 0 7 + 1) / (field (answer o 0x8000001E 0 B) 8 15 + 1))
        by (apply Z.div_le_lower_bound; lia).
      unfold odiv. destruct (Z.eqb_spec ((field (answer o 0x80000008 0 C) 0 7 + 1) / (field (answer o 0x8000001E 0 B) 8 15 + 1)) 0); [lia|].
      cbn [obind]. eexists. split; [reflexivity|]. cbn [smt core]. split; [apply Z.div_pos; lia|lia].
    + cbn [obind]. unfold odiv. destruct (Z.eqb_spec (field (answer o 0x80000008 0 C) 0 7 + 1) 0); [lia|].
      cbn [obind]. eexists. split; [reflexivity|]. cbn [smt core]. split; [apply Z.div_pos; lia|lia].
  - unfold coresIntel. answers. fields.
    pose proof (field_range (answer o 1 0 B) 16 23 ltac:(lia)) as RL.
    pose proof (field_range (answer o 4 0 A) 26 31 ltac:(lia)) as RP.
    destruct (field (answer o 1 0 D) 28 28 =? 0); [eexists; split; [reflexivity|cbn; lia]|].
    destruct (1 <? _) eqn:EP; [|eexists; split; [reflexivity|cbn [smt core]; destruct (0 <? field (answer o 1 0 B) 16 23); lia]].
    unfold odiv. destruct (Z.eqb_spec (if 4 <=? answer o 0 0 A then field (answer o 4 0 A) 26 31 + 1 else 0) 0).
    + rewrite e in EP. discriminate.
    + cbn [obind]. eexists. split; [reflexivity|]. cbn [smt core]. apply Z.ltb_lt in EP. split; [apply Z.div_pos; lia|lia].
Qed.

(* ---- caches ---- *)
Definition pushAll (sz sh : Z -> Z) (c : Caches) (l : list Z) : Caches :=
  fold_left (fun c i => mkCaches (levels c + 1) (setAt (csize c) (levels c) (sz i)) (setAt (sharing c) (levels c) (sh i))) l c.
Lemma pushAll_levels sz sh l : forall c, levels (pushAll sz sh c l) = levels c + Z.of_nat (List.length l).
Proof. induction l; intros c; cbn [pushAll fold_left List.length]; [lia|]. fold (pushAll sz sh). unfold pushAll in IHl. rewrite IHl. cbn [levels]. lia. Qed.
Lemma pushAll_low sz sh l : forall c k, k < levels c -> csize (pushAll sz sh c l) k = csize c k /\ sharing (pushAll sz sh c l) k = sharing c k.
Proof.
  induction l; intros c k H; cbn [pushAll fold_left]; [auto|]. unfold pushAll in IHl.
  destruct (IHl (mkCaches (levels c + 1) (setAt (csize c) (levels c) (sz a)) (setAt (sharing c) (levels c) (sh a))) k) as [X Y]; [cbn [levels]; lia|].
  rewrite X, Y. cbn [csize sharing]. unfold setAt. destruct (Z.eqb_spec k (levels c)); [lia|auto].
Qed.
Lemma pushAll_nth sz sh l : forall c k i, nth_error l k = Some i ->
  csize (pushAll sz sh c l) (levels c + Z.of_nat k) = sz i /\ sharing (pushAll sz sh c l) (levels c + Z.of_nat k) = sh i.
Proof.
  induction l; intros c k i H; [destruct k; discriminate|].
  change (pushAll sz sh c (a :: l)) with (pushAll sz sh (mkCaches (levels c + 1) (setAt (csize c) (levels c) (sz a)) (setAt (sharing c) (levels c) (sh a))) l).
  destruct k as [|k]; cbn [nth_error] in H.
  - injection H as <-. edestruct (pushAll_low sz sh l (mkCaches (levels c + 1) (setAt (csize c) (levels c) (sz a)) (setAt (sharing c) (levels c) (sh a))) (levels c + Z.of_nat 0)) as [X Y];
      [cbn [levels]; lia|]. rewrite X, Y. cbn [csize sharing]. unfold setAt. destruct (Z.eqb_spec (levels c + Z.of_nat 0) (levels c)); [auto|lia].
  - specialize (IHl (mkCaches (levels c + 1) (setAt (csize c) (levels c) (sz a)) (setAt (sharing c) (levels c) (sh a))) k i H).
    cbn [levels] in IHl. replace (levels c + Z.of_nat (S k)) with (levels c + 1 + Z.of_nat k) by lia. exact IHl.
Qed.

Definition ishare (o : oracle) (n : Cores) (i : Z) : Z := Z.max 1 (Z.min (cache_threads o 4 i) (core n) / smt n).
Lemma wmul a b : w32 (w32 a * w32 b) = w32 (a * b).
Proof. unfold w32. rewrite <- Z.mul_mod by lia. reflexivity. Qed.
Lemma wmul4 a b c d : w32 (w32 (w32 (w32 a * w32 b) * w32 c) * w32 d) = w32 (a * b * c * d).
Proof. rewrite (wmul a b), (wmul (a * b) c), (wmul (a * b * c) d). reflexivity. Qed.
Lemma wmul_l a b : w32 (w32 a * b) = w32 (a * b).
Proof. unfold w32. rewrite Z.mul_mod_idemp_l by lia. reflexivity. Qed.
Lemma intel_loop o n : 1 <= smt n -> 1 <= core n -> forall m i c fuel, (m < fuel)%nat -> 0 <= i -> i + Z.of_nat m < 2147483647 ->
  0 <= levels c -> levels c + Z.of_nat (List.length (filter (is_data o 4) (zrange i m))) <= 10 ->
  ctype o 4 (i + Z.of_nat m) = 0 -> (forall j, i <= j < i + Z.of_nat m -> 1 <= ctype o 4 j <= 3) ->
  cachesIntel fuel o (core n) i (smt n) c = Val (pushAll (fun i => w32 (cache_bytes o 4 i)) (ishare o n) c (filter (is_data o 4) (zrange i m))).
Proof.
  intros Hs Hc. induction m as [|m IH]; intros i c fuel F I0 I1 L0 L1 E0 E1.
  - destruct fuel; [lia|]. cbn [cachesIntel zrange filter pushAll fold_left]. unfold maxNumberCacheLevels.
    destruct (levels c <? 10); [|reflexivity]. answers. fields. fold (ctype o 4 i).
    replace (i + Z.of_nat 0) with i in E0 by lia. rewrite E0. reflexivity.
  - destruct fuel as [|fuel]; [lia|].
    cbn [zrange filter] in *. cbn [cachesIntel]. unfold maxNumberCacheLevels.
    pose proof (E1 i ltac:(lia)) as Ti.
    assert (IH' : forall c', 0 <= levels c' -> levels c' + Z.of_nat (List.length (filter (is_data o 4) (zrange (i + 1) m))) <= 10 ->
      cachesIntel fuel o (core n) (i + 1) (smt n) c' = Val (pushAll (fun i => w32 (cache_bytes o 4 i)) (ishare o n) c' (filter (is_data o 4) (zrange (i + 1) m)))).
    { intros c' X Y. apply IH; try lia; [replace (i + 1 + Z.of_nat m) with (i + Z.of_nat (S m)) by lia; exact E0|intros j J; apply E1; lia]. }
    destruct (Z.ltb_spec (levels c) 10) as [Q|Q].
    + answers. fields. fold (ctype o 4 i). destruct (Z.eqb_spec (ctype o 4 i) 0); [lia|].
      unfold oint. destruct (Z.leb_spec (-2147483648) (i + 1)); [|lia]. destruct (Z.leb_spec (i + 1) 2147483647); [|lia]. cbn [andb obind].
      destruct (is_data o 4 i) eqn:D.
      * unfold is_data in D. rewrite D.
        destruct (Z.eqb_spec (core n) 0); [lia|]. cbn [negb].
        destruct (Z.eqb_spec (smt n) 0); [lia|]. rewrite andb_false_r. unfold odiv. destruct (Z.eqb_spec (smt n) 0); [lia|]. cbn [obind].
        unfold pushCache. unfold maxNumberCacheLevels. destruct (Z.leb_spec 0 (levels c)); [|lia]. destruct (Z.ltb_spec (levels c) 10); [|lia].
        cbn [andb obind]. rewrite IH'.
        2: { cbn [levels]. unfold w32. rewrite Z.mod_small; lia. }
        2: { cbn [levels List.length] in *. unfold w32. rewrite Z.mod_small; lia. }
        f_equal. cbn [pushAll fold_left]. unfold pushAll. f_equal. f_equal.
        -- unfold w32. rewrite Z.mod_small; lia.
        -- f_equal. unfold cache_bytes. apply wmul4.
        -- f_equal. unfold ishare, cache_threads. unfold w32.
           pose proof (field_range (answer o 4 i A) 14 25 ltac:(lia)) as R. change (2 ^ (25 - 14 + 1)) with 4096 in R. rewrite Z.mod_small by lia.
           rewrite Z.max_comm. f_equal. f_equal. destruct (Z.ltb_spec (field (answer o 4 i A) 14 25 + 1) (core n)); lia.
      * unfold is_data in D. rewrite D. apply IH'; lia.
    + destruct (is_data o 4 i); cbn [List.length] in L1; [lia|].
      assert (Z0 : filter (is_data o 4) (zrange (i + 1) m) = []) by (destruct (filter (is_data o 4) (zrange (i + 1) m)); [reflexivity|cbn [List.length] in L1; lia]).
      rewrite Z0. reflexivity.
Qed.
Lemma intel_caches o n m fuel : intel o = true -> amd o = false -> 1 <= smt n -> 1 <= core n ->
  listed o 4 m -> (List.length (data_caches o 4 m) <= 10)%nat -> (m < fuel)%nat -> Z.of_nat m < 2147483647 ->
  exists c, setCacheHierarchy fuel o n = Val c /\ levels c = Z.of_nat (List.length (data_caches o 4 m))
  /\ forall k i, nth_error (data_caches o 4 m) k = Some i ->
       getDataCacheSize c (Z.of_nat k) = Val (inl (cache_bytes o 4 i mod 2 ^ 32))
       /\ getCoresSharingDataCache c (Z.of_nat k) = Val (inl (Z.max 1 (Z.min (cache_threads o 4 i) (core n) / smt n))).
Proof.
  intros HI HA Hs Hc [E0 E1] L F M. unfold setCacheHierarchy. rewrite hasA_amd, HA, hasI_intel, HI, HA. cbn [andb negb].
  rewrite (intel_loop o n Hs Hc m 0 noCaches fuel); try lia; [|cbn [levels noCaches]; lia|cbn [levels noCaches]; unfold data_caches in L; lia|exact E0|intros; apply E1; lia].
  eexists. split; [reflexivity|].
  pose proof (pushAll_levels (fun i => w32 (cache_bytes o 4 i)) (ishare o n) (data_caches o 4 m) noCaches) as PL. cbn [levels noCaches] in PL.
  split; [exact PL|]. intros k i K.
  assert (KL : (k < List.length (data_caches o 4 m))%nat) by (apply nth_error_Some; congruence).
  destruct (pushAll_nth (fun i => w32 (cache_bytes o 4 i)) (ishare o n) (data_caches o 4 m) noCaches k i K) as [X Y].
  change (levels noCaches + Z.of_nat k) with (Z.of_nat k) in X, Y.
  unfold getDataCacheSize, getCoresSharingDataCache, rdArray, maxNumberCacheLevels. unfold data_caches in *. rewrite PL.
  destruct (Z.leb_spec (0 + Z.of_nat (List.length (filter (is_data o 4) (zrange 0 m)))) (Z.of_nat k)); [lia|].
  destruct (Z.leb_spec 0 (Z.of_nat k)); [|lia]. destruct (Z.ltb_spec (Z.of_nat k) 10); [|lia]. cbn [andb obind].
  rewrite X, Y. split; reflexivity.
Qed.

(* ---- AMD, leaf 8000001Dh ---- *)
Definition ashare (o : oracle) (n : Cores) (s0 i : Z) : Z :=
  if 0 <? i then Z.min (cache_threads o 0x8000001D i) (core n) / s0 else cache_threads o 0x8000001D i.
Lemma oint_ok x : 0 <= x < 2 ^ 31 -> oint x = Val x.
Proof. intros H. change (2 ^ 31) with 2147483648 in H. unfold oint. destruct (Z.leb_spec (-2147483648) x); [|lia]. destruct (Z.leb_spec x 2147483647); [reflexivity|lia]. Qed.
Lemma s32_small x : 0 <= x < 2147483648 -> s32 x = x.
Proof. intros H. unfold s32, w32. rewrite Z.mod_small by lia. destruct (Z.ltb_spec x 2147483648); lia. Qed.
Lemma amd_loop o n s0 : 1 <= core n < 2 ^ 31 -> 1 <= s0 -> forall m i c fuel, (m < fuel)%nat -> 0 <= i -> i + Z.of_nat m < 2147483647 ->
  1 <= levels c -> sharing c 0 = s0 ->
  levels c + Z.of_nat (List.length (filter (is_data o 0x8000001D) (zrange i m))) <= 10 -> 0 < i ->
  ctype o 0x8000001D (i + Z.of_nat m) = 0 -> (forall j, i <= j < i + Z.of_nat m -> 1 <= ctype o 0x8000001D j <= 3) ->
  (forall j, i <= j < i + Z.of_nat m -> is_data o 0x8000001D j = true -> no_overflow o j /\ assoc_ok o j) ->
  cachesAMD fuel o n i c
  = Val (pushAll (fun i => w32 (cache_bytes o 0x8000001D i)) (ashare o n s0) c (filter (is_data o 0x8000001D) (zrange i m))).
Proof.
  intros Hc Hs. change (2 ^ 31) with 2147483648 in Hc. induction m as [|m IH]; intros i c fuel F I0 I1 L0 S0 L1 IP E0 E1 E2.
  - destruct fuel; [lia|]. cbn [cachesAMD zrange filter pushAll fold_left]. unfold maxNumberCacheLevels.
    destruct (levels c <? 10); [|reflexivity]. answers. fields. fold (ctype o 0x8000001D i).
    replace (i + Z.of_nat 0) with i in E0 by lia. rewrite E0. reflexivity.
  - destruct fuel as [|fuel]; [lia|].
    cbn [zrange filter] in *. cbn [cachesAMD]. unfold maxNumberCacheLevels.
    pose proof (E1 i ltac:(lia)) as Ti. pose proof (E2 i ltac:(lia)) as Oi.
    assert (IH' : forall c', 1 <= levels c' -> sharing c' 0 = s0 -> levels c' + Z.of_nat (List.length (filter (is_data o 0x8000001D) (zrange (i + 1) m))) <= 10 ->
      cachesAMD fuel o n (i + 1) c' = Val (pushAll (fun i => w32 (cache_bytes o 0x8000001D i)) (ashare o n s0) c' (filter (is_data o 0x8000001D) (zrange (i + 1) m)))).
    { intros c' X X2 Y. apply IH; try lia; [replace (i + 1 + Z.of_nat m) with (i + Z.of_nat (S m)) by lia; exact E0|intros j J; apply E1; lia|intros j J; apply E2; lia]. }
    destruct (Z.ltb_spec (levels c) 10) as [Q|Q].
    + answers. fields. fold (ctype o 0x8000001D i). destruct (Z.eqb_spec (ctype o 0x8000001D i) 0); [lia|].
      assert (W : w32 (i + 1) = i + 1) by (unfold w32; rewrite Z.mod_small; lia). rewrite W.
      destruct (is_data o 0x8000001D i) eqn:D.
      * destruct (Oi eq_refl) as [NO AO]. unfold is_data in D.
        destruct (Z.eqb_spec (ctype o 0x8000001D i) 2) as [T2|T2]; [rewrite T2 in D; discriminate|].
        unfold no_overflow in NO. unfold assoc_ok in AO.
        pose proof (field_range (answer o 0x8000001D i B) 22 31 ltac:(lia)) as R1.
        pose proof (field_range (answer o 0x8000001D i B) 12 21 ltac:(lia)) as R2.
        pose proof (field_range (answer o 0x8000001D i B) 0 11 ltac:(lia)) as R3.
        pose proof (field_range (answer o 0x8000001D i A) 14 25 ltac:(lia)) as R4.
        change (2 ^ (25 - 14 + 1)) with 4096 in R4.
        set (w := field (answer o 0x8000001D i B) 22 31 + 1) in *. set (p := field (answer o 0x8000001D i B) 12 21 + 1) in *.
        set (l := field (answer o 0x8000001D i B) 0 11 + 1) in *. set (t := field (answer o 0x8000001D i A) 14 25 + 1) in *.
        assert (1 <= w /\ 1 <= p /\ 1 <= l) by lia.
        assert (l * p <= w * p * l) by nia. assert (1 <= l * p) by nia.
        rewrite (oint_ok (l * p)) by lia. cbn [obind].
        rewrite (oint_ok (l * p * w)) by (split; nia). cbn [obind].
        destruct (Z.ltb_spec 0 i); [|lia]. rewrite (s32_small (core n)) by lia.
        replace (if t <? core n then t else core n) with (Z.min t (core n)) by (destruct (Z.ltb_spec t (core n)); lia).
        rewrite S0. rewrite (Z.max_r 1 s0) by lia.
        unfold odiv. destruct (Z.eqb_spec s0 0); [lia|]. cbn [obind].
        assert (WM : w32 (Z.min t (core n)) = Z.min t (core n)) by (unfold w32; rewrite Z.mod_small; lia). rewrite WM.
        assert (DB : 0 <= Z.min t (core n) / s0 <= Z.min t (core n)) by (split; [apply Z.div_pos; lia|apply Z.div_le_upper_bound; nia]).
        rewrite (s32_small (Z.min t (core n) / s0)) by lia. cbn [obind].
        unfold pushCache, maxNumberCacheLevels. destruct (Z.leb_spec 0 (levels c)); [|lia]. destruct (Z.ltb_spec (levels c) 10); [|lia].
        cbn [andb obind].
        assert (WL : w32 (levels c + 1) = levels c + 1) by (unfold w32; rewrite Z.mod_small; lia). rewrite WL.
        rewrite IH'.
        2: { cbn [levels]. lia. }
        2: { cbn [sharing]. unfold setAt. destruct (Z.eqb_spec 0 (levels c)); [lia|exact S0]. }
        2: { cbn [levels List.length] in *. lia. }
        f_equal. cbn [pushAll fold_left]. unfold pushAll. f_equal. f_equal.
        -- f_equal. unfold cache_bytes. fold w p l. destruct (Z.eqb_spec (field (answer o 0x8000001D i A) 9 9) 0) as [Z9|Z9].
           ++ unfold s32. destruct (w32 (answer o 0x8000001D i C + 1) <? 2147483648).
              ** unfold w32. rewrite Z.mod_mod by lia. rewrite Z.mul_mod_idemp_r by lia. f_equal. ring.
              ** unfold w32. rewrite Zminus_mod, Z.mod_mod, Z.mod_same, Z.sub_0_r, Z.mod_mod, Z.mul_mod_idemp_r by lia. f_equal. ring.
           ++ rewrite (AO Z9). unfold w32. rewrite Z.mod_small by nia. ring.
        -- f_equal. unfold ashare, cache_threads. fold t. destruct (Z.ltb_spec 0 i); [|lia]. unfold w32. rewrite Z.mod_small; lia.
      * unfold is_data in D. destruct (Z.eqb_spec (ctype o 0x8000001D i) 2) as [T2|T2]; [apply IH'; lia|].
        apply orb_false_iff in D. destruct D as [D1 D2]. apply Z.eqb_neq in D1, D2. lia.
    + destruct (is_data o 0x8000001D i); cbn [List.length] in L1; [lia|].
      assert (Z0 : filter (is_data o 0x8000001D) (zrange (i + 1) m) = []) by (destruct (filter (is_data o 0x8000001D) (zrange (i + 1) m)); [reflexivity|cbn [List.length] in L1; lia]).
      rewrite Z0. reflexivity.
Qed.
Lemma amd_first o n fuel : is_data o 0x8000001D 0 = true -> no_overflow o 0 -> assoc_ok o 0 ->
  cachesAMD (S fuel) o n 0 noCaches = cachesAMD fuel o n 1 (mkCaches 1 (setAt (fun _ => 0) 0 (w32 (cache_bytes o 0x8000001D 0)))
    (setAt (fun _ => 0) 0 (cache_threads o 0x8000001D 0))).
Proof.
  intros D NO AO. cbn [cachesAMD levels noCaches]. unfold maxNumberCacheLevels. change (0 <? 10) with true.
  answers. fields. fold (ctype o 0x8000001D 0). unfold is_data in D.
  destruct (Z.eqb_spec (ctype o 0x8000001D 0) 0) as [T0|T0]; [rewrite T0 in D; discriminate|].
  destruct (Z.eqb_spec (ctype o 0x8000001D 0) 2) as [T2|T2]; [rewrite T2 in D; discriminate|].
  unfold no_overflow in NO. unfold assoc_ok in AO.
  pose proof (field_range (answer o 0x8000001D 0 B) 22 31 ltac:(lia)) as R1.
  pose proof (field_range (answer o 0x8000001D 0 B) 12 21 ltac:(lia)) as R2.
  pose proof (field_range (answer o 0x8000001D 0 B) 0 11 ltac:(lia)) as R3.
  pose proof (field_range (answer o 0x8000001D 0 A) 14 25 ltac:(lia)) as R4.
  change (2 ^ (25 - 14 + 1)) with 4096 in R4.
  set (w := field (answer o 0x8000001D 0 B) 22 31 + 1) in *. set (p := field (answer o 0x8000001D 0 B) 12 21 + 1) in *.
  set (l := field (answer o 0x8000001D 0 B) 0 11 + 1) in *. set (t := field (answer o 0x8000001D 0 A) 14 25 + 1) in *.
  assert (1 <= w /\ 1 <= p /\ 1 <= l) by lia.
  assert (l * p <= w * p * l) by nia. assert (1 <= l * p) by nia.
  rewrite (oint_ok (l * p)) by lia. cbn [obind].
  rewrite (oint_ok (l * p * w)) by (split; nia). cbn [obind].
  change (0 <? 0) with false. cbn [obind]. unfold pushCache, maxNumberCacheLevels, noCaches. cbn [levels csize sharing]. change ((0 <=? 0) && (0 <? 10)) with true. cbn [obind].
  change (w32 (0 + 1)) with 1. match goal with |- cachesAMD _ _ _ _ ?a = cachesAMD _ _ _ _ ?b => assert (XX : a = b); [|rewrite XX; reflexivity] end. f_equal.
  - f_equal. unfold cache_bytes. fold w p l. destruct (Z.eqb_spec (field (answer o 0x8000001D 0 A) 9 9) 0) as [Z9|Z9].
    + unfold s32. destruct (w32 (answer o 0x8000001D 0 C + 1) <? 2147483648).
      * unfold w32. rewrite Z.mod_mod by lia. rewrite Z.mul_mod_idemp_r by lia. f_equal. ring.
      * unfold w32. rewrite Zminus_mod, Z.mod_mod, Z.mod_same, Z.sub_0_r, Z.mod_mod, Z.mul_mod_idemp_r by lia. f_equal. ring.
    + rewrite (AO Z9). unfold w32. rewrite Z.mod_small by nia. ring.
  - f_equal. unfold cache_threads. fold t. unfold w32. rewrite Z.mod_small; lia.
Qed.
Lemma amd_caches o n m fuel : amd o = true -> 0x8000001D <= max_ext o -> 1 <= core n < 2 ^ 31 ->
  listed o 0x8000001D m -> is_data o 0x8000001D 0 = true -> (List.length (data_caches o 0x8000001D m) <= 10)%nat ->
  (forall i, 0 <= i < Z.of_nat m -> is_data o 0x8000001D i = true -> no_overflow o i /\ assoc_ok o i) ->
  (m < fuel)%nat -> Z.of_nat m < 2147483647 ->
  exists c, setCacheHierarchy fuel o n = Val c /\ levels c = Z.of_nat (List.length (data_caches o 0x8000001D m))
  /\ forall k i, nth_error (data_caches o 0x8000001D m) k = Some i ->
       getDataCacheSize c (Z.of_nat k) = Val (inl (cache_bytes o 0x8000001D i mod 2 ^ 32))
       /\ getCoresSharingDataCache c (Z.of_nat k)
          = Val (inl (if Nat.eqb k 0 then 1 else Z.min (cache_threads o 0x8000001D i) (core n) / cache_threads o 0x8000001D 0)).
Proof.
  intros HA HX Hc [E0 E1] D L OK F M. unfold setCacheHierarchy. rewrite hasA_amd, HA. answers. fold (max_ext o).
  destruct (Z.leb_spec 0x8000001D (max_ext o)); [|lia].
  destruct m as [|m]; [change (Z.of_nat 0) with 0 in E0; unfold is_data in D; rewrite E0 in D; discriminate|].
  destruct fuel as [|fuel]; [lia|]. destruct (OK 0 ltac:(lia) D) as [NO AO].
  rewrite (amd_first o n fuel D NO AO).
  assert (T0 : 1 <= cache_threads o 0x8000001D 0 < 2 ^ 31).
  { unfold cache_threads. pose proof (field_range (answer o 0x8000001D 0 A) 14 25 ltac:(lia)) as R4. change (2 ^ (25 - 14 + 1)) with 4096 in R4.
    change (2 ^ 31) with 2147483648. lia. }
  set (c1 := mkCaches 1 _ _). unfold data_caches in *. cbn [zrange filter] in *. rewrite D in *. cbn [List.length] in L. change (0 + 1) with 1 in *.
  rewrite (amd_loop o n (cache_threads o 0x8000001D 0) Hc (proj1 T0) m 1 c1 fuel); try lia; try reflexivity; try (unfold c1; cbn [levels]; lia).
  2: { replace (1 + Z.of_nat m) with (Z.of_nat (S m)) by lia. exact E0. }
  2: { intros j J. apply E1. lia. }
  2: { intros j J. apply OK. lia. }
  cbn [obind]. eexists. split; [reflexivity|]. cbn [levels].
  set (dl := filter (is_data o 0x8000001D) (zrange 1 m)) in *. set (sz := fun i : Z => w32 (cache_bytes o 2147483677 i)).
  pose proof (pushAll_levels sz (ashare o n (cache_threads o 0x8000001D 0)) dl c1) as PL. unfold c1 in PL at 2. cbn [levels] in PL.
  split; [rewrite PL; cbn [List.length]; lia|]. intros k i K.
  assert (KL : (k < S (List.length dl))%nat) by (change (S (List.length dl)) with (List.length (0 :: dl)); apply nth_error_Some; congruence).
  unfold getDataCacheSize, getCoresSharingDataCache, rdArray, maxNumberCacheLevels. cbn [levels csize sharing]. rewrite PL.
  destruct (Z.leb_spec (1 + Z.of_nat (List.length dl)) (Z.of_nat k)); [lia|].
  destruct (Z.leb_spec 0 (Z.of_nat k)); [|lia]. destruct (Z.ltb_spec (Z.of_nat k) 10); [|lia]. cbn [andb obind].
  destruct k as [|k]; cbn [nth_error Nat.eqb] in K |- *.
  - injection K as <-. destruct (pushAll_low sz (ashare o n (cache_threads o 0x8000001D 0)) dl c1 0) as [X Y]; [unfold c1; cbn [levels]; lia|].
    change (Z.of_nat 0) with 0. unfold setAt at 1. cbn [Z.eqb]. rewrite X, Y. unfold c1. cbn [csize sharing]. unfold setAt. cbn [Z.eqb].
    split; [reflexivity|]. destruct (Z.ltb_spec 1 (cache_threads o 0x8000001D 0)); [reflexivity|]. do 2 f_equal. lia.
  - destruct (pushAll_nth sz (ashare o n (cache_threads o 0x8000001D 0)) dl c1 k i K) as [X Y].
    unfold c1 in X at 2, Y at 2. cbn [levels] in X, Y. replace (1 + Z.of_nat k) with (Z.of_nat (S k)) in X, Y by lia.
    unfold setAt at 1. destruct (Z.eqb_spec (Z.of_nat (S k)) 0); [lia|]. rewrite X, Y. split; [reflexivity|].
    unfold ashare. destruct (Z.ltb_spec 0 i) as [|I0]; [reflexivity|]. exfalso.
    apply nth_error_In in K. unfold dl in K. apply filter_In in K. destruct K as [K _].
    assert (ZR : forall m i j, In j (zrange i m) -> i <= j) by (clear; induction m as [|m IH]; intros i j H; cbn [zrange In] in H; [tauto|destruct H as [->|H]; [lia|apply IH in H; lia]]).
    apply ZR in K. lia.
Qed.
(* ---- AMD, leaves 80000005h and 80000006h ---- *)
Lemma old_amd_caches o fuel n : amd o = true -> 0x80000006 <= max_ext o < 0x8000001D ->
  (forall x, amd_l3 o = Some x -> x < 2 ^ 31) ->
  exists c, setCacheHierarchy fuel o n = Val c
  /\ levels c = (match amd_l3 o with Some _ => 3 | None => match amd_l2 o with Some _ => 2 | None => 1 end end)
  /\ csize c 0 = amd_l1 o /\ csize c 1 = (match amd_l2 o with Some x => x | None => 0 end)
  /\ csize c 2 = (match amd_l3 o with Some x => x | None => 0 end).
Proof.
  intros HA HX H3. unfold setCacheHierarchy. rewrite hasA_amd, HA. answers. fold (max_ext o).
  destruct (Z.leb_spec 0x8000001D (max_ext o)); [lia|]. destruct (Z.leb_spec 0x80000006 (max_ext o)); [|lia].
  unfold cachesOldAMD. answers. fields. unfold amd_l1, amd_l2, amd_l3 in *.
  pose proof (field_range (answer o 0x80000005 0 C) 24 31 ltac:(lia)) as R1. change (2 ^ (31 - 24 + 1)) with 256 in R1.
  pose proof (field_range (answer o 0x80000006 0 C) 12 15 ltac:(lia)) as R2.
  pose proof (field_range (answer o 0x80000006 0 C) 16 31 ltac:(lia)) as R3. change (2 ^ (31 - 16 + 1)) with 65536 in R3.
  pose proof (field_range (answer o 0x80000006 0 D) 12 15 ltac:(lia)) as R4.
  pose proof (field_range (answer o 0x80000006 0 D) 18 31 ltac:(lia)) as R5. change (2 ^ (31 - 18 + 1)) with 16384 in R5.
  rewrite oint_ok by (change (2 ^ 31) with 2147483648; lia). cbn [obind].
  destruct (Z.eqb_spec (field (answer o 0x80000006 0 C) 12 15) 0) as [X2|X2].
  - rewrite X2. change (0 <? 0) with false. cbn [obind].
    destruct (Z.eqb_spec (field (answer o 0x80000006 0 D) 12 15) 0) as [X3|X3].
    + rewrite X3. change (0 <? 0) with false. eexists. split; [reflexivity|]. repeat split; reflexivity.
    + destruct (Z.ltb_spec 0 (field (answer o 0x80000006 0 D) 12 15)); [|lia]. specialize (H3 _ eq_refl). change (2 ^ 31) with 2147483648 in H3.
      rewrite oint_ok by (change (2 ^ 31) with 2147483648; lia). cbn [obind]. rewrite oint_ok by (change (2 ^ 31) with 2147483648; lia). cbn [obind].
      eexists. split; [reflexivity|]. repeat split; reflexivity.
  - destruct (Z.ltb_spec 0 (field (answer o 0x80000006 0 C) 12 15)); [|lia]. rewrite oint_ok by (change (2 ^ 31) with 2147483648; lia). cbn [obind].
    destruct (Z.eqb_spec (field (answer o 0x80000006 0 D) 12 15) 0) as [X3|X3].
    + rewrite X3. change (0 <? 0) with false. eexists. split; [reflexivity|]. repeat split; reflexivity.
    + destruct (Z.ltb_spec 0 (field (answer o 0x80000006 0 D) 12 15)); [|lia]. specialize (H3 _ eq_refl). change (2 ^ 31) with 2147483648 in H3.
      rewrite oint_ok by (change (2 ^ 31) with 2147483648; lia). cbn [obind]. rewrite oint_ok by (change (2 ^ 31) with 2147483648; lia). cbn [obind].
      eexists. split; [reflexivity|]. repeat split; reflexivity.
Qed.

(* ---- the arrays are never left, whatever the processor answers ---- *)
Definition lev_ok (c : Caches) : Prop := 0 <= levels c <= 10.
Lemma push_ok c a b c' : lev_ok c -> pushCache c a b = Val c' -> lev_ok c'.
Proof.
  unfold lev_ok, pushCache, maxNumberCacheLevels. intros H E. destruct (Z.leb_spec 0 (levels c)); [|discriminate]. destruct (Z.ltb_spec (levels c) 10); [|discriminate].
  injection E as <-. cbn [levels]. unfold w32. rewrite Z.mod_small; lia.
Qed.
Lemma intel_lev fuel : forall o l i w c c', lev_ok c -> cachesIntel fuel o l i w c = Val c' -> lev_ok c'.
Proof.
  induction fuel as [|fuel IH]; intros o l i w c c' H; cbn [cachesIntel]; destruct (levels c <? maxNumberCacheLevels); intros E;
    try discriminate; try (injection E as <-; exact H).
  destruct (_ =? 0) in E; [injection E as <-; exact H|].
  destruct (oint (i + 1)); cbn [obind] in E; try discriminate.
  destruct (_ || _) in E; [|eapply IH; eassumption].
  destruct (odiv _ _) in E; cbn [obind] in E; try discriminate.
  destruct (pushCache c _ _) eqn:P in E; cbn [obind] in E; try discriminate.
  eapply IH; [|exact E]. eapply push_ok; eassumption.
Qed.
Lemma amd_lev fuel : forall o n i c c', lev_ok c -> cachesAMD fuel o n i c = Val c' -> lev_ok c'.
Proof.
  induction fuel as [|fuel IH]; intros o n i c c' H; cbn [cachesAMD]; destruct (levels c <? maxNumberCacheLevels); intros E;
    try discriminate; try (injection E as <-; exact H).
  destruct (_ =? 0) in E; [injection E as <-; exact H|].
  destruct (_ =? 2) in E; [eapply IH; eassumption|].
  destruct (oint _) in E; cbn [obind] in E; try discriminate.
  destruct (oint _) in E; cbn [obind] in E; try discriminate.
  match type of E with obind ?m _ = _ => destruct m; cbn [obind] in E; try discriminate end.
  destruct (pushCache c _ _) eqn:P in E; cbn [obind] in E; try discriminate.
  eapply IH; [|exact E]. eapply push_ok; eassumption.
Qed.
Lemma caches_lev fuel o n c : setCacheHierarchy fuel o n = Val c -> lev_ok c.
Proof.
  assert (N : lev_ok noCaches) by (unfold lev_ok; cbn; lia).
  unfold setCacheHierarchy. destruct (hasA o).
  - destruct (_ <=? _).
    + destruct (cachesAMD fuel o n 0 noCaches) eqn:E; cbn [obind]; intros X; try discriminate. injection X as <-. unfold lev_ok. cbn [levels].
      eapply amd_lev; [exact N|exact E].
    + destruct (_ <=? _); [|intros X; injection X as <-; exact N]. unfold cachesOldAMD. intros X.
      repeat match type of X with
      | context [oint ?a] => destruct (oint a); cbn [obind] in X; try discriminate
      | context [if ?b then _ else _] => destruct b; cbn [obind] in X; try discriminate
      end; injection X as <-; unfold lev_ok; cbn [levels]; lia.
  - destruct (hasI o); [|intros X; injection X as <-; exact N]. intros X. eapply intel_lev; [exact N|exact X].
Qed.
Lemma cache_queries fuel o n c i : setCacheHierarchy fuel o n = Val c -> 0 <= i ->
  (i < levels c -> getDataCacheSize c i = Val (inl (csize c i)) /\ getCoresSharingDataCache c i = Val (inl (sharing c i)))
  /\ (levels c <= i -> getDataCacheSize c i = Val (inr ERR_BAD_PARAMETER) /\ getCoresSharingDataCache c i = Val (inr ERR_BAD_PARAMETER)).
Proof.
  intros H I0. apply caches_lev in H. unfold lev_ok in H. unfold getDataCacheSize, getCoresSharingDataCache, rdArray, maxNumberCacheLevels.
  split; intros L; destruct (Z.leb_spec (levels c) i); try lia; [|auto].
  destruct (Z.leb_spec 0 i); [|lia]. destruct (Z.ltb_spec i 10); [|lia]. auto.
Qed.

(* ---- Clock ---- *)
Definition pairs (l : list (Z * Z)) : list clockOp := flat_map (fun p => [Begin (fst p); End_ (snd p)]) l.
Lemma clock_ok l : forall c, 0 <= clock_ c < 2 ^ 64 -> 0 <= count_ c -> count_ c + Z.of_nat (List.length l) < 2 ^ 31 ->
  clockRun c (pairs l) = Val (mkClock ((clock_ c + time_of l) mod 2 ^ 64) (count_ c + Z.of_nat (List.length l))).
Proof.
  induction l as [|[b e] l IH]; intros c H0 H1 H2; cbn [pairs flat_map app clockRun List.length time_of fold_right] in *.
  - rewrite !Z.add_0_r, Z.mod_small by lia. destruct c; reflexivity.
  - cbn [clockStep obind fst snd clock_ count_]. rewrite oint_ok by lia. cbn [obind]. fold (pairs l). rewrite IH; cbn [clock_ count_]; try lia.
    + f_equal. f_equal; [|lia]. unfold w64. change 18446744073709551616 with (2 ^ 64). fold (time_of l).
      rewrite Zplus_mod_idemp_l. rewrite <- Z.add_assoc. rewrite Zplus_mod_idemp_l. f_equal. ring.
    + apply Z.mod_pos_bound. reflexivity.
Qed.

(* ---- Profiler: consecutive calls of set(name, end) give the adjacent ranges between the given addresses ---- *)
Definition prof_run (p : Profiler) (l : list (string * Z)) : Profiler := fold_left (fun p x => profSetEnd p (fst x) (snd x)) l p.
Lemma slen_app a b : String.length (a ++ b)%string = (String.length a + String.length b)%nat.
Proof. induction a; cbn [String.append String.length]; [reflexivity|]. rewrite IHa. reflexivity. Qed.
Lemma slen_und n : String.length (underscores n) = n.
Proof. induction n; cbn [underscores String.length]; congruence. Qed.
Lemma profiler_ok l : forall p, pf_perf p = true -> pf_open p = true -> 0 <= pf_start p -> increasing (pf_start p) l -> (forall x, In x l -> snd x < 2 ^ 64) ->
  exists t, pf_lines (prof_run p l) = pf_lines p ++ t /\ List.length t = List.length l
  /\ Forall (line_ok (pf_suffix p)) (combine (combine l (ranges (pf_start p) l)) t).
Proof.
  induction l as [|[nm e] l IH]; intros p P O S0 I B; cbn [prof_run fold_left].
  - exists []. rewrite app_nil_r. repeat split. constructor.
  - cbn [increasing] in I. destruct I as [I1 I2]. cbn [fst snd]. pose proof (B (nm, e) (or_introl eq_refl)) as Be. cbn [snd] in Be.
    set (q := profSetEnd p nm e).
    assert (Q : pf_perf q = true /\ pf_open q = true /\ pf_suffix q = pf_suffix p /\ pf_start q = e
      /\ pf_lines q = pf_lines p ++ [(pf_start p, e - pf_start p, ((nm ++ pf_suffix p) ++ underscores (3 - String.length (nm ++ pf_suffix p)))%string)]).
    { unfold q, profSetEnd, profSet. rewrite P, O. cbn [profStart pf_perf pf_open pf_suffix pf_start pf_lines].
      replace (w64 (e - pf_start p)) with (e - pf_start p); [auto|]. unfold w64. change 18446744073709551616 with (2 ^ 64). rewrite Z.mod_small; lia. }
    destruct Q as (Q1 & Q2 & Q3 & Q4 & Q5).
    destruct (IH q) as (t & T1 & T2 & T3); auto; try (rewrite Q4; first [lia|exact I2]). { intros x X. apply B. right. exact X. }
    unfold prof_run in T1. rewrite T1, Q5, <- app_assoc. cbn [app]. eexists. split; [reflexivity|]. split; [cbn [List.length]; rewrite T2; reflexivity|].
    cbn [ranges combine]. constructor.
    + cbn [line_ok]. repeat split; [|eexists; reflexivity]. rewrite slen_app, slen_und. lia.
    + rewrite Q3, Q4 in T3. exact T3.
Qed.
