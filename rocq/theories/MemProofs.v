(* Proofs for C25, C36, C37. *)
From Coq Require Import ZArith List Bool Lia Znumtheory.
From Verif Require Import Base Types Emit Encode SpecX86 Mmap SpecPage EmitFacts MemFacts.
Import ListNotations.
Open Scope Z_scope.

(* ---- powers of two ---- *)
Lemma pow2_land x : 0 < x -> (x &&& (x - 1) = 0 <-> pow2 x).
Proof.
  intros Hx. split.
  - intros H. exists (Z.log2 x). split; [apply Z.log2_nonneg|].
    destruct (Z.log2_spec x Hx) as [L U]. set (k := Z.log2 x) in *. assert (K : 0 <= k) by apply Z.log2_nonneg.
    destruct (Z.eq_dec x (2 ^ k)) as [E|E]; [exact E|exfalso].
    assert (B1 : Z.testbit x k = true).
    { apply Z.testbit_true; auto. rewrite Z.pow_succ_r in U by auto. replace (x / 2 ^ k) with 1; [reflexivity|]. apply Z.div_unique with (r := x - 2 ^ k); lia. }
    assert (B2 : Z.testbit (x - 1) k = true).
    { apply Z.testbit_true; auto. rewrite Z.pow_succ_r in U by auto. replace ((x - 1) / 2 ^ k) with 1; [reflexivity|]. apply Z.div_unique with (r := x - 1 - 2 ^ k); lia. }
    assert (B : Z.testbit (x &&& (x - 1)) k = true) by (rewrite Z.land_spec, B1, B2; reflexivity).
    rewrite H, Z.bits_0 in B. discriminate.
  - intros (k & K & ->). replace (2 ^ k - 1) with (Z.ones k) by (rewrite Z.ones_equiv; lia).
    rewrite Z.land_ones by auto. apply Z_mod_same_full.
Qed.
Lemma pow2_pos x : pow2 x -> 0 < x. Proof. intros (k & K & ->). apply Z.pow_pos_nonneg; lia. Qed.
(* x &&& ~(2^k - 1) in 64 bits *)
Lemma mask_pow2 a x : pow2 x -> x <= 2 ^ 64 -> 0 <= a < 2 ^ 64 -> a &&& not64 (w64 (x - 1)) = a - a mod x.
Proof.
  intros (k & K & ->) L A. assert (P : 0 < 2 ^ k) by (apply Z.pow_pos_nonneg; lia).
  assert (Kl : k <= 64) by (apply (Z.pow_le_mono_r_iff 2); lia).
  unfold not64, w64. change 18446744073709551616 with (2 ^ 64). rewrite (Z.mod_small (2 ^ k - 1)) by lia.
  replace (2 ^ k - 1) with (Z.ones k) by (rewrite Z.ones_equiv; lia).
  rewrite <- Z.land_ones by lia. rewrite (Z.land_comm (Z.lnot _)), Z.land_assoc, (Z.land_ones a 64) by lia. rewrite Z.mod_small by lia.
  rewrite <- Z.ldiff_land, Z.ldiff_ones_r by lia. rewrite Z.shiftr_div_pow2, Z.shiftl_mul_pow2 by lia. pose proof (Z.div_mod a (2 ^ k)). lia.
Qed.

(* ---- C36 ---- *)
Lemma aligned_address addr x : pow2 x -> 0 <= addr -> addr + x <= 2 ^ 64 ->
  let r := getAlignedAddress addr x in
  r mod x = 0 /\ addr <= r /\ forall b, b mod x = 0 -> addr <= b -> r <= b.
Proof.
  intros P A L. pose proof (pow2_pos _ P) as Px. unfold getAlignedAddress.
  assert (E : w64 (w64 (addr + x) - 1) = addr + x - 1).
  { unfold w64. change 18446744073709551616 with (2 ^ 64). rewrite Zminus_mod_idemp_l. apply Z.mod_small. lia. }
  rewrite E, mask_pow2 by (auto; lia). cbv zeta. set (b := addr + x - 1). pose proof (Z.div_mod b x). pose proof (Z.mod_pos_bound b x).
  assert (Q : b - b mod x = b / x * x) by lia. rewrite Q. repeat split.
  - apply Z_mod_mult.
  - unfold b in *. lia.
  - intros c Hc Hl. pose proof (Z.div_mod c x). assert (c = c / x * x) by lia. assert (b / x <= c / x); [|nia].
    assert (b / x < c / x + 1); [|lia]. apply Z.div_lt_upper_bound; [lia|]. unfold b. nia.
Qed.
Lemma protect_pages ps addr size mode r len m : pow2 ps -> ps <= 2 ^ 64 -> 0 <= addr -> 0 < size -> addr + size < 2 ^ 64 ->
  protect ps addr size mode = Some (r, len, m) ->
  r mod ps = 0 /\ r <= addr /\ addr + size = r + len
  /\ forall x, page_hit ps r len x <-> page_hit ps addr size x.
Proof.
  intros P Lp A S L H. pose proof (pow2_pos _ P) as Px. unfold protect in H.
  assert (E : r = addr - addr mod ps /\ len = size + (addr - r)).
  { destruct (if mode =? 0 then Some 3 else if mode =? 1 then Some 7 else if mode =? 2 then Some 5 else None); [|discriminate].
    injection H as <- <- _. rewrite mask_pow2 by (auto; lia). split; [reflexivity|].
    pose proof (Z.mod_pos_bound addr ps Px). pose proof (Z.mod_le addr ps A Px).
    unfold w64. change 18446744073709551616 with (2 ^ 64). rewrite (Z.mod_small (addr - _)) by lia. apply Z.mod_small. lia. }
  destruct E as [-> ->]. pose proof (Z.mod_pos_bound addr ps Px). pose proof (Z.div_mod addr ps).
  repeat match goal with |- _ /\ _ => split end; try lia.
  - replace (addr - addr mod ps) with (addr / ps * ps) by lia. apply Z_mod_mult.
  - intros x. unfold page_hit. split; intros (y & Y & E).
    + destruct (Z_lt_ge_dec y addr) as [Q|Q]; [|exists y; split; auto; lia].
      exists addr. split; [lia|]. rewrite <- E. apply Z.div_unique with (r := y - (addr - addr mod ps)); lia.
    + exists y. split; auto. lia.
Qed.
Lemma protect_mode ps addr size mode : protect ps addr size mode = None <-> mode <> 0 /\ mode <> 1 /\ mode <> 2.
Proof.
  unfold protect. destruct (mode =? 0) eqn:A; [split; [discriminate|lia]|]. destruct (mode =? 1) eqn:B; [split; [discriminate|lia]|].
  destruct (mode =? 2) eqn:C; [split; [discriminate|lia]|]. split; auto. lia.
Qed.

(* ---- C37 ---- *)
Lemma round_up ps size : pow2 ps -> 0 <= size -> size + ps <= 2 ^ 64 ->
  let len := w64 (size + w64 (ps - 1)) &&& not64 (w64 (ps - 1)) in
  len mod ps = 0 /\ size <= len /\ forall b, b mod ps = 0 -> size <= b -> len <= b.
Proof.
  intros P S L. pose proof (aligned_address size ps P S L) as Q. unfold getAlignedAddress in Q.
  replace (w64 (size + w64 (ps - 1))) with (w64 (w64 (size + ps) - 1)); [exact Q|].
  unfold w64. rewrite Zminus_mod_idemp_l, Zplus_mod_idemp_r. f_equal. lia.
Qed.
Definition keys (m : amap) := map fst m.
Lemma find_none m p : ~ In p (keys m) -> m_find m p = None.
Proof. induction m as [|[q s] m IH]; cbn; auto. intros H. destruct (q =? p) eqn:E; [exfalso; apply H; left; lia|]. apply IH. intuition. Qed.
Lemma erase_keys m p q : In q (keys (m_erase m p)) -> In q (keys m).
Proof. induction m as [|[r s] m IH]; cbn; auto. destruct (r =? p); cbn; intuition. Qed.
Lemma erase_nodup m p : NoDup (keys m) -> NoDup (keys (m_erase m p)) /\ ~ In p (keys (m_erase m p)).
Proof.
  induction m as [|[r s] m IH]; cbn; [auto|]. intros H. inversion H as [|? ? N D]; subst. destruct (r =? p) eqn:E.
  - split; auto. replace p with r by lia. exact N.
  - destruct (IH D) as [I1 I2]. cbn. split; [constructor; auto; intros Q; apply N; eapply erase_keys; eauto|]. intros [Q|Q]; [lia|auto].
Qed.
Lemma erase_find m p q : q <> p -> m_find (m_erase m p) q = m_find m q.
Proof. intros N. induction m as [|[r s] m IH]; cbn; auto. destruct (r =? p) eqn:E; cbn; destruct (r =? q) eqn:F; auto; lia. Qed.
Lemma live_app es1 es2 p c : live (es1 ++ es2) p c = live es2 p (live es1 p c).
Proof. revert c. induction es1 as [|e es1 IH]; intros c; cbn; auto. destruct e as [| |? ? []|]; apply IH. Qed.
Definition good (m : amap) (es : list mev) : Prop := NoDup (keys m) /\ forall p, p <> 0 -> m_find m p = live es p None.
Lemma good_step ps m es o m1 e1 : good m es -> mm_step ps m o = (m1, e1) -> (forall p len, In (EMap p len) e1 -> p <> 0) -> good m1 (es ++ e1).
Proof.
  intros [D F] H Z0. destruct o as [size [p|]|p ok]; cbn in H.
  - injection H as <- <-. destruct (erase_nodup m p D) as [D1 N1]. split; [constructor; auto|]. intros q Hq. rewrite live_app. cbn [live m_set m_find].
    destruct (p =? q) eqn:E; auto. rewrite erase_find by lia. auto.
  - injection H as <- <-. split; auto. intros q Hq. rewrite live_app. cbn. auto.
  - unfold mm_free in H. destruct (p =? 0) eqn:P0; [injection H as <- <-; rewrite app_nil_r; split; auto|].
    destruct (m_find m p) as [s|] eqn:Fp; [|injection H as <- <-; split; auto; intros q Hq; rewrite live_app; cbn; auto].
    destruct ok; injection H as <- <-; (destruct (erase_nodup m p D) as [D1 N1]); split; auto; intros q Hq; rewrite live_app; cbn; auto.
    destruct (p =? q) eqn:E; [replace q with p by lia; apply find_none; auto|]. rewrite erase_find by lia. auto.
Qed.
Lemma run_good ps : forall ops m es m1 e1, good m es -> mm_run ps m ops = (m1, e1) -> os_ok ps es m ops -> good m1 (es ++ e1).
Proof.
  induction ops as [|o ops IH]; intros m es m1 e1 G H O; cbn in H, O; [injection H as <- <-; rewrite app_nil_r; auto|].
  destruct (mm_step ps m o) as [m2 e2] eqn:S. destruct (mm_run ps m2 ops) as [m3 e3] eqn:R. injection H as <- <-. destruct O as [O1 O2].
  rewrite app_assoc. eapply IH; eauto. eapply good_step; eauto. intros p len Hp. apply (O1 p len Hp).
Qed.
Lemma free_spec ps ops m es p ok : mm_run ps [] ops = (m, es) -> os_ok ps [] [] ops ->
  snd (mm_free p ok m) =
    if p =? 0 then [] else
    match live es p None with
    | None => [EErr ERR_BAD_PARAMETER]
    | Some len => EUnmap p len ok :: (if ok then [] else [EErr ERR_MUNMAP])
    end.
Proof.
  intros R O. assert (G : good m es). { apply (run_good ps ops [] [] m es); auto. split; [constructor|reflexivity]. }
  destruct G as [_ F]. unfold mm_free. destruct (p =? 0) eqn:P; auto. rewrite <- F by lia. destruct (m_find m p); [destruct ok|]; reflexivity.
Qed.
(* every munmap is for a live mapping with its length *)
Definition unmaps_live (es0 es : list mev) : Prop := forall a p len ok b, es = a ++ EUnmap p len ok :: b -> live (es0 ++ a) p None = Some len.
Lemma unmaps_app es0 e1 e2 : unmaps_live es0 e1 -> unmaps_live (es0 ++ e1) e2 -> unmaps_live es0 (e1 ++ e2).
Proof.
  intros H1 H2 a p len ok b E. 
  assert (C : (exists b', e1 = a ++ EUnmap p len ok :: b') \/ (exists a', a = e1 ++ a' /\ e2 = a' ++ EUnmap p len ok :: b)).
  { clear H1 H2. revert a E. induction e1 as [|x e1 IH]; intros a E; cbn in E; [right; exists a; auto|].
    destruct a as [|y a]; cbn in E; injection E as <- E; [left; exists e1; reflexivity|].
    destruct (IH a E) as [[b1 Q]|(a1 & Q1 & Q2)]; [left; exists b1; rewrite Q; reflexivity|right; exists a1; rewrite Q1; auto]. }
  destruct C as [[b' ->]|(a' & -> & ->)]; [eapply H1; eauto|]. rewrite app_assoc. eapply H2; eauto.
Qed.
Lemma run_unmaps ps : forall ops m es m1 e1, good m es -> mm_run ps m ops = (m1, e1) -> os_ok ps es m ops -> unmaps_live es e1.
Proof.
  induction ops as [|o ops IH]; intros m es m1 e1 G H O; cbn in H, O.
  - injection H as <- <-. intros [|? a] p len ok b E; discriminate.
  - destruct (mm_step ps m o) as [m2 e2] eqn:S. destruct (mm_run ps m2 ops) as [m3 e3] eqn:R. injection H as <- <-. destruct O as [O1 O2].
    assert (G2 : good m2 (es ++ e2)) by (eapply good_step; eauto; intros p len Hp; apply (O1 p len Hp)).
    apply unmaps_app; [|eapply IH; eauto]. destruct G as [_ F].
    intros a p len ok b E. destruct o as [size [q|]|q okq]; cbn in S.
    + injection S as _ <-. destruct a as [|? [|? a]]; discriminate.
    + injection S as _ <-. destruct a as [|? [|? [|? a]]]; discriminate.
    + unfold mm_free in S. destruct (q =? 0) eqn:Q0; [injection S as _ <-; destruct a; discriminate|]. assert (F' := F q ltac:(lia)).
      destruct (m_find m q); [destruct okq|]; injection S as _ <-; destruct a as [|? [|? [|? a]]]; try discriminate; injection E as -> -> _; rewrite app_nil_r; auto.
Qed.
(* live mappings are disjoint *)
Definition disj (es : list mev) : Prop := forall p q x, p <> q -> owned es p x -> owned es q x -> False.
Lemma disj_step ps m es o m1 e1 : disj es -> mm_step ps m o = (m1, e1) -> (forall p len, In (EMap p len) e1 -> fresh ps es p len) -> disj (es ++ e1).
Proof.
  intros D H O p q x N (l1 & L1 & X1) (l2 & L2 & X2). rewrite live_app in L1, L2. destruct o as [size [r|]|r ok]; cbn in H.
  - injection H as _ <-. set (len := _ &&& _) in *. specialize (O r len (or_introl eq_refl)). destruct O as (_ & _ & O). cbn [live] in L1, L2.
    destruct (r =? p) eqn:E1, (r =? q) eqn:E2; try lia.
    + injection L1 as <-. apply (O q x); [exists l2; auto|]. lia.
    + injection L2 as <-. apply (O p x); [exists l1; auto|]. lia.
    + eapply (D p q x); eauto; eexists; eauto.
  - injection H as _ <-. cbn in L1, L2. eapply (D p q x); eauto; eexists; eauto.
  - unfold mm_free in H. destruct (r =? 0); [injection H as _ <-; eapply (D p q x); eauto; eexists; eauto|].
    destruct (m_find m r); [destruct ok|]; injection H as _ <-; cbn in L1, L2; try (eapply (D p q x); eauto; eexists; eauto; fail).
    destruct (r =? p); [discriminate|]. destruct (r =? q); [discriminate|]. eapply (D p q x); eauto; eexists; eauto.
Qed.
Lemma run_disj ps : forall ops m es m1 e1, disj es -> mm_run ps m ops = (m1, e1) -> os_ok ps es m ops -> disj (es ++ e1).
Proof.
  induction ops as [|o ops IH]; intros m es m1 e1 G H O; cbn in H, O; [injection H as <- <-; rewrite app_nil_r; auto|].
  destruct (mm_step ps m o) as [m2 e2] eqn:S. destruct (mm_run ps m2 ops) as [m3 e3] eqn:R. injection H as <- <-. destruct O as [O1 O2].
  rewrite app_assoc. eapply IH; eauto. eapply disj_step; eauto.
Qed.
Lemma hist_disj ps ops m es : mm_run ps [] ops = (m, es) -> os_ok ps [] [] ops -> forall p q x, p <> q -> owned es p x -> owned es q x -> False.
Proof. intros H O. apply (run_disj ps ops [] [] m es); auto. intros p q x _ (l & L & _). discriminate. Qed.
Lemma hist_unmaps ps ops m es : mm_run ps [] ops = (m, es) -> os_ok ps [] [] ops ->
  forall a p len ok b, es = a ++ EUnmap p len ok :: b -> live a p None = Some len.
Proof. intros H O. apply (run_unmaps ps ops [] [] m es); auto. split; [constructor|reflexivity]. Qed.

(* ---- C25 ---- *)
Lemma nopTbl_nop len : In len [1; 2; 3; 4; 5; 6; 7; 8; 9] -> is_nop (nopTbl len) /\ Z.of_nat (List.length (nopTbl len)) = len.
Proof.
  intros H. cbn in H. repeat (destruct H as [H|H]; [rewrite <- H; split; [intros rest|reflexivity]|]); [..|destruct H].
  1-2: left; eexists; split; [reflexivity|repeat split].
  all: right; eexists; eexists; split; [reflexivity|repeat split].
Qed.
Lemma dbs_bytes s l env pos its u : emits (dbs l) env pos its u -> Forall (fun b => 0 <= b < 256) l -> render s its = l.
Proof.
  revert pos its. induction l as [|b l IH]; intros pos its H F; cbn in H; [apply emits_ret in H as [-> _]; reflexivity|].
  inversion F as [|? ? F1 F2]; subst. apply emits_bind in H as (i1 & i2 & a & H1 & H2 & ->). apply emits_db in H1 as ->. cbn [render render1 app].
  f_equal; [unfold w8; apply Z.mod_small; auto|]. eapply IH; eauto.
Qed.
Lemma nopTbl_bytes len : In len [1; 2; 3; 4; 5; 6; 7; 8; 9] -> Forall (fun b => 0 <= b < 256) (nopTbl len).
Proof. intros H. cbn in H. repeat (destruct H as [<-|H]; [repeat constructor; lia|]). destruct H. Qed.
Lemma nop_loop_ok s fuel : forall size env pos its u, Z.of_nat fuel >= size -> 0 <= size -> emits (nop_loop fuel size) env pos its u ->
  nops (render s its) /\ Z.of_nat (List.length (render s its)) = size.
Proof.
  induction fuel as [|f IH]; intros size env pos its u F S H; cbn in H.
  - apply emits_ret in H as [-> _]. split; [constructor|cbn; lia].
  - destruct (0 <? size) eqn:Q; [|apply emits_ret in H as [-> _]; split; [constructor|cbn; lia]].
    apply emits_bind in H as (i1 & i2 & a & H1 & H2 & ->).
    assert (L : In (Z.min 9 size) [1; 2; 3; 4; 5; 6; 7; 8; 9]) by (cbn; lia).
    destruct (nopTbl_nop _ L) as [N E]. apply (dbs_bytes s) in H1; [|apply nopTbl_bytes; auto]. change (render s i1 = nopTbl (Z.min 9 size)) in H1.
    apply IH in H2 as [N2 E2]; try lia. rewrite render_app, H1. split; [apply nops_cons; [exact N| |exact N2]; cbn in L; lia|]. rewrite app_length. lia.
Qed.
Lemma nop_ok s n multi env pos its u : 0 <= n -> emits (nop n multi) env pos its u ->
  nops (render s its) /\ Z.of_nat (List.length (render s its)) = n.
Proof.
  intros Hn H. unfold nop in H. destruct multi; [apply (nop_loop_ok s) in H; auto; lia|].
  apply (dbs_bytes s) in H; [|apply Forall_forall; intros x Hx; apply repeat_spec in Hx; lia]. rewrite H. rewrite repeat_length. split; [|lia].
  clear. induction (Z.to_nat n) as [|k IH]; cbn [repeat]; [constructor|]. apply (nops_cons [0x90]); [apply (nopTbl_nop 1); cbn; auto|cbn; lia|exact IH].
Qed.
Lemma align_ok s ps x multi env pos its u : 0 <= x < 2 ^ 64 -> 0 <= env_top env + pos -> env_top env + pos < 2 ^ 64 -> emits (align ps x multi) env pos its u ->
  pow2 x /\ nops (render s its) /\ least_pad (env_top env + pos) x (Z.of_nat (List.length (render s its))) /\ (env_autoGrow env = true -> x <> 1 -> ps mod x = 0).
Proof.
  intros X P Pl H. unfold align in H. apply emits_fn in H. destruct (x =? 1) eqn:X1.
  - apply emits_ret in H as [-> _]. replace x with 1 by lia. split; [exists 0; split; [lia|reflexivity]|]. split; [constructor|].
    split; [|lia]. unfold least_pad. cbn. rewrite Z.mod_1_r. repeat split; lia.
  - destruct ((x <? 1) || negb (x &&& (x - 1) =? 0)) eqn:C; [einv H|]. apply orb_false_iff in C as [C1 C2]. apply negb_false_iff in C2.
    assert (P2 : pow2 x) by (apply pow2_land; lia). split; auto.
    apply emits_bind in H as (i1 & i2 & a & H1 & H2 & ->). assert (A : i1 = [] /\ a = env) by (destruct H1 as [_ H1]; injection H1 as <- <-; auto). destruct A as [-> ->]. clear H1.
    destruct (env_autoGrow env && negb (ps mod x =? 0)) eqn:G; [einv H2|].
    apply emits_bind in H2 as (j1 & j2 & c & H1 & H2 & ->). assert (A : j1 = [] /\ c = env_top env + pos).
    { destruct H1 as [_ H1]. injection H1 as <- <-. split; auto. cbn [items_size]. unfold w64. rewrite Z.mod_small; lia. }
    destruct A as [-> ->]. cbn [app]. set (c := env_top env + pos) in *. pose proof (Z.mod_pos_bound c x ltac:(lia)) as B. pose proof (Z.div_mod c x ltac:(lia)) as D.
    assert (Gp : env_autoGrow env = true -> x <> 1 -> ps mod x = 0) by (intros E _; rewrite E in G; cbn in G; lia).
    destruct (c mod x =? 0) eqn:R; cbn [negb] in H2.
    + apply emits_ret in H2 as [-> _]. split; [constructor|]. split; auto. cbn. unfold least_pad. rewrite Z.add_0_r. repeat split; lia.
    + apply (nop_ok s) in H2 as [N L]; [|lia]. split; auto. split; auto. rewrite L. unfold least_pad. repeat split; try lia.
      * replace (c + (x - c mod x)) with ((c / x + 1) * x) by lia. apply Z_mod_mult.
      * intros k K M. pose proof (Z.div_mod (c + k) x ltac:(lia)) as D2. rewrite M in D2.
        assert (Q : c / x < (c + k) / x) by (apply Z.nle_gt; intros Q; assert (x * ((c + k) / x) <= x * (c / x)) by (apply Z.mul_le_mono_nonneg_l; lia); lia).
        assert (x * (c / x + 1) <= x * ((c + k) / x)) by (apply Z.mul_le_mono_nonneg_l; lia). lia.
Qed.
Lemma align_bad ps x multi env pos : 0 <= x -> ~ pow2 x -> env_noexc env = false -> align ps x multi env pos = ([], Err ERR_BAD_ALIGN).
Proof.
  intros X N E. unfold align, fn. destruct (x =? 1) eqn:X1; [exfalso; apply N; exists 0; split; [lia|cbn; lia]|].
  replace ((x <? 1) || negb (x &&& (x - 1) =? 0)) with true; [unfold throw; rewrite E; reflexivity|].
  symmetry. destruct (x <? 1) eqn:Q; auto. cbn [orb]. apply negb_true_iff. apply Z.eqb_neq. intros H. apply N, pow2_land; auto. lia.
Qed.
(* the alignment survives a move of the code to another page-aligned address *)
Lemma render_size s its : Forall (fun i => match i with IDb _ => True | _ => False end) its -> Z.of_nat (List.length (render s its)) = items_size its.
Proof. induction 1 as [|i its H F IH]; [reflexivity|]. destruct i; try destruct H. cbn [render render1 items_size item_size app]. cbn [List.length]. lia. Qed.
Lemma dbs_db l env pos its u : emits (dbs l) env pos its u -> Forall (fun i => match i with IDb _ => True | _ => False end) its.
Proof.
  revert pos its. induction l as [|b l IH]; intros pos its H; cbn in H; [apply emits_ret in H as [-> _]; constructor|].
  apply emits_bind in H as (i1 & i2 & a & H1 & H2 & ->). apply emits_db in H1 as ->. constructor; auto. eapply IH; eauto.
Qed.
Lemma nop_db n multi env pos its u : emits (nop n multi) env pos its u -> Forall (fun i => match i with IDb _ => True | _ => False end) its.
Proof.
  unfold nop. destruct multi; [|apply dbs_db]. generalize (Z.to_nat n) as fuel. intros fuel. revert n pos its.
  induction fuel as [|f IH]; intros n pos its H; cbn [nop_loop] in H; [apply emits_ret in H as [-> _]; constructor|].
  destruct (0 <? n); [|apply emits_ret in H as [-> _]; constructor]. cbv zeta in H.
  apply emits_bind in H as (i1 & i2 & a & H1 & H2 & ->). apply Forall_app. split; [eapply dbs_db; eauto|eauto].
Qed.
Lemma align_db ps x multi env pos its u : emits (align ps x multi) env pos its u -> Forall (fun i => match i with IDb _ => True | _ => False end) its.
Proof.
  intros H. unfold align in H. apply emits_fn in H. destruct (x =? 1); [apply emits_ret in H as [-> _]; constructor|].
  destruct (_ || _); [einv H|]. apply emits_bind in H as (i1 & i2 & a & [_ H1] & H2 & ->). injection H1 as <- <-.
  destruct (_ && _); [einv H2|]. apply emits_bind in H2 as (j1 & j2 & c & [_ H1] & H2 & ->). injection H1 as <- <-. cbn [app].
  cbv zeta in H2. destruct (negb _); [eapply nop_db; eauto|apply emits_ret in H2 as [-> _]; constructor].
Qed.
Lemma align_moves ps x multi env pos its u top' : 0 < ps -> 0 <= x < 2 ^ 64 -> 0 <= env_top env + pos -> env_top env + pos < 2 ^ 64 ->
  env_autoGrow env = true -> env_top env mod ps = 0 -> top' mod ps = 0 -> emits (align ps x multi) env pos its u ->
  (top' + pos + items_size its) mod x = 0.
Proof.
  intros Ps X P Pl G T T' H. pose proof (align_db _ _ _ _ _ _ _ H) as Db. apply (align_ok (fun _ _ _ => 0)) in H as (P2 & N & (_ & L & _) & Gp); auto.
  rewrite (render_size _ _ Db) in L.
  destruct (Z.eq_dec x 1) as [->|N1]; [apply Z.mod_1_r|]. specialize (Gp G N1). pose proof (pow2_pos _ P2).
  assert (D : forall t, t mod ps = 0 -> (x | t)).
  { intros t Ht. apply Z.divide_trans with ps; apply Z.mod_divide; lia. }
  apply Z.mod_divide; [lia|]. apply Z.mod_divide in L; [|lia].
  replace (top' + pos + items_size its) with (env_top env + pos + items_size its + (top' - env_top env)) by lia.
  apply Z.divide_add_r; auto. apply Z.divide_sub_r; auto.
Qed.
