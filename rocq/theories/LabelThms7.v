(* Absolute jumps, and the bounds of a fixed buffer over histories. *)
From Coq Require Import ZArith List Bool String Arith Lia ZifyBool.
From Verif Require Import Base Types Emit EmitFacts Encode State Code Label Gen Wp CodeFacts Append SpecMem SpecLabel LabelFacts LabelInv LabelEmit LabelDefine LabelStep LabelStep2 LabelStep3 LabelReady LabelHist LabelThms LabelThms2 LabelThms3 LabelThms4 Stable LabelThms5 Grow LabelThms6.
Import ListNotations.
Open Scope Z_scope.

(* ---- a fixed buffer never moves and nothing outside it changes ---- *)
Definition fixed_same (s s' : St) : Prop :=
  isAutoGrowC (g_code s') = false /\ c_top (g_code s') = c_top (g_code s) /\ c_max (g_code s') = c_max (g_code s) /\
  0 <= c_size (g_code s') <= c_max (g_code s') /\
  forall k, k < 0 \/ c_max (g_code s) <= k -> c_mem (g_code s') k = c_mem (g_code s) k.
Lemma fixed_refl s : ok_st s -> isAutoGrowC (g_code s) = false -> fixed_same s s.
Proof. intros (_ & W & _) H. destruct W. repeat split; auto; lia. Qed.
Lemma fixed_trans s s1 s2 : fixed_same s s1 -> fixed_same s1 s2 -> fixed_same s s2.
Proof.
  intros (A1 & A2 & A3 & A4 & A5) (B1 & B2 & B3 & B4 & B5). repeat split; try congruence; try lia.
  intros k Hk. rewrite B5 by lia. apply A5; lia.
Qed.
Lemma fixed_step o s a s1 a1 : Inv s a -> Inv s1 a1 -> isAutoGrowC (g_code s) = false ->
  (exec o s = Done s1 tt \/ exists x, exec o s = Thrown s1 x) -> fixed_same s s1.
Proof.
  intros HI HI1 Ha Hex. pose proof HI as (Hok & _). pose proof HI1 as ((_ & W1 & _) & _). destruct W1.
  assert (isAutoGrowC (g_code s1) = false) as Ha1.
  { rewrite <- Ha. pose proof (exec_type o s a HI) as K. destruct Hex as [E|(x & E)]; rewrite E in K; unfold isAutoGrowC; now rewrite K. }
  assert (o = OpReset \/ o <> OpReset) as [->|Hn] by (destruct o; auto; right; discriminate).
  - destruct (reset_exact s a HI) as (s' & R & R1). destruct Hex as [E|(x & E)]; cbn [exec] in E; [|congruence].
    assert (s' = s1) by congruence. subst s'. repeat split; try apply R1; auto; try lia. intros k _. destruct R1 as (_ & _ & _ & _ & _ & _ & _ & _ & R1 & _). now rewrite R1.
  - pose proof (exec_keeps o s a HI Hn) as K.
    assert (keeps s a s1) as (K1 & K2 & K3) by (destruct Hex as [E|(x & E)]; rewrite E in K; exact K).
    destruct (K3 Ha) as (T & M & K4). repeat split; auto; try lia. intros k Hk. apply K4. lia.
Qed.

Theorem history_fixed os s a s' a' : Inv s a -> isAutoGrowC (g_code s) = false -> shistory s a os s' a' -> fixed_same s s'.
Proof.
  intros HI Ha H. revert HI Ha. induction H as [s a|s a o s1 a1 os s2 a2 Hl Hid He Hs Hh IH|s a o e s1 a1 os s2 a2 Hl Hid He Hs Hh IH]; intros HI Ha.
  - apply fixed_refl; auto. apply HI.
  - assert (Inv s1 a1) as HI1 by (eapply (history_inv [o]); [exact HI|]; eapply SH_done; eauto; constructor).
    pose proof (fixed_step o s a s1 a1 HI HI1 Ha (or_introl He)) as F. eapply fixed_trans; [exact F|]. apply IH; auto. apply F.
  - assert (Inv s1 a1) as HI1 by (eapply (history_inv [o]); [exact HI|]; eapply SH_thrown; eauto; constructor).
    pose proof (fixed_step o s a s1 a1 HI HI1 Ha (or_intror (ex_intro _ e He))) as F. eapply fixed_trans; [exact F|]. apply IH; auto. apply F.
Qed.

(* ---- absolute jumps into a fixed buffer ---- *)
Definition in32 (d : Z) : bool := (-2147483648 <=? d) && (d <=? 2147483647).
Lemma IsInInt32_in32 x : IsInInt32 (w64 x) = in32 (s64 x).
Proof.
  unfold IsInInt32, in32, s64. pose proof (w64_range x). assert (w64 (w64 x) = w64 x) as -> by (unfold w64; now rewrite Z.mod_mod by lia).
  destruct (w64 x <? 9223372036854775808) eqn:E; lia.
Qed.
Lemma w32_s64 x : w32 (s64 x) = w32 x.
Proof.
  unfold s64. rewrite <- (w32_w64 x). destruct (w64 x <? 9223372036854775808); auto. apply (w32_eqm _ _ (-4294967296)). reflexivity.
Qed.
Lemma IsInDisp8_low x : -2147483648 <= x < 2147483648 -> IsInDisp8 (w32 (x - 2)) = in8 (x - 2).
Proof.
  intros H. destruct (Z_le_gt_dec (-2147483646) x) as [G|G]; [apply IsInDisp8_in8; lia|].
  rewrite (w32_eqm (x - 2) (x - 2 + 4294967296) (-1)) by lia. unfold IsInDisp8, in8, w32. rewrite !(Z.mod_small (x - 2 + 4294967296)) by lia. lia.
Qed.
Lemma w32_w32_sub x y : w32 (w32 x - y) = w32 (x - y).
Proof. unfold w32. now rewrite Zminus_mod_idemp_l. Qed.

(* the displacement from the start of the call *)
Definition jdist (s : St) (addr : Z) : Z := s64 (addr - (c_top (g_code s) + c_size (g_code s))).
Lemma jdist_eq s addr : s64 (addr - w64 (c_top (g_code s) + c_size (g_code s))) = jdist s addr.
Proof. unfold jdist. rewrite <- s64_w64. rewrite <- (s64_w64 (addr - (c_top (g_code s) + c_size (g_code s)))). f_equal. unfold w64. apply Zminus_mod_idemp_r. Qed.
Theorem absjmp_fixed addr ty sc lc lp s : ok_st s -> isAutoGrowC (g_code s) = false -> ty <> T_FAR ->
  match opJmpAbs addr ty sc lc lp s with
  | Done s1 _ => in32 (jdist s addr) = true /\
      c_size (g_code s1) - c_size (g_code s) =
        (if negb (LabelType_beq ty T_NEAR) && in8 (jdist s addr - 2) then 2 else if lp =? 0 then 5 else 6)
  | Thrown _ e => e = ERR_OFFSET_IS_TOO_BIG /\ in32 (jdist s addr) = false
      \/ in32 (jdist s addr) = true /\ (e = ERR_CODE_IS_TOO_BIG \/
          e = ERR_LABEL_IS_TOO_FAR /\ ty = T_SHORT /\ in8 (jdist s addr - 2) = false)
  | UB => False
  end.
Proof.
  intros Hok Ha Hty. unfold opJmpAbs, fnS. destruct (LabelType_beq ty T_FAR) eqn:E; [destruct ty; discriminate || congruence|]. clear E.
  assert (g_noexc s = false) as Hn by apply Hok.
  unfold mbind, get. rewrite Ha. unfold verifyInInt32M, fnS. rewrite IsInInt32_in32, jdist_eq.
  destruct (in32 (jdist s addr)) eqn:H32; cbn [mret mthrow]; [|rewrite Hn, Hn; auto].
  unfold runE, mbind. rewrite (makeJmp_items (env_of s)) by apply Hok.
  set (D := w32 (w64 (addr - w64 (c_top (g_code s) + c_size (g_code s))))).
  assert (D = w32 (jdist s addr)) as HD by (unfold D; rewrite w32_w64, <- w32_s64, jdist_eq; reflexivity).
  rewrite HD, w32_w32_sub, IsInDisp8_low by (unfold in32 in H32; lia).
  assert (forall l, match dbsM l s with
     | Done s1 _ => c_size (g_code s1) = c_size (g_code s) + Z.of_nat (List.length l)
     | Thrown s1 e => e = ERR_CODE_IS_TOO_BIG /\ g_noexc s1 = false | UB => False end) as HB.
  { intros l. pose proof (wp_dbsM l s Hok) as H. unfold wp in H. destruct (dbsM l s); auto.
    - destruct H as (c' & -> & E & W' & Hs & Hm). exact Hs.
    - destruct H as (He & _ & c' & -> & _). unfold db_err in He. rewrite Ha in He. auto. }
  destruct (negb (LabelType_beq ty T_NEAR) && in8 (jdist s addr - 2)) eqn:Hsh.
  - rewrite exec_items_db. specialize (HB (map w8 [sc; w32 (jdist s addr) - 2])). destruct (dbsM _ s) as [s1 x|s1 e|]; cbn [mret] in *; auto.
    + rewrite HB. cbn. split; auto. lia.
    + destruct HB as (-> & ->). auto.
  - destruct (LabelType_beq ty T_SHORT) eqn:Hsty.
    + cbn [exec_items mret mthrow]. rewrite Hn. right. split; auto. right. destruct ty; try discriminate. cbn in Hsh. auto.
    + rewrite exec_items_db. match goal with |- context [dbsM ?l s] => specialize (HB l); destruct (dbsM l s) as [s1 x|s1 e|]; cbn [mret] in *; auto end.
      * rewrite HB. unfold longBytes. rewrite !map_length, !app_length. destruct (lp =? 0); cbn; split; auto; lia.
      * destruct HB as (-> & ->). auto.
Qed.

Lemma history_type os s a s' a' : Inv s a -> shistory s a os s' a' -> isAutoGrowC (g_code s') = isAutoGrowC (g_code s).
Proof.
  intros HI H. revert HI. induction H as [s a|s a o s1 a1 os s2 a2 Hl Hid He Hs Hh IH|s a o e s1 a1 os s2 a2 Hl Hid He Hs Hh IH]; intros HI; auto.
  - assert (Inv s1 a1) as HI1 by (eapply (history_inv [o]); [exact HI|]; eapply SH_done; eauto; constructor).
    rewrite (IH HI1). pose proof (exec_type o s a HI) as X. rewrite He in X. unfold isAutoGrowC. now rewrite X.
  - assert (Inv s1 a1) as HI1 by (eapply (history_inv [o]); [exact HI|]; eapply SH_thrown; eauto; constructor).
    rewrite (IH HI1). pose proof (exec_type o s a HI) as X. rewrite He in X. unfold isAutoGrowC. now rewrite X.
Qed.
(* the bytes of an absolute jump at the end of a program lead to the address *)
Lemma absjmp_any s a r : Inv s a -> finished s a -> In r (sp_refs a) -> r_tid r = None ->
  (isAutoGrowC (g_code s) = false -> fits (r_size r) (s64 (r_d r - (c_top (g_code s) + (r_pos r + r_size r))))) ->
  branch_target (g_code s) (r_pos r) (r_size r) = w64 (r_d r).
Proof.
  intros HI Hf Hin Ht Hfit. destruct (isAutoGrowC (g_code s)) eqn:Ha; [apply (absjmp_auto s a); auto|]. specialize (Hfit eq_refl).
  destruct HI as (Hok & g & gid & bnd & HI). destruct HI, iv_ref. rewrite <- iv_refs in Hin.
  apply in_map_iff in Hin as ([r' st] & E & Hx). cbn [fst] in E. subst r'.
  rewrite Forall_forall in ri_ok. destruct (ri_ok _ Hx) as [Hs H]. cbn [fst snd] in *.
  destruct st; [destruct H; congruence|destruct H as (H & _); congruence|].
  destruct H as (o & _ & _ & Hfd & _ & _). unfold field, want in *. rewrite Ht in *.
  destruct Hs as (Hs0 & _ & Hs). specialize (Hs (Hs0 Ht)).
  replace (c_top (g_code s) + r_pos r + r_size r) with (c_top (g_code s) + (r_pos r + r_size r)) in * by lia.
  apply branch_target_ok; auto.
Qed.
Lemma s64_shift x n : -9223372036854775808 <= s64 x - n < 9223372036854775808 -> s64 (x - n) = s64 x - n.
Proof.
  intros H. rewrite <- (s64_small (s64 x - n)) by lia. rewrite <- (s64_w64 (x - n)), <- (s64_w64 (s64 x - n)). f_equal.
  unfold s64, w64. destruct (x mod 18446744073709551616 <? 9223372036854775808).
  - now rewrite Zminus_mod_idemp_l.
  - replace (x mod 18446744073709551616 - 18446744073709551616 - n) with (x mod 18446744073709551616 - n + (-1) * 18446744073709551616) by lia.
    rewrite Z.mod_add by lia. now rewrite Zminus_mod_idemp_l.
Qed.
Theorem absjmp_lands s a addr ty sc lc lp s1 a1 os s2 a2 :
  Inv s a -> exec (OpJmpAbs addr ty sc lc lp) s = Done s1 tt -> shistory s a [OpJmpAbs addr ty sc lc lp] s1 a1 ->
  shistory s1 a1 os s2 a2 -> no_reset os -> finished s2 a2 ->
  (isAutoGrowC (g_code s) = false -> -2147483648 + 6 <= jdist s addr) ->
  let n := jsize (c_size (g_code s)) (c_size (g_code s1)) in
  branch_target (g_code s2) (c_size (g_code s1) - n) n = w64 addr.
Proof.
  intros HI Hex Hsh Hos Hnr Hf Hlow n.
  assert (Inv s1 a1) as HI1 by (eapply history_inv; eauto).
  assert (Inv s2 a2) as HI2 by (eapply history_inv; eauto).
  pose proof (history_kept os s1 a1 s2 a2 HI1 Hos Hnr) as K.
  assert (exists r, In r (sp_refs a1) /\ r_pos r = c_size (g_code s1) - n /\ r_size r = n /\ r_tid r = None /\ r_rel r = true /\ r_d r = addr) as (r & Hr & E1 & E2 & E3 & E4 & E5).
  { inversion Hsh as [|? ? ? s1' a1' ? ? ? L1 L2 L3 L4 L5|? ? ? e s1' a1' ? ? ? L1 L2 L3 L4 L5]; subst; [|congruence].
    assert (s1' = s1) by congruence. subst s1'. inversion L5; subst. cbn [spec_step] in L4.
    destruct (_ && _); [discriminate|].
    match type of L4 with Some ?x = _ => assert (a1 = x) as -> by congruence end. apply addBranch_in. }
  destruct (kp_ref _ _ K r Hr) as (r' & Hr' & S1 & S2 & S3 & S4 & S5).
  pose proof (absjmp_any s2 a2 r' HI2 Hf Hr' ltac:(congruence)) as T. rewrite S1, S2, S5, E1, E2, E5 in T. apply T.
  intros Ha2. destruct (isAutoGrowC (g_code s)) eqn:Ha.
  { pose proof (exec_type (OpJmpAbs addr ty sc lc lp) s a HI) as X. rewrite Hex in X.
    exfalso. enough (isAutoGrowC (g_code s2) = true) by congruence. rewrite <- Ha.
    transitivity (isAutoGrowC (g_code s1)); [|unfold isAutoGrowC; now rewrite X].
    now rewrite (history_type os s1 a1 s2 a2 HI1 Hos). }
  specialize (Hlow eq_refl).
  destruct (fixed_step _ s a s1 a1 HI HI1 Ha (or_introl Hex)) as (Ha1 & T1 & _).
  destruct (history_fixed os s1 a1 s2 a2 HI1 Ha1 Hos) as (_ & T2 & _). rewrite T2, T1.
  assert (ty <> T_FAR) as Hty.
  { intros ->. cbn [exec] in Hex. unfold opJmpAbs, fnS in Hex. cbn in Hex. destruct (g_noexc s) eqn:Hn; [destruct HI as ((Hn' & _) & _); congruence|discriminate]. }
  pose proof (absjmp_fixed addr ty sc lc lp s (proj1 HI) Ha Hty) as X. cbn [exec] in Hex. rewrite Hex in X. destruct X as (X1 & X2).
  replace (addr - (c_top (g_code s) + (c_size (g_code s1) - n + n))) with
    (addr - (c_top (g_code s) + c_size (g_code s)) - (c_size (g_code s1) - c_size (g_code s))) by lia.
  unfold in32 in X1. unfold n, jsize. rewrite X2. rewrite s64_shift; fold (jdist s addr).
  - destruct (negb (LabelType_beq ty T_NEAR) && in8 (jdist s addr - 2)) eqn:Hsh8.
    + cbn. apply andb_true_iff in Hsh8 as [_ Hsh8]. unfold in8 in Hsh8. unfold fits. cbn [Z.eqb Pos.eqb]. lia.
    + unfold fits. destruct (lp =? 0); cbn [Z.eqb Pos.eqb]; lia.
  - assert (-2147483648 <= jdist s addr <= 2147483647) as Hj by lia. clear -Hj. destruct (_ && _); [|destruct (lp =? 0)]; lia.
Qed.
