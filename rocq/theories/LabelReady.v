(* ready() writes every saved reference (AutoGrow), and a new generator satisfies the invariant. *)
From Coq Require Import ZArith List Bool String Arith Lia ZifyBool Permutation.
From Verif Require Import Base Types Emit EmitFacts Encode State Code Label Gen Wp CodeFacts SpecLabel LabelFacts LabelInv LabelEmit LabelDefine LabelStep LabelStep2 LabelStep3.
Import ListNotations.
Open Scope Z_scope.

Definition ai_ok (c : Code) (i : AddrInfo) : Prop :=
  (ai_size i = 1 \/ ai_size i = 4 \/ ai_size i = 8) /\ 0 <= ai_off i /\ ai_off i + ai_size i <= c_size c.
Definition ai_disj (x y : AddrInfo) : Prop := ai_off x + ai_size x <= ai_off y \/ ai_off y + ai_size y <= ai_off x.
Definition ai_disp (top : Z) (i : AddrInfo) : Z :=
  match ai_mode i with LaddTop => w64 (ai_val i + top) | LasIs => ai_val i | Labs => w64 (ai_val i - top) end.
Definition ai_done (c : Code) (i : AddrInfo) : Prop :=
  mem_has (c_mem c) (ai_off i) (le_bytes (ai_disp (c_top c) i) (Z.to_nat (ai_size i))) /\
  (ai_size i = 4 -> IsInInt32 (ai_disp (c_top c) i) = true).
Definition inside (i : AddrInfo) (k : Z) : Prop := ai_off i <= k < ai_off i + ai_size i.

Lemma ai_done_keep c m i : ai_done c i -> (forall k, inside i k -> m k = c_mem c k) -> ai_done (c_setmem c m) i.
Proof.
  intros [H1 H2] Hk. split; [|exact H2]. cbn [c_setmem c_mem c_top]. eapply mem_has_ext; [|exact H1]. rewrite le_bytes_length.
  intros k Hk'. apply Hk. unfold inside. lia.
Qed.

Lemma wp_calcLoop l : forall s (Q : St -> unit -> Prop) (X : St -> xerr -> Prop),
  ok_st s -> Forall (ai_ok (g_code s)) l -> ForallOrdPairs ai_disj l ->
  (forall m, Forall (ai_done (c_setmem (g_code s) m)) l ->
     (forall k, (forall i, In i l -> ~ inside i k) -> m k = c_mem (g_code s) k) -> Q (set_code s (c_setmem (g_code s) m)) tt) ->
  (forall s' , g_noexc s' = false -> X s' ERR_OFFSET_IS_TOO_BIG) ->
  wp (calcLoop l) s Q X.
Proof.
  induction l as [|i l IH]; cbn [calcLoop]; intros s Q X Hok Hl Hd HQ HX.
  - apply wp_ret. specialize (HQ (c_mem (g_code s)) (Forall_nil _) (fun _ _ => eq_refl)).
    replace (c_setmem (g_code s) (c_mem (g_code s))) with (g_code s) in HQ by (destruct (g_code s); reflexivity).
    now rewrite set_code_same in HQ.
  - inversion Hl as [|? ? Hi Hl']; subst. inversion Hd as [|? ? Di Dl]; subst. clear Hl Hd.
    destruct Hi as (Hsz & Ho & He). assert (Hn : g_noexc s = false) by apply Hok.
    assert (c_size (g_code s) <= c_cap (g_code s)) as Hcap by (destruct Hok as (_ & [] & _); lia).
    apply wp_bind, wp_get, wp_bind. unfold getVal. fold (ai_disp (c_top (g_code s)) i).
    assert (forall d, le_bytes d (Z.to_nat (ai_size i)) = le_bytes (ai_disp (c_top (g_code s)) i) (Z.to_nat (ai_size i)) ->
              (ai_size i = 4 -> IsInInt32 (ai_disp (c_top (g_code s)) i) = true) ->
              wp (mbind (rewrite (ai_off i) d (ai_size i)) (fun _ => calcLoop l)) s Q X) as K.
    { intros d Hd Hin. apply wp_bind. apply wp_rewrite; [lia|lia|lia|]. intros m Hm Hmo.
      set (c1 := c_setmem (g_code s) m). apply IH.
      - apply ok_set_code; [exact Hok|]. destruct Hok as (_ & [] & _). constructor; auto.
      - exact Hl'.
      - exact Dl.
      - cbn [g_code set_code]. intros m2 Hdone Hun. specialize (HQ m2). unfold c1 in *. cbn [c_setmem c_mem] in *.
        apply HQ.
        + constructor; [|exact Hdone]. split; [|exact Hin]. cbn [c_setmem c_mem c_top]. rewrite <- Hd.
          eapply mem_has_ext; [|exact Hm]. rewrite le_bytes_length. intros k Hk. apply Hun. intros j Hj Hjk.
          rewrite Forall_forall in Di. specialize (Di j Hj). unfold ai_disj, inside in *. lia.
        + intros k Hk. rewrite Hun by (intros j Hj; apply Hk; now right). apply Hmo.
          specialize (Hk i (or_introl eq_refl)). unfold inside in Hk. lia.
      - exact HX. }
    destruct (ai_size i =? 4) eqn:E4.
    + apply Z.eqb_eq in E4. unfold verifyInInt32M. apply wp_fnS. destruct (IsInInt32 (ai_disp (c_top (g_code s)) i)) eqn:Ei.
      * apply wp_ret. apply K; auto. rewrite E4. apply le_bytes_w32. lia.
      * apply wp_throw. auto.
    + apply wp_ret. apply K; auto. lia.
Qed.

Lemma le_bytes_cong x y n : w64 x = w64 y -> (n <= 8)%nat -> le_bytes x n = le_bytes y n.
Proof. intros E Hn. now rewrite <- (le_bytes_w64 x), E, le_bytes_w64. Qed.

Lemma infos_in g i : In i (infos_of g) <-> exists r, In (r, Saved) g /\ i = info_of r.
Proof.
  induction g as [|[r st] g IH]; cbn [infos_of]; [split; [intros []|intros (r & [] & _)]|].
  assert ((exists r0, In (r0, Saved) g /\ i = info_of r0) -> exists r0, In (r0, Saved) ((r, st) :: g) /\ i = info_of r0) as F
    by (intros (r0 & H & E); exists r0; split; [now right|auto]).
  destruct st; cbn [In]; rewrite ?IH.
  - split; [exact F|]. intros (r0 & [H|H] & E); [discriminate|eauto].
  - split.
    + intros [H|H]; [exists r; auto|apply F, H].
    + intros (r0 & [H|H] & E); [inversion H; subst; auto|]. right. eauto.
  - split; [exact F|]. intros (r0 & [H|H] & E); [discriminate|eauto].
Qed.
Lemma info_off r : (r_tid r = None -> r_size r = 4) -> ai_off (info_of r) = r_pos r /\ ai_size (info_of r) = r_size r.
Proof. unfold info_of. destruct (r_tid r); [destruct (r_rel r); auto|]. intros H. cbn. rewrite H; auto. Qed.
Lemma infos_disj bnd g : layout bnd g -> (forall r, In (r, Saved) g -> r_tid r = None -> r_size r = 4) -> ForallOrdPairs ai_disj (infos_of g).
Proof.
  revert bnd. induction g as [|[r st] g IH]; cbn [layout infos_of]; intros bnd H Hs; [constructor|].
  destruct H as (H1 & H2 & H3). assert (ForallOrdPairs ai_disj (infos_of g)) as K by (eapply IH; eauto; intros; apply Hs; auto; now right).
  destruct st; auto. constructor; auto. apply Forall_forall. intros i Hi. apply infos_in in Hi as (r' & Hr' & ->).
  destruct (layout_in _ _ _ H3 Hr') as (_ & A & B). cbn [fst] in *.
  destruct (info_off r) as [O1 O2]; [intros; apply Hs; auto; now left|].
  destruct (info_off r') as [P1 P2]; [intros; apply Hs; auto; now right|].
  unfold ai_disj. rewrite O1, O2, P1, P2. lia.
Qed.

Lemma info_bytes top r o : shape r -> r_val r = Some o -> (r_tid r = None -> r_size r = 4) -> (r_size r = 1 \/ r_size r = 4 \/ r_size r = 8) ->
  le_bytes (ai_disp top (info_of r)) (Z.to_nat (r_size r)) = le_bytes (want top r o) (Z.to_nat (r_size r)).
Proof.
  intros (S1 & S2 & S3) Hv Hn Hsz. apply le_bytes_cong; [|lia]. unfold info_of, want, ai_disp, valOf. rewrite Hv.
  destruct (r_tid r); [destruct (r_rel r)|]; cbn [ai_mode ai_val]; unfold w64.
  - rewrite Z.mod_mod by lia. f_equal. lia.
  - rewrite Z.mod_mod by lia. f_equal. lia.
  - rewrite Z.mod_mod, Zminus_mod_idemp_l by lia. f_equal. lia.
Qed.

Lemma s64_w64_sub x y : s64 (w64 x - y) = s64 (x - y).
Proof. rewrite <- (s64_w64 (w64 x - y)), <- (s64_w64 (x - y)). unfold w64. now rewrite Zminus_mod_idemp_l. Qed.
Definition readyg (x : gref) : gref := match snd x with Saved => (fst x, Writ) | _ => x end.

Lemma ready_refs g : map fst (map readyg g) = map fst g.
Proof. induction g as [|[r []] g IH]; cbn; f_equal; auto. Qed.
Lemma layout_ready g : forall b, layout b g -> layout b (map readyg g).
Proof. induction g as [|[r []] g IH]; cbn; intros b H; auto; destruct H as (H1 & H2 & H3); auto. Qed.

Lemma nonempty_false {A} (l : list A) : nonempty l = false -> l = [].
Proof. destruct l; [auto|discriminate]. Qed.
Lemma no_pending auto lm a g gid r : PendI auto lm a g gid -> TidI a gid g ->
  hasUndefS lm || hasUndefC lm = false -> (r_tid r <> None) -> ~ In (r, Pend) g.
Proof.
  intros [] HT Hu Hr Hin. apply orb_false_iff in Hu as [Hs Hc]. unfold hasUndefS in Hs. apply orb_false_iff in Hs as [Hf Hst].
  unfold hasUndefC in Hc. apply nonempty_false in Hf, Hc. rewrite Hf in pi_front. rewrite Hc in pi_class.
  apply Permutation_nil in pi_front, pi_class.
  destruct (r_tid r) as [t|] eqn:Ht; [|congruence]. unfold TidI in HT. rewrite Forall_forall in HT.
  destruct (HT _ Hin t Ht) as [_ HP]. destruct (HP eq_refl) as [_ Hw].
  assert (forall K (key : TId -> option K) k, key t = Some k -> pend_of key auto g <> []) as KK.
  { intros K key k Hk E. assert (In (k, jmp_of auto r) (pend_of key auto g)) as Hi; [|now rewrite E in Hi].
    unfold pend_of. apply in_flat_map. exists (r, Pend). split; auto. unfold pend1. rewrite Ht, Hk. now left. }
  destruct t; cbn [tid_wf] in Hw.
  - apply (KK _ fkey s eq_refl pi_front).
  - destruct Hw as [_ Hj]. apply (KK _ (skey scope) s); [cbn; now rewrite Nat.eqb_refl|].
    assert (exists ss, In ss (lm_stack lm) /\ Permutation (ss_undef ss) (pend_of (skey scope) auto g)) as (ss & H1 & H2).
    { clear -pi_scopes Hj. induction pi_scopes; [destruct Hj|]. destruct Hj as [->|Hj]; [exists y; split; [now left|auto]|].
      destruct (IHpi_scopes Hj) as (ss & A & B). exists ss. split; [now right|auto]. }
    assert (nonempty (ss_undef ss) = false) as E.
    { destruct (nonempty (ss_undef ss)) eqn:E; auto. rewrite <- Hst. symmetry. apply existsb_exists. eauto. }
    apply nonempty_false in E. rewrite E in H2. now apply Permutation_nil in H2.
  - apply (KK _ fkey _ eq_refl pi_front).
  - apply (KK _ (ckey gid) _ eq_refl pi_class).
Qed.

Lemma wp_ready s a : Inv s a ->
  wp ready s
    (fun s' _ => Inv s' (set_ready a true) /\ hasUndefinedLabel s = false)
    (fun s' e => e = ERR_LABEL_IS_NOT_FOUND /\ s' = s \/ e = ERR_OFFSET_IS_TOO_BIG \/ e = ERR_CANT_PROTECT).
Proof.
  intros HInv. pose proof HInv as (Hok & g & gid & bnd & HI). pose proof HI as HI0. destruct HI0. assert (Hn : g_noexc s = false) by apply Hok.
  unfold ready. apply wp_fnS, wp_bind, wp_get. destruct (hasUndefinedLabel s) eqn:Hu.
  { apply wp_throw. split; auto. }
  pose proof iv_ref as iv_ref'. destruct iv_ref.
  assert (forall x, In x g -> snd x <> Pend) as Hnp.
  { intros [r st] Hx E. cbn [snd] in E. subst st. rewrite Forall_forall in ri_ok. specialize (ri_ok _ Hx). destruct ri_ok as [_ [_ Ht]]. cbn [fst] in Ht.
    revert Hx. eapply no_pending; eauto. }
  destruct (isAutoGrowC (g_code s)) eqn:Ha.
  - rewrite <- Ha in iv_pend. apply wp_bind. unfold calcJmpAddress. apply wp_bind, wp_get.
    assert (forall s', Inv s' (set_ready a true) ->
      wp (if o_useProtect (g_or s) then mbind (setProtectMode true) (fun _ => mret tt) else mret tt) s'
        (fun s' _ => Inv s' (set_ready a true) /\ false = false)
        (fun s' e => g_noexc s' = false /\ (e = ERR_LABEL_IS_NOT_FOUND /\ s' = s \/ e = ERR_OFFSET_IS_TOO_BIG \/ e = ERR_CANT_PROTECT))) as KP.
    { intros s' Hs'. destruct (o_useProtect (g_or s)); [|apply wp_ret; split; auto; fail]. apply wp_bind. unfold setProtectMode. apply wp_fnS, wp_bind, wp_get.
      destruct (o_protect (g_or s')).
      - apply wp_ret, wp_ret. auto.
      - apply wp_throw. split; [apply Hs'|]. split; [apply Hs'|]. auto. }
    destruct (c_called (g_code s)) eqn:Hc.
    + apply wp_ret. apply KP. assert (sp_ready a = true) as Hr by (destruct (sp_ready a); auto).
      replace (set_ready a true) with a; [exact HInv|]. destruct a; cbn in *; now subst.
    + assert (sp_ready a = false) as Hr by (destruct (sp_ready a); [discriminate|auto]).
      assert (forall r, In (r, Saved) g -> r_tid r = None -> r_size r = 4) as H4.
      { intros r Hx. rewrite Forall_forall in ri_ok. destruct (ri_ok _ Hx) as [_ (_ & _ & o & _ & _ & H)]. exact H. }
      specialize (ri_infos eq_refl Hr).
      apply wp_bind. apply wp_calcLoop.
      * exact Hok.
      * apply Forall_forall. intros i Hi. apply (Permutation_in _ ri_infos) in Hi. apply infos_in in Hi as (r & Hx & ->).
        destruct (layout_in _ _ _ ri_layout Hx) as (A & B & C). cbn [fst] in *. destruct (info_off r (H4 r Hx)) as [O1 O2].
        unfold ai_ok. rewrite O1, O2. split; [exact A|]. lia.
      * eapply FOP_perm; [|apply Permutation_sym; exact ri_infos|eapply infos_disj; eauto].
        unfold ai_disj. intros; lia.
      * intros m Hdone Hun. unfold with_code. apply wp_put. apply KP.
        split; [split; [exact Hn|split; [|apply Hok]]; destruct Hok as (_ & [] & _); constructor; auto|].
        exists (map readyg g), gid, bnd. cbn [g_code set_code g_lm g_labels]. set (c' := c_setcalled _ true).
        assert (isAutoGrowC c' = isAutoGrowC (g_code s)) as Ha' by reflexivity.
        assert (c_top c' = c_top (g_code s)) as Ht' by reflexivity.
        constructor; cbn [set_ready sp_refs sp_ready]; auto.
        -- now rewrite ready_refs.
        -- constructor; auto.
           ++ now apply layout_ready.
           ++ apply Forall_forall. intros x Hx. apply in_map_iff in Hx as ([r st] & <- & Hx). pose proof Hx as Hx'.
              rewrite Forall_forall in ri_ok. specialize (ri_ok _ Hx). destruct ri_ok as [Hsh Hst]. cbn [fst snd] in *.
              destruct (layout_in _ _ _ ri_layout Hx) as (A & B & C). cbn [fst] in *.
              destruct st; unfold readyg; cbn [fst snd].
              ** exfalso. now apply (Hnp _ Hx).
              ** destruct Hst as (_ & _ & o & Hv & Hf & Hn4). split; [exact Hsh|]. cbn [fst snd]. exists o. do 2 (split; auto).
                 cut (field c' r o /\ (r_tid r = None -> fits (r_size r) (s64 (want (c_top c') r o)))).
                 { intros [K1 K2]. split; [exact K1|]. split; [congruence|auto]. }
                 unfold field. rewrite Ht'. change (c_mem c') with m. rewrite Forall_forall in Hdone.
                 assert (In (info_of r) (c_infos (g_code s))) as Hin.
                 { apply (Permutation_in _ (Permutation_sym ri_infos)). apply infos_in. eauto. }
                 destruct (Hdone _ Hin) as [Hm Hi4]. destruct (info_off r Hn4) as [O1 O2]. rewrite O1, O2 in Hm. cbn [c_setmem c_mem c_top] in Hm.
                 rewrite (info_bytes _ r o) in Hm; auto. split; [exact Hm|].
                 intros Htn. rewrite O2 in Hi4. specialize (Hi4 (Hn4 Htn)). apply IsInInt32_s64 in Hi4. unfold fits. rewrite !(Hn4 Htn). cbn [Z.eqb Pos.eqb].
                 cbn [c_setmem c_top] in Hi4. unfold ai_disp, info_of in Hi4. rewrite Htn in Hi4. cbn [ai_mode ai_val] in Hi4. rewrite s64_w64 in Hi4.
                 unfold want. rewrite Htn. rewrite s64_w64_sub in Hi4.
                 replace (r_d r - (c_top (g_code s) + r_pos r + r_size r)) with (r_d r - (r_pos r + r_size r) - c_top (g_code s)) by lia. exact Hi4.
              ** destruct Hst as (o & Hv & Hf & Hfi & Hau & Hab). split; [exact Hsh|]. cbn [fst snd]. exists o. do 2 (split; auto). split; [|split; [congruence|exact Hab]].
                 unfold field in *. rewrite Ht'. change (c_mem c') with m. eapply mem_has_ext; [|exact Hfi]. rewrite le_bytes_length.
                 intros k Hk. apply Hun. intros i Hi Hik. apply (Permutation_in _ ri_infos) in Hi. apply infos_in in Hi as (r' & Hx2 & ->).
                 destruct (info_off r' (H4 r' Hx2)) as [O1 O2]. unfold inside in Hik. rewrite O1, O2 in Hik.
                 pose proof (layout_disj _ _ ri_layout) as HD.
                 assert (r <> r' -> rdisj r r') as HD2.
                 { intros Hne. destruct (ForallOrdPairs_In HD r r') as [E|[E|E]]; auto.
                   - apply in_map_iff. exists (r, Writ). auto.
                   - apply in_map_iff. exists (r', Saved). auto.
                   - contradiction.
                   - unfold rdisj in *. lia. }
                 assert (r = r' -> False) as Hrr.
                 { intros <-. clear -ri_layout Hx Hx2. revert bnd ri_layout Hx Hx2. induction g as [|[r0 st0] g IH]; cbn [layout]; intros bnd L Hx Hx2; [destruct Hx|]. destruct L as (L1 & L2 & L3).
                   destruct Hx as [Hx|Hx], Hx2 as [Hx2|Hx2].
                   - congruence.
                   - inversion Hx; subst. destruct (layout_in _ _ _ L3 Hx2) as (A & B & C). cbn [fst] in *. lia.
                   - inversion Hx2; subst. destruct (layout_in _ _ _ L3 Hx) as (A & B & C). cbn [fst] in *. lia.
                   - eapply IH; eauto. }
                 destruct HD2; [auto|lia|lia].
           ++ discriminate.
           ++ rewrite Ha', Ha. reflexivity.
        -- destruct iv_pend. assert (forall K (key : TId -> option K) au, pend_of key au (map readyg g) = pend_of key au g) as Hpe.
           { intros K key au. clear. unfold pend_of. induction g as [|[r []] g IH]; cbn [map flat_map readyg snd fst pend1]; rewrite ?IH; reflexivity. }
           rewrite Ha'. constructor; rewrite ?Hpe; auto. eapply Forall2_impl; [|exact pi_scopes]. intros j ss. now rewrite Hpe.
        -- destruct iv_name. constructor; auto.
        -- eapply ObjI_ext; eauto.
        -- unfold TidI in *. rewrite Forall_forall in *. intros x Hx. apply in_map_iff in Hx as (y & <- & Hy). specialize (iv_tid y Hy).
           intros t Ht. assert (fst (readyg y) = fst y) as E by (destruct y as [r []]; reflexivity). rewrite E in Ht. destruct (iv_tid t Ht) as [H1 H2]. split; auto.
           intros Hp. exfalso. apply (Hnp _ Hy). destruct y as [r []]; cbn in *; auto; discriminate.
      * intros s' Hs'. auto.
  - apply wp_ret. split; auto. split; [exact Hok|]. exists g, gid, bnd. constructor; auto.
    + constructor; auto.
      * rewrite Forall_forall in *. intros x Hx. specialize (ri_ok x Hx). destruct ri_ok as [Hsh Hst]. split; auto.
        destruct (snd x); auto; rewrite Ha in *; [destruct Hst; discriminate|]. destruct Hst as (o & A & B & C & D & E). exists o. do 3 (split; auto). split; discriminate.
      * rewrite Ha. discriminate.
      * rewrite Ha in *. exact ri_called.
    + rewrite Ha. destruct iv_pend. constructor; auto.
    + destruct iv_name. constructor; auto.
    + eapply ObjI_ext; eauto.
Qed.
