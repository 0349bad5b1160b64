(* Every call of the API preserves the label invariant. *)
From Coq Require Import ZArith List Bool String Arith Lia ZifyBool Permutation.
From Verif Require Import Base Types Emit EmitFacts Encode State Code Label Gen Wp CodeFacts SpecLabel LabelFacts LabelInv LabelEmit LabelDefine.
Import ListNotations.
Open Scope Z_scope.

Lemma isDef_ext a a' i : sp_defs a' (TObj i) = sp_defs a (TObj i) -> isDef a' i = isDef a i.
Proof. unfold isDef. now intros ->. Qed.
Lemma ObjI_ext lm lm' lbl a a' gid :
  ObjI lm lbl a gid -> lm_nextId lm' = lm_nextId lm -> lm_def lm' = lm_def lm -> lm_ptrs lm' = lm_ptrs lm ->
  (forall i, sp_defs a' (TObj i) = sp_defs a (TObj i)) -> sp_lab a' = sp_lab a -> sp_nlab a' = sp_nlab a ->
  sp_epoch a' = sp_epoch a -> sp_touched a' = sp_touched a -> ObjI lm' lbl a' gid.
Proof.
  intros [] E1 E2 E3 E4 E5 E6 E7 E8.
  assert (forall h, labOf a' h = labOf a h) as E9 by (intros; unfold labOf; now rewrite E5).
  assert (forall i, isDef a' i = isDef a i) as E10 by (intros; apply isDef_ext; auto).
  assert (forall i, old a i -> old a' i) as E11 by (intros [] ; cbn [old]; rewrite ?E6, ?E7; auto).
  constructor; rewrite ?E1, ?E2, ?E3, ?E5, ?E8; auto.
  - intros i. rewrite E4. auto.
  - intros i. rewrite E4. auto.
  - intros h i. rewrite E9. eauto.
  - intros h. rewrite E9. specialize (oi_lab h). destruct (labOf a h); auto. now rewrite E10.
  - intros i. rewrite E10. auto.
  - intros h. rewrite oi_ptrs. split; intros (i & H1 & H2); exists i; rewrite ?E9, ?E10 in *; auto.
Qed.


Lemma Forall2_impl_in {A B} (P Q : A -> B -> Prop) l l' :
  (forall a b, In a l -> P a b -> Q a b) -> Forall2 P l l' -> Forall2 Q l l'.
Proof. intros H F. induction F; constructor; [apply H; [now left|assumption]|]. apply IHF. intros. apply H; [now right|assumption]. Qed.

Lemma special_false_f k : special k = false -> k <> "@f"%string.
Proof. unfold special. intros H ->. discriminate. Qed.
Lemma special_false_b k : special k = false -> k <> "@b"%string.
Proof. unfold special. intros H ->. discriminate. Qed.
Lemma seqb_ok a b : String.eqb a b = true <-> a = b.
Proof. apply String.eqb_eq. Qed.

(* one definition of a name kept in the front list: an ordinary global name or "@@" *)
Lemma wp_define_front k t s a g gid bnd lm0 (Q : St -> unit -> Prop) (X : St -> xerr -> Prop) :
  ok_st s -> Inv0 (g_code s) lm0 (g_labels s) a g gid bnd -> isAutoGrowC (g_code s) && sp_ready a = false ->
  isLocalStr k = false -> fkey t = Some k -> tid_wf a t ->
  neStack (g_lm s) -> ss_undef (lm_front (g_lm s)) = ss_undef (lm_front lm0) ->
  (forall c' u, 
     code_wf c' -> isAutoGrowC c' = isAutoGrowC (g_code s) -> c_size c' = c_size (g_code s) ->
     assoc String.eqb k (ss_def (lm_front (g_lm s))) = None ->
     RefI c' (sp_ready a) (map (resolveg t (c_size (g_code s)) (isAutoGrowC (g_code s))) g) bnd ->
     Permutation u (pend_of fkey (isAutoGrowC (g_code s)) (map (resolveg t (c_size (g_code s)) (isAutoGrowC (g_code s))) g)) ->
     Q (set_lm (set_code s c') (setSS (g_lm s) false (mkSS ((k, c_size (g_code s)) :: ss_def (lm_front (g_lm s))) u))) tt) ->
  (assoc String.eqb k (ss_def (lm_front (g_lm s))) <> None -> X s ERR_LABEL_IS_REDEFINED) ->
  (forall s' e, g_noexc s' = false -> e = ERR_OFFSET_IS_TOO_BIG \/ e = ERR_LABEL_IS_TOO_FAR -> X s' e) ->
  wp (define_inner String.eqb (getUS k) (setUS k) (insertS k (c_size (g_code s))) k (c_size (g_code s))) s Q X.
Proof.
  intros Hok HI Hnf Hl Hk Hw Hne Hund HQ HX1 HX2. destruct HI. destruct iv_pend.
  apply (wp_define_keyed String.eqb seqb_ok (getUS k) (setUS k) (getset_US k) (setset_US k) neStack (neStack_set k) (setget_US k)
           fkey t k Hk _ _ s (sp_ready a) g bnd); auto.
  - intros lm' Hi. eapply insertS_neStack; eauto.
  - unfold getUS. rewrite Hl. cbn [getSS]. rewrite Hund. exact pi_front.
  - eapply kinj_front; eauto.
  - intros lm1 u c' Hi W Ha Hs Ht HR HP.
    unfold insertS in Hi. rewrite Hl in Hi. cbn [getSS] in Hi.
    destruct (assoc String.eqb k (ss_def (lm_front (g_lm s)))) eqn:E; [discriminate|]. inversion Hi; subst lm1; clear Hi.
    unfold setUS. rewrite Hl. cbn [getSS setSS lm_front ss_def]. apply HQ; auto.
  - intros Hi. unfold insertS in Hi. rewrite Hl in Hi. cbn [getSS] in Hi. apply HX1.
    destruct (assoc String.eqb k (ss_def (lm_front (g_lm s)))); congruence.
Qed.

Lemma PendI_front auto lm lm' a a' g gid t o u :
  PendI auto lm a g gid -> (forall j, skey j t = None) -> ckey gid t = None ->
  Permutation u (pend_of fkey auto (map (resolveg t o auto) g)) ->
  ss_undef (lm_front lm') = u -> lm_stack lm' = lm_stack lm -> lm_undef lm' = lm_undef lm -> sp_scopes a' = sp_scopes a ->
  PendI auto lm' a' (map (resolveg t o auto) g) gid.
Proof.
  intros [] Hs Hc HP E1 E2 E3 E4. constructor; rewrite ?E1, ?E2, ?E3, ?E4; auto.
  - eapply Forall2_impl; [|exact pi_scopes]. intros j ss H. now rewrite pend_resolve_none.
  - now rewrite pend_resolve_none.
Qed.

Definition L_err (e : xerr) : Prop := e = ERR_OFFSET_IS_TOO_BIG \/ e = ERR_LABEL_IS_TOO_FAR.

Lemma wp_L_str k s a :
  Inv s a -> isAutoGrowC (g_code s) && sp_ready a = false ->
  wp (defineSlabel k) s
    (fun s' _ => if String.eqb k "@@"%string
                 then Inv s' (set_anon (specDefine a (TAnon (S (sp_anon a))) (c_size (g_code s))) (S (sp_anon a)))
                 else exists t, tid_of a (LStr k) = Some t /\ Inv s' (specDefine a t (c_size (g_code s))))
    (fun s' e => (e = ERR_LABEL_IS_REDEFINED \/ e = ERR_BAD_LABEL_STR) /\ Inv s' a \/ L_err e).
Proof.
  intros HInv Hnf. pose proof HInv as (Hok & g & gid & bnd & HI). set (p := c_size (g_code s)) in *.
  assert (0 <= p) as Hp by (destruct Hok as (_ & [] & _); auto).
  assert (g_noexc s = false) as Hn by apply Hok.
  unfold defineSlabel. apply wp_fnS.
  destruct (String.eqb k "@b"%string || String.eqb k "@f"%string) eqn:Ebf.
  { apply wp_throw. split; [exact Hn|]. left. split; [now right|exact HInv]. }
  apply orb_false_iff in Ebf as [Eb Ef].
  assert (special k = false) as Hsp by (unfold special; now rewrite Eb, Ef).
  pose proof HI as HI0. destruct HI0. pose proof (NameI_ne _ _ iv_name) as Hne.
  pose proof (ri_ok _ _ _ _ iv_ref) as Hrok.
  destruct (String.eqb k "@@"%string) eqn:Eaa.
  - (* "@@" *)
    set (n := sp_anon a) in *. set (lab := if Nat.even (S n) then "@b"%string else "@f"%string).
    set (t := TAnon (S n)).
    destruct iv_name.
    assert (isLocalStr lab = false) as Hloc by (unfold lab; apply (not_local_anon (S n))).
    (* after the renaming *)
    assert (forall d1, (forall s0, special s0 = false -> assoc String.eqb s0 d1 = assoc String.eqb s0 (ss_def (lm_front (g_lm s)))) ->
       assoc String.eqb "@f"%string d1 = None -> assoc String.eqb "@b"%string d1 = None ->
       forall s1, s1 = set_lm s (setSS (g_lm s) false (mkSS d1 (ss_undef (lm_front (g_lm s))))) ->
       wp (mbind (get g_code) (fun c => define_inner String.eqb (getUS lab) (setUS lab) (insertS lab (c_size c)) lab (c_size c))) s1
         (fun s' _ => Inv s' (set_anon (specDefine a t p) (S n)))
         (fun s' e => g_noexc s' = false /\ ((e = ERR_LABEL_IS_REDEFINED \/ e = ERR_BAD_LABEL_STR) /\ Inv s' a \/ L_err e))) as K.
    { intros d1 Hd1 Hf1 Hb1 s1 ->. apply wp_bind, wp_get. cbn [g_code set_lm]. fold p.
      set (s1 := set_lm s _). change p with (c_size (g_code s1)).
      eapply (wp_define_front lab t s1 a g gid bnd (g_lm s)); auto.
      - cbn [tid_wf t]. reflexivity.
      - intros c' u W Ha Hs Hnone HR HP. change (g_code s1) with (g_code s) in *.
        split; [split; [exact Hn|split; [exact W|apply Hok]]|].
        exists (map (resolveg t p (isAutoGrowC (g_code s))) g), gid, bnd. cbn [g_code set_lm set_code g_lm g_labels s1].
        fold p in HR, HP. change (c_size (g_code s)) with p. constructor.
        + cbn [set_anon sp_refs specDefine set_refs set_defs]. rewrite <- iv_refs. eapply resolve_refs; eauto.
        + exact HR.
        + rewrite Ha. eapply (PendI_front (isAutoGrowC (g_code s)) (g_lm s)); eauto.
        + assert (forall t', t' <> t -> sp_defs (set_anon (specDefine a t p) (S n)) t' = sp_defs a t') as Hoth
            by (intros t' Ht'; apply updT_other; auto).
          assert (forall m, m <> S n -> sp_defs (set_anon (specDefine a t p) (S n)) (TAnon m) = sp_defs a (TAnon m)) as HothA
            by (intros m Hm; apply Hoth; unfold t; congruence).
          assert (sp_defs (set_anon (specDefine a t p) (S n)) (TAnon (S n)) = Some p) as Hsame by apply updT_same.
          constructor; cbn [setSS lm_front lm_stack ss_def sp_anon set_anon sp_scopes specDefine set_refs set_defs sp_nscope]; auto.
          * intros s0 Hl0 Hs0. rewrite assoc_cons_other by (apply seqb_ok || (unfold lab; destruct (Nat.even (S n)); [apply special_false_b|apply special_false_f]; auto)).
            rewrite Hd1 by assumption. rewrite ni_glob by assumption. symmetry. apply Hoth. discriminate.
          * rewrite Nat.odd_succ. rewrite Hsame.
            unfold lab. rewrite Nat.even_succ, <- Nat.negb_even. destruct (Nat.even n); cbn [negb].
            -- apply assoc_cons_same. apply seqb_ok.
            -- rewrite assoc_cons_other; [exact Hf1|apply seqb_ok|discriminate].
          * rewrite Hsame.
            unfold lab. destruct (Nat.even (S n)).
            -- apply assoc_cons_same. apply seqb_ok.
            -- rewrite assoc_cons_other; [exact Hb1|apply seqb_ok|discriminate].
          * intros m. destruct (Nat.eq_dec m (S n)) as [->|Hm].
            -- change (updT (sp_defs a) t (Some p) (TAnon (S n)) <> None <-> (1 <= S n <= S n)%nat).
               change (TAnon (S n)) with t. rewrite updT_same. split; [lia|discriminate].
            -- change (sp_defs (set_anon (specDefine a t p) (S n)) (TAnon m) <> None <-> (1 <= m <= S n)%nat).
               rewrite HothA by assumption. rewrite ni_anon. fold n. lia.
        + eapply ObjI_ext; [exact iv_obj|reflexivity|reflexivity|reflexivity| |reflexivity|reflexivity|reflexivity|reflexivity].
          intros i. apply updT_other. discriminate.
        + eapply TidI_define; [exact iv_tid| |reflexivity|right; reflexivity]. intros t' Ht'. apply updT_other. auto.
        + eapply DefI_define; [exact iv_def|exact Hs| |intros; reflexivity]. fold p. lia.
      - intros Hx. exfalso. apply Hx. cbn [s1 g_lm set_lm setSS lm_front ss_def]. unfold lab. destruct (Nat.even (S n)); assumption.
      }
    apply wp_bind, wp_bind, wp_get. unfold sIn. rewrite ni_f, ni_b. fold n.
    assert (n = 0%nat \/ sp_defs a (TAnon n) <> None) as Hdn by (destruct n eqn:En; [now left|right; apply ni_anon; fold n; rewrite En; lia]).
    assert (forall s0, special s0 = false -> s0 <> "@f"%string /\ s0 <> "@b"%string) as Hspd.
    { intros s0 H0. split; [apply special_false_f|apply special_false_b]; auto. }
    fold lab in K. fold n in ni_f, ni_b. rewrite <- Nat.negb_even in *. destruct (Nat.even n) eqn:Ev; cbn [negb] in *.
    + destruct (sp_defs a (TAnon n)) as [o|] eqn:Ed.
      * apply wp_bind. unfold with_lm. apply wp_put. apply wp_ret.
        replace "@f"%string with lab by (unfold lab; rewrite Nat.even_succ, <- Nat.negb_even, Ev; reflexivity).
        eapply (K (erase String.eqb "@b"%string (ss_def (lm_front (g_lm s))))); [| | |reflexivity].
        -- intros s0 H0. apply assoc_erase_other; [apply seqb_ok|apply Hspd, H0].
        -- rewrite assoc_erase_other; [exact ni_f|apply seqb_ok|discriminate].
        -- apply assoc_erase_same. apply seqb_ok.
      * apply wp_ret. replace "@f"%string with lab by (unfold lab; rewrite Nat.even_succ, <- Nat.negb_even, Ev; reflexivity).
        eapply (K (ss_def (lm_front (g_lm s)))); auto. destruct s as [? [[] ? ? ? ? ?] ? ? ? ? ? ? ?]; reflexivity.
    + destruct (sp_defs a (TAnon n)) as [o|] eqn:Ed.
      * apply wp_bind. unfold with_lm. apply wp_put. apply wp_ret.
        replace "@b"%string with lab by (unfold lab; rewrite Nat.even_succ, <- Nat.negb_even, Ev; reflexivity).
        eapply (K (erase String.eqb "@f"%string (ss_def (lm_front (g_lm s))))); [| | |reflexivity].
        -- intros s0 H0. apply assoc_erase_other; [apply seqb_ok|apply Hspd, H0].
        -- apply assoc_erase_same. apply seqb_ok.
        -- rewrite assoc_erase_other; [exact ni_b|apply seqb_ok|discriminate].
      * exfalso. destruct Hdn as [Hz|Hz]; [rewrite Hz in Ev; discriminate|congruence].
  - apply wp_bind, wp_ret, wp_bind, wp_get. fold p.
    unfold tid_of. rewrite Eb, Ef. destruct (isLocalStr k) eqn:El.
    + (* local *)
      destruct iv_name. destruct iv_pend.
      destruct (sp_scopes a) as [|j js] eqn:Hsc; [congruence|]. cbn [hd].
      destruct (lm_stack (g_lm s)) as [|ss sss] eqn:Hst; [inversion ni_scopes|].
      inversion ni_scopes as [|? ? ? ? N1 N2]; subst. inversion pi_scopes as [|? ? ? ? P1 P2]; subst.
      inversion ni_nodup as [|? ? D1 D2]; subst.
      set (t := TLocal j k).
      assert (skey j t = Some k) as Hkt by (cbn; now rewrite Nat.eqb_refl).
      apply (wp_define_keyed String.eqb seqb_ok (getUS k) (setUS k) (getset_US k) (setset_US k) neStack (neStack_set k) (setget_US k)
           (skey j) t k Hkt _ _ s (sp_ready a) g bnd); auto.
      * intros lm' Hi. eapply insertS_neStack; eauto.
      * unfold getUS. rewrite El. cbn [getSS]. rewrite Hst. cbn [hd]. exact P1.
      * apply kinj_scope. exact Hkt.
      * intros lm1 u c' Hi W Ha Hs Ht HR HP.
        unfold insertS in Hi. rewrite El in Hi. cbn [getSS] in Hi. rewrite Hst in Hi. cbn [hd] in Hi.
        destruct (assoc String.eqb k (ss_def ss)) eqn:E; [discriminate|]. inversion Hi; subst lm1; clear Hi.
        unfold setUS. rewrite El. cbn [getSS setSS lm_front lm_stack hd tl ss_def]. rewrite Hst. cbn [tl].
        assert (forall t', t' <> t -> sp_defs (specDefine a t p) t' = sp_defs a t') as Hoth
            by (intros t' Ht'; apply updT_other; auto).
        exists t. split; [reflexivity|]. split; [split; [exact Hn|split; [exact W|apply Hok]]|].
        exists (map (resolveg t p (isAutoGrowC (g_code s))) g), gid, bnd. cbn [g_code set_lm set_code g_lm g_labels].
        constructor.
        -- cbn [sp_refs specDefine set_refs set_defs]. rewrite <- iv_refs. eapply resolve_refs; eauto.
        -- exact HR.
        -- rewrite Ha. constructor; cbn [lm_front lm_stack lm_undef].
           ++ rewrite pend_resolve_none by reflexivity. assumption.
           ++ cbn [specDefine set_refs set_defs sp_scopes]. rewrite Hsc. constructor; [exact HP|].
              eapply Forall2_impl_in; [|exact P2]. intros j' ss' Hin H. rewrite pend_resolve_none; [exact H|].
              cbn. destruct (Nat.eqb j' j) eqn:Ej; auto. apply Nat.eqb_eq in Ej. subst. contradiction.
           ++ rewrite pend_resolve_none by reflexivity. assumption.
        -- constructor; cbn [lm_front lm_stack]; cbn [specDefine set_refs set_defs sp_scopes sp_anon sp_nscope]; rewrite ?Hsc; auto.
           ++ constructor.
              ** cbn [ss_def]. intros s0 Hl0. destruct (String.eqb s0 k) eqn:Es.
                 --- apply String.eqb_eq in Es. subst s0. rewrite assoc_cons_same by apply seqb_ok. symmetry. apply updT_same.
                 --- apply String.eqb_neq in Es. rewrite assoc_cons_other by (apply seqb_ok || auto). rewrite N1 by assumption.
                     symmetry. apply Hoth. unfold t. congruence.
              ** eapply Forall2_impl_in; [|exact N2]. intros j' ss' Hin H s0 Hl0. rewrite H by assumption. symmetry. apply Hoth.
                 unfold t. intros E'. inversion E'; subst. contradiction.
           ++ intros j' s0 Hj. change (sp_defs (specDefine a t p) (TLocal j' s0) = None). rewrite Hoth; auto.
              unfold t. intros E'. inversion E'; subst. inversion ni_lt; subst. lia.
        -- eapply ObjI_ext; [exact iv_obj|reflexivity|reflexivity|reflexivity| |reflexivity|reflexivity|reflexivity|reflexivity].
           intros i. apply Hoth. discriminate.
        -- eapply TidI_define; [exact iv_tid| |reflexivity|left; reflexivity]. intros t' Ht'. apply Hoth. auto.
        -- eapply DefI_define; [exact iv_def|exact Hs| |intros; reflexivity]. fold p. lia.
    + (* global *)
      set (t := TGlobal k).
      eapply (wp_define_front k t s a g gid bnd (g_lm s)); auto; try reflexivity.
      * cbn [tid_wf t]. auto.
      * intros c' u W Ha Hs Hnone HR HP. fold p in HR, HP.
        assert (forall t', t' <> t -> sp_defs (specDefine a t p) t' = sp_defs a t') as Hoth
            by (intros t' Ht'; apply updT_other; auto).
        exists t. split; [reflexivity|]. split; [split; [exact Hn|split; [exact W|apply Hok]]|].
        exists (map (resolveg t p (isAutoGrowC (g_code s))) g), gid, bnd. cbn [g_code set_lm set_code g_lm g_labels].
        constructor.
        -- cbn [sp_refs specDefine set_refs set_defs]. rewrite <- iv_refs. eapply resolve_refs; eauto.
        -- exact HR.
        -- rewrite Ha. eapply (PendI_front (isAutoGrowC (g_code s)) (g_lm s)); eauto.
        -- destruct iv_name. constructor; cbn [setSS lm_front lm_stack ss_def]; cbn [specDefine set_refs set_defs sp_scopes sp_anon sp_nscope]; auto.
           ++ intros s0 Hl0 Hs0. destruct (String.eqb s0 k) eqn:Es.
              --- apply String.eqb_eq in Es. subst s0. rewrite assoc_cons_same by apply seqb_ok. symmetry. apply updT_same.
              --- apply String.eqb_neq in Es. rewrite assoc_cons_other by (apply seqb_ok || auto). rewrite ni_glob by assumption.
                  symmetry. apply Hoth. unfold t. congruence.
           ++ rewrite assoc_cons_other by (apply seqb_ok || (intros E; symmetry in E; revert E; apply special_false_f; auto)).
              exact ni_f.
           ++ rewrite assoc_cons_other by (apply seqb_ok || (intros E; symmetry in E; revert E; apply special_false_b; auto)).
              exact ni_b.
        -- eapply ObjI_ext; [exact iv_obj|reflexivity|reflexivity|reflexivity| |reflexivity|reflexivity|reflexivity|reflexivity].
           intros i. apply Hoth. discriminate.
        -- eapply TidI_define; [exact iv_tid| |reflexivity|left; reflexivity]. intros t' Ht'. apply Hoth. auto.
        -- eapply DefI_define; [exact iv_def|exact Hs| |intros; reflexivity]. fold p. lia.
Qed.
