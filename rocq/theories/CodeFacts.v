(* Facts about CodeArray operations (exception mode). *)
From Coq Require Import ZArith List Bool Lia ZifyBool.
From Verif Require Import Base Types Emit EmitFacts State Code Wp.
Import ListNotations.
Open Scope Z_scope.

(* the address space is at most 2^48 bytes: larger requests fail *)
Definition alloc_bounded (or : Oracle) : Prop :=
  forall k n, 281474976710656 <= n -> o_alloc or k n = None.

Record code_wf (c : Code) : Prop := mkCwf {
  cw_size0 : 0 <= c_size c;
  cw_size : c_size c <= c_max c;
  cw_cap : c_max c <= c_cap c;
  cw_max : c_max c < 18446744073709551616;
  cw_auto : isAutoGrowC c = true -> c_max c < 281474976710656 }.

(* c' is c with more bytes appended (and, for AutoGrow, possibly moved) *)
Record ext (c c' : Code) : Prop := mkExt {
  ex_type : c_type c' = c_type c;
  ex_infos : c_infos c' = c_infos c;
  ex_called : c_called c' = c_called c;
  ex_size : c_size c <= c_size c';
  ex_mem : forall i, 0 <= i < c_size c -> c_mem c' i = c_mem c i;
  ex_fixed : isAutoGrowC c = false ->
     c_top c' = c_top c /\ c_max c' = c_max c /\ c_cap c' = c_cap c
     /\ (forall i, i < 0 \/ c_size c' <= i -> c_mem c' i = c_mem c i) }.

Lemma ext_refl c : ext c c.
Proof. constructor; auto; lia. Qed.
Lemma ext_auto c c' : ext c c' -> isAutoGrowC c' = isAutoGrowC c.
Proof. intros H. unfold isAutoGrowC. now rewrite (ex_type _ _ H). Qed.
Lemma ext_trans a b c : ext a b -> ext b c -> ext a c.
Proof.
  intros H1 H2. pose proof (ex_size _ _ H1). pose proof (ex_size _ _ H2).
  constructor.
  - now rewrite (ex_type _ _ H2), (ex_type _ _ H1).
  - now rewrite (ex_infos _ _ H2), (ex_infos _ _ H1).
  - now rewrite (ex_called _ _ H2), (ex_called _ _ H1).
  - lia.
  - intros i Hi. rewrite (ex_mem _ _ H2) by lia. apply (ex_mem _ _ H1); lia.
  - intros Ha. destruct (ex_fixed _ _ H1 Ha) as (A1 & A2 & A3 & A4).
    assert (isAutoGrowC b = false) as Hb by (rewrite (ext_auto _ _ H1); exact Ha).
    destruct (ex_fixed _ _ H2 Hb) as (B1 & B2 & B3 & B4).
    do 3 (split; [congruence|]). intros i Hi. rewrite B4 by lia. apply A4. lia.
Qed.

Lemma set_code_same s : set_code s (g_code s) = s.
Proof. destruct s; reflexivity. Qed.

(* bytes never fail to be written inside the buffer *)
Lemma wp_poke i v s (Q : St -> unit -> Prop) X :
  0 <= i < c_cap (g_code s) ->
  Q (set_code s (c_setmem (g_code s) (upd (c_mem (g_code s)) i v))) tt -> wp (poke i v) s Q X.
Proof.
  intros H HQ. unfold wp, poke.
  replace ((0 <=? i) && (i <? c_cap (g_code s))) with true by lia. exact HQ.
Qed.

Lemma wp_growMemory s :
  code_wf (g_code s) -> isAutoGrowC (g_code s) = true -> g_noexc s = false -> alloc_bounded (g_or s) ->
  wp growMemory s
    (fun s' _ => exists c', s' = set_code s c' /\ ext (g_code s) c' /\ code_wf c'
                            /\ c_size c' = c_size (g_code s) /\ c_size c' + 16 < c_max c')
    (fun s' e => e = ERR_CANT_ALLOC /\ exists c', s' = set_code s c' /\ ext (g_code s) c' /\ code_wf c'
                            /\ c_size c' = c_size (g_code s)).
Proof.
  intros W Ha Hn Hb. destruct W. specialize (cw_auto0 Ha).
  unfold growMemory. apply wp_fnS, wp_bind, wp_get, wp_bind.
  unfold wp, allocM. cbn -[Z.max Z.mul w64].
  set (c := g_code s) in *. set (n := Z.max DEFAULT_MAX_CODE_SIZE (w64 (c_max c * 2))).
  assert (w64 (c_max c * 2) = c_max c * 2) as Hw by (unfold w64; apply Z.mod_small; lia).
  assert (n = Z.max 4096 (c_max c * 2)) as Hnn by (unfold n; rewrite Hw; reflexivity).
  destruct (o_alloc (g_or s) (c_nalloc c) n) as [[p m]|] eqn:Ho.
  - assert (n < 281474976710656).
    { destruct (Z_lt_le_dec n 281474976710656); auto. rewrite Hb in Ho by assumption. discriminate. }
    cbn -[Z.max Z.mul w64 Z.ltb].
    replace ((n <? c_size c) || (c_cap c <? c_size c)) with false by lia.
    cbn -[Z.max Z.mul w64 Z.ltb Z.leb].
    eexists. split; [reflexivity|]. cbn -[Z.max Z.mul w64 Z.ltb Z.leb]. split; [|split; [|split; [reflexivity|lia]]].
    + constructor; cbn -[Z.ltb Z.leb]; auto; try lia.
      intros i Hi. replace ((0 <=? i) && (i <? c_size c)) with true by lia. reflexivity.
    + constructor; cbn; try lia.
  - cbn. split; [exact Hn|]. split; [reflexivity|].
    eexists. split; [reflexivity|]. split; [|split; [|reflexivity]].
    + constructor; cbn; auto; lia.
    + constructor; cbn; auto.
Qed.

Lemma isAutoGrow_of c c' : c_type c' = c_type c -> isAutoGrowC c' = isAutoGrowC c.
Proof. unfold isAutoGrowC. now intros ->. Qed.

Definition db_err (auto : bool) (e : xerr) : Prop :=
  e = if auto then ERR_CANT_ALLOC else ERR_CODE_IS_TOO_BIG.

(* a state is usable: exception mode, well-formed buffer, bounded allocator *)
Definition ok_st (s : St) : Prop := g_noexc s = false /\ code_wf (g_code s) /\ alloc_bounded (g_or s).
Lemma ok_set_code s c : ok_st s -> code_wf c -> ok_st (set_code s c).
Proof. intros (H1 & H2 & H3) W. split; [exact H1|split; [exact W|exact H3]]. Qed.

Lemma wp_dbM b s :
  ok_st s ->
  wp (dbM b) s
    (fun s' _ => exists c', s' = set_code s c' /\ ext (g_code s) c' /\ code_wf c'
                            /\ c_size c' = c_size (g_code s) + 1 /\ c_mem c' (c_size (g_code s)) = w8 b)
    (fun s' e => db_err (isAutoGrowC (g_code s)) e /\ c_max (g_code s) <= c_size (g_code s) /\
                 exists c', s' = set_code s c' /\ ext (g_code s) c' /\ code_wf c'
                            /\ c_size c' = c_size (g_code s)).
Proof.
  intros (Hn & W & Hb). unfold dbM. apply wp_fnS, wp_bind, wp_get, wp_bind.
  set (c := g_code s) in *.
  assert (forall s', (exists c', s' = set_code s c' /\ ext c c' /\ code_wf c' /\ c_size c' = c_size c /\ c_size c' < c_max c') ->
    wp (mbind (get g_code) (fun c0 => mbind (poke (c_size c0) (w8 b)) (fun _ => with_code (fun c1 => c_setsize c1 (w64 (c_size c1 + 1))))))
      s' (fun s'0 _ => exists c', s'0 = set_code s c' /\ ext c c' /\ code_wf c' /\ c_size c' = c_size c + 1 /\ c_mem c' (c_size c) = w8 b)
      (fun s'0 e => g_noexc s'0 = false /\ db_err (isAutoGrowC c) e /\ c_max c <= c_size c /\
         exists c', s'0 = set_code s c' /\ ext c c' /\ code_wf c' /\ c_size c' = c_size c)) as K.
  { intros s' (c' & -> & E & W' & Hs & Hlt). pose proof (cw_size0 _ W). destruct W'.
    apply wp_bind, wp_get, wp_bind. cbn [g_code set_code].
    apply wp_poke; cbn [g_code set_code]; [lia|].
    unfold with_code. apply wp_put. cbn [g_code set_code c_setmem c_size].
    rewrite Hs. rewrite Hs in *.
    assert (w64 (c_size c + 1) = c_size c + 1) as Hw by (unfold w64; apply Z.mod_small; lia).
    eexists. split; [reflexivity|].
    cbn [c_setsize c_setmem c_size]. rewrite Hw. split; [|split; [|split; [reflexivity|]]].
    - destruct E. constructor; cbn; auto; try lia.
      + intros i Hi. unfold upd. destruct (i =? c_size c) eqn:Hi2; [lia|]. auto.
      + intros Ha. destruct (ex_fixed0 Ha) as (A1 & A2 & A3 & A4). do 3 (split; [assumption|]).
        intros i Hi. unfold upd. destruct (i =? c_size c) eqn:Hi2; [lia|]. apply A4. lia.
    - constructor; cbn; try lia. unfold isAutoGrowC in *; cbn. assumption.
    - cbn. unfold upd. now rewrite Z.eqb_refl. }
  destruct (c_max c <=? c_size c) eqn:Hfull.
  - destruct (isAutoGrowC c) eqn:Ha.
    + pose proof (wp_growMemory s W Ha Hn Hb) as G. eapply wp_mono; [exact G| |].
      * intros s' _ (c' & -> & E & W' & Hs & Hlt). apply K. exists c'.
        repeat (split; [first [reflexivity | assumption]|]). lia.
      * intros s' e (-> & c' & -> & E & W' & Hs). split; [exact Hn|]. split; [reflexivity|]. split; [lia|].
        exists c'. auto.
    + apply wp_throw. split; [exact Hn|]. split; [reflexivity|]. split; [lia|]. exists c.
      split; [symmetry; apply set_code_same|]. split; [apply ext_refl|]. split; [exact W|reflexivity].
  - apply wp_ret. apply K. exists c. split; [symmetry; apply set_code_same|].
    split; [apply ext_refl|]. split; [exact W|]. split; [reflexivity|]. lia.
Qed.

Lemma wp_dbsM l s :
  ok_st s ->
  wp (dbsM l) s
    (fun s' _ => exists c', s' = set_code s c' /\ ext (g_code s) c' /\ code_wf c'
                            /\ c_size c' = c_size (g_code s) + Z.of_nat (length l)
                            /\ mem_has (c_mem c') (c_size (g_code s)) (map w8 l))
    (fun s' e => db_err (isAutoGrowC (g_code s)) e /\
                 (isAutoGrowC (g_code s) = false -> c_max (g_code s) < c_size (g_code s) + Z.of_nat (length l)) /\
                 exists c', s' = set_code s c' /\ ext (g_code s) c' /\ code_wf c'
                            /\ c_size c' < c_size (g_code s) + Z.of_nat (length l)).
Proof.
  revert s. induction l as [|b l IH]; intros s Hok; cbn [dbsM].
  - apply wp_ret. exists (g_code s). split; [symmetry; apply set_code_same|]. split; [apply ext_refl|].
    split; [apply Hok|]. split; [cbn; lia|exact I].
  - apply wp_bind. eapply wp_mono; [apply wp_dbM; exact Hok| |].
    + intros s' _ (c1 & -> & E1 & W1 & Hs1 & Hm1).
      eapply wp_mono; [apply IH; apply ok_set_code; assumption| |].
      * cbn [g_code set_code]. intros s' _ (c2 & -> & E2 & W2 & Hs2 & Hm2).
        exists c2. split; [reflexivity|]. split; [eapply ext_trans; eauto|]. split; [exact W2|].
        cbn [length]. split; [lia|]. cbn [map mem_has]. split.
        -- destruct Hok as (_ & W & _). destruct W. rewrite (ex_mem _ _ E2) by lia. exact Hm1.
        -- rewrite Hs1 in Hm2. exact Hm2.
      * cbn [g_code set_code]. intros s' e (He & Hc & c2 & -> & E2 & W2 & Hs2).
        rewrite (ext_auto _ _ E1) in He. split; [exact He|]. split.
        -- intros Ha. destruct (ex_fixed _ _ E1 Ha) as (_ & A2 & _). rewrite (ext_auto _ _ E1) in Hc. specialize (Hc Ha).
           cbn [length]. lia.
        -- exists c2. split; [reflexivity|]. split; [eapply ext_trans; eauto|]. split; [exact W2|]. cbn [length]. lia.
    + intros s' e (He & Hc & c1 & -> & E1 & W1 & Hs1). split; [exact He|]. split; [cbn [length]; lia|].
      exists c1. split; [reflexivity|]. split; [exact E1|]. split; [exact W1|]. cbn [length]. lia.
Qed.

Lemma map_w8_le v n : map w8 (le_bytes v n) = le_bytes v n.
Proof. revert v; induction n; cbn [le_bytes map]; intros; auto. rewrite w8_idem, IHn; reflexivity. Qed.

Lemma wp_dbnM v n s :
  ok_st s -> 0 <= n <= 8 ->
  wp (dbnM v n) s
    (fun s' _ => exists c', s' = set_code s c' /\ ext (g_code s) c' /\ code_wf c'
                            /\ c_size c' = c_size (g_code s) + n
                            /\ mem_has (c_mem c') (c_size (g_code s)) (le_bytes v (Z.to_nat n)))
    (fun s' e => db_err (isAutoGrowC (g_code s)) e /\
                 (isAutoGrowC (g_code s) = false -> c_max (g_code s) < c_size (g_code s) + n) /\
                 exists c', s' = set_code s c' /\ ext (g_code s) c' /\ code_wf c'
                            /\ c_size c' < c_size (g_code s) + n).
Proof.
  intros Hok Hn. unfold dbnM. apply wp_fnS.
  replace (8 <? n) with false by lia.
  eapply wp_mono; [apply wp_dbsM; exact Hok| |].
  - intros s' _ (c' & -> & E & W & Hs & Hm). exists c'. rewrite le_bytes_length in Hs.
    rewrite map_w8_le, le_bytes_w64 in Hm by lia.
    repeat (split; [first [reflexivity | assumption | lia]|]). exact Hm.
  - intros s' e (He & Hc & c' & -> & E & W & Hs). rewrite le_bytes_length in *. split; [apply Hok|].
    split; [exact He|]. split; [intros Ha; specialize (Hc Ha); lia|]. exists c'.
    repeat (split; [first [reflexivity | assumption | lia]|]). lia.
Qed.

(* pokes: the bytes of one field *)
Lemma wp_pokes l : forall i s (Q : St -> unit -> Prop) X,
  0 <= i -> i + Z.of_nat (length l) <= c_cap (g_code s) ->
  (forall m, mem_has m i l -> (forall k, k < i \/ i + Z.of_nat (length l) <= k -> m k = c_mem (g_code s) k) ->
             Q (set_code s (c_setmem (g_code s) m)) tt) ->
  wp (pokes i l) s Q X.
Proof.
  induction l as [|b l IH]; cbn [pokes]; intros i s Q X Hi Hl HQ.
  - apply wp_ret. specialize (HQ (c_mem (g_code s)) I (fun _ _ => eq_refl)).
    replace (c_setmem (g_code s) (c_mem (g_code s))) with (g_code s) in HQ by (destruct (g_code s); reflexivity).
    now rewrite set_code_same in HQ.
  - cbn [length] in Hl. apply wp_bind, wp_poke; [lia|]. apply IH; cbn [g_code set_code c_setmem c_cap c_mem]; try lia.
    intros m Hm Hk. apply (HQ m).
    + cbn [mem_has]. split; [|exact Hm]. rewrite Hk by lia. unfold upd. now rewrite Z.eqb_refl.
    + intros k Hk'. cbn [length] in Hk'. rewrite Hk by lia. unfold upd. replace (k =? i) with false by lia. reflexivity.
Qed.
Lemma wp_rewrite off v n s (Q : St -> unit -> Prop) X :
  n = 1 \/ n = 2 \/ n = 4 \/ n = 8 -> 0 <= off -> off + n <= c_cap (g_code s) ->
  (forall m, mem_has m off (le_bytes v (Z.to_nat n)) -> (forall k, k < off \/ off + n <= k -> m k = c_mem (g_code s) k) ->
             Q (set_code s (c_setmem (g_code s) m)) tt) ->
  wp (rewrite off v n) s Q X.
Proof.
  intros Hn Ho Hc HQ. unfold rewrite. apply wp_fnS.
  replace (negb (n =? 1) && negb (n =? 2) && negb (n =? 4) && negb (n =? 8)) with false
    by (destruct Hn as [->|[->|[->| ->]]]; reflexivity).
  apply wp_pokes; rewrite ?le_bytes_length; try lia.
  intros m Hm Hk. apply HQ; [exact Hm|]. intros k Hk'. apply Hk. lia.
Qed.
