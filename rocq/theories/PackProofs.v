(* Proofs for C35. *)
From Coq Require Import ZArith List Bool Lia.
From Verif Require Import Base Types Pack SpecPack.
Import ListNotations.
Open Scope Z_scope.

(* the sequence that a Pack holds *)
Definition rep (p : Pack) (l : list Reg) : Prop :=
  List.length (k_tbl p) = 15%nat /\ k_n p = zlen l /\ (List.length l <= 15)%nat /\ firstn (List.length l) (k_tbl p) = l.

Lemma set_len l i r : List.length (set_at l i r) = List.length l.
Proof. revert i. induction l as [|x l IH]; intros [|i]; cbn; auto. Qed.
Lemma set_first l i r : (i < List.length l)%nat -> firstn (S i) (set_at l i r) = firstn i l ++ [r].
Proof. revert i. induction l as [|x l IH]; intros [|i] H; cbn in *; [lia|lia|reflexivity|]. f_equal. rewrite <- IH by lia. reflexivity. Qed.
Lemma set_at_first l i j r : (j <= i)%nat -> firstn j (set_at l i r) = firstn j l.
Proof. revert i j. induction l as [|x l IH]; intros [|i] [|j] H; cbn; auto; try lia. f_equal. apply IH. lia. Qed.
Lemma firstn_snoc (l : list Reg) i r : nth_error l i = Some r -> firstn (S i) l = firstn i l ++ [r].
Proof. revert i. induction l as [|x l IH]; intros [|i] H; cbn in *; try discriminate; [congruence|]. f_equal. auto. Qed.
Lemma nth_skipn (l : list Reg) a i : nth_error (skipn a l) i = nth_error l (a + i).
Proof. revert l. induction a as [|a IH]; intros [|x l]; cbn; auto. destruct i; reflexivity. Qed.

Lemma copy_ok src pos num : 0 <= pos -> 0 <= num <= 15 -> pos + num <= zlen src -> pos + num < 2 ^ 64 ->
  forall k fuel dst i, (k < fuel)%nat -> Z.of_nat k = num - i -> 0 <= i -> List.length dst = 15%nat ->
  firstn (Z.to_nat i) dst = slice src pos i ->
  exists t, copy_loop fuel src dst pos i num = POk t /\ List.length t = 15%nat /\ firstn (Z.to_nat num) t = slice src pos num.
Proof.
  intros P N L W. induction k as [|k IH]; intros fuel dst i F K I D Sl; destruct fuel as [|fuel]; try lia; cbn [copy_loop].
  - replace (i <? num) with false by lia. exists dst. replace num with i by lia. auto.
  - replace (i <? num) with true by lia. unfold w64. rewrite Z.mod_small by lia.
    destruct (nth_error src (Z.to_nat (pos + i))) as [r|] eqn:E; [|apply nth_error_None in E; unfold zlen in L; lia].
    replace (i <? maxTblNum) with true by (unfold maxTblNum; lia).
    apply IH; try lia; [rewrite set_len; auto|]. replace (Z.to_nat (i + 1)) with (S (Z.to_nat i)) by lia.
    rewrite set_first by lia. rewrite Sl. unfold slice. replace (Z.to_nat (i + 1)) with (S (Z.to_nat i)) by lia. symmetry. apply firstn_snoc.
    rewrite nth_skipn. rewrite <- E. f_equal. lia.
Qed.
Lemma slice_len l pos num : 0 <= pos -> 0 <= num -> pos + num <= zlen l -> zlen (slice l pos num) = num.
Proof. unfold slice, zlen. intros. rewrite firstn_length, skipn_length. lia. Qed.
Lemma copy_rep dst src pos num : List.length dst = 15%nat -> 0 <= pos -> 0 <= num <= 15 -> pos + num <= zlen src -> pos + num < 2 ^ 64 ->
  exists t, copy_loop 17 src dst pos 0 num = POk t /\ rep (mkPack t num) (slice src pos num).
Proof.
  intros D P N L W. destruct (copy_ok src pos num P N L W (Z.to_nat num) 17 dst 0) as (t & H & T & S); try lia; auto.
  exists t. split; auto. pose proof (slice_len src pos num P ltac:(lia) L) as Q. unfold rep. cbn [k_tbl k_n]. unfold zlen in *. repeat split; try lia.
  rewrite <- S at 2. f_equal. lia.
Qed.
Lemma rep_slice p l pos num : rep p l -> 0 <= pos -> 0 <= num -> pos + num <= zlen l -> slice (k_tbl p) pos num = slice l pos num.
Proof.
  intros (T & N & L & F) P M Q. unfold slice, zlen in *. rewrite <- F at 1.
  rewrite skipn_firstn_comm, firstn_firstn. f_equal. lia.
Qed.
Lemma slice_all l : slice l 0 (zlen l) = l.
Proof. unfold slice, zlen. rewrite Nat2Z.id. cbn [skipn Z.to_nat]. apply firstn_all. Qed.
Lemma copy_pack d p l : List.length (k_tbl d) = 15%nat -> rep p l -> exists q, pk_copy d p = POk q /\ rep q l.
Proof.
  intros D R. pose proof R as (T & N & L & F). unfold pk_copy. unfold zlen in N.
  destruct (copy_rep (k_tbl d) (k_tbl p) 0 (k_n p)) as (t & H & Q); unfold zlen; try lia.
  rewrite H. eexists. split; [reflexivity|]. rewrite (rep_slice p l) in Q by (auto; unfold zlen; lia). rewrite N in Q |- *. fold (zlen l) in Q |- *. rewrite slice_all in Q. exact Q.
Qed.
Lemma fill_ok l : forall t i, (i + List.length l <= List.length t)%nat ->
  List.length (fill t i l) = List.length t /\ firstn (i + List.length l) (fill t i l) = firstn i t ++ l.
Proof.
  induction l as [|r l IH]; intros t i H; cbn [fill List.length] in *; [rewrite Nat.add_0_r, app_nil_r; auto|].
  destruct (IH (set_at t i r) (S i)) as [A B]; [rewrite set_len; lia|]. rewrite set_len in A. split; auto.
  replace (i + S (List.length l))%nat with (S i + List.length l)%nat by lia. rewrite B, set_first by lia. rewrite <- app_assoc. reflexivity.
Qed.
Lemma args_rep args : (List.length args <= 12)%nat -> rep (pk_args args) (rev args).
Proof.
  intros H. destruct (fill_ok (rev args) (k_tbl pack0) 0) as [A B]; [rewrite rev_length; cbn; lia|].
  unfold rep, pk_args. cbn [k_tbl k_n]. unfold zlen. rewrite rev_length. repeat split; auto; try lia. rewrite rev_length in B. exact B.
Qed.
Lemma rep0 : rep pack0 []. Proof. repeat split; cbn; lia. Qed.

Lemma step_ok p l o : rep p l -> op_ok l o ->
  match s_step l o with
  | Some l' => exists q, pk_step p o = POk q /\ rep q l'
  | None => pk_step p o = PErr ERR_BAD_PARAMETER
  end.
Proof.
  intros R O. pose proof R as (T & N & L & F). destruct o as [src n|args|r|pos num]; cbn [s_step pk_step op_ok] in *.
  - destruct O as [O1 O2]. unfold pk_init, maxTblNum. destruct (n <=? 15) eqn:C; [replace (15 <? n) with false by lia|replace (15 <? n) with true by lia; reflexivity].
    destruct (copy_rep (k_tbl p) src 0 n) as (t & H & Q); try lia. rewrite H. eauto.
  - apply copy_pack; auto. apply args_rep; auto.
  - unfold pk_append, maxTblNum. rewrite N. unfold zlen. destruct (Z.of_nat (List.length l) <? 15) eqn:C;
      [replace (Z.of_nat (List.length l) =? 15) with false by lia|replace (Z.of_nat (List.length l) =? 15) with true by lia; reflexivity].
    eexists. split; [reflexivity|]. unfold rep. cbn [k_tbl k_n]. rewrite Nat2Z.id, set_len, app_length. unfold zlen. rewrite app_length. cbn [List.length].
    repeat split; try lia. replace (List.length l + 1)%nat with (S (List.length l)) by lia. rewrite set_first by lia. rewrite F. reflexivity.
  - destruct O as (O1 & O2 & O3). unfold pk_sub. destruct (num =? size_m1) eqn:M.
    + assert (W : w64 (k_n p - pos) = zlen l - pos) by (unfold w64; rewrite N; apply Z.mod_small; unfold zlen in *; lia).
      rewrite W. replace (pos + (zlen l - pos)) with (zlen l) by lia. unfold w64. rewrite Z.mod_small by (unfold zlen; lia). rewrite N.
      replace (zlen l <? zlen l) with false by lia. replace (pos <=? zlen l) with true by lia.
      destruct (copy_rep (k_tbl pack0) (k_tbl p) pos (zlen l - pos)) as (t & H & Q); try lia; unfold zlen in *; try lia; [reflexivity|].
      rewrite H. apply copy_pack; auto. rewrite (rep_slice p l) in Q by (auto; unfold zlen; lia).
      replace (skipn (Z.to_nat pos) l) with (slice l pos (Z.of_nat (List.length l) - pos)); auto.
      unfold slice. apply firstn_all2. rewrite skipn_length. lia.
    + unfold w64. rewrite Z.mod_small by lia. rewrite N. destruct (pos + num <=? zlen l) eqn:C; [replace (zlen l <? pos + num) with false by lia|replace (zlen l <? pos + num) with true by lia; reflexivity].
      destruct (copy_rep (k_tbl pack0) (k_tbl p) pos num) as (t & H & Q); unfold zlen in *; try lia; [reflexivity|].
      rewrite H. apply copy_pack; auto. rewrite (rep_slice p l) in Q by (auto; unfold zlen; lia). exact Q.
Qed.
Lemma run_ok : forall ops p l, rep p l -> ops_ok l ops -> exists q, pk_run p ops = POk q /\ rep q (s_run l ops).
Proof.
  induction ops as [|o ops IH]; intros p l R O; cbn in *; [eauto|]. destruct O as [O1 O2]. pose proof (step_ok p l o R O1) as S.
  destruct (s_step l o) as [l'|]; [destruct S as (q & -> & Q)|rewrite S]; eauto.
Qed.
Lemma index_ok p l i : rep p l -> 0 <= i ->
  pk_index p i = match nth_error l (Z.to_nat i) with Some r => POk r | None => PErr ERR_BAD_PARAMETER end.
Proof.
  intros (T & N & L & F) I. unfold pk_index. rewrite N. unfold zlen. destruct (Z.of_nat (List.length l) <=? i) eqn:C.
  - destruct (nth_error l (Z.to_nat i)) eqn:E; auto. assert (nth_error l (Z.to_nat i) <> None) by congruence. apply nth_error_Some in H. lia.
  - assert (E : nth_error (k_tbl p) (Z.to_nat i) = nth_error l (Z.to_nat i)).
    { rewrite <- F at 1. clear -C I. revert C. generalize (k_tbl p) as t. generalize (List.length l) as n. intros n t C.
      assert (H : (Z.to_nat i < n)%nat) by lia. clear C I. revert n t H. generalize (Z.to_nat i) as j. induction j as [|j IH]; intros [|n] [|x t] H; cbn; auto; try lia. apply IH. lia. }
    rewrite E. destruct (nth_error l (Z.to_nat i)) eqn:Q; auto. apply nth_error_None in Q. lia.
Qed.
Lemma history ops : ops_ok [] ops -> exists p, pk_run pack0 ops = POk p /\ k_n p = zlen (s_run [] ops) /\ k_n p <= 15
  /\ (forall i, 0 <= i -> pk_index p i = match nth_error (s_run [] ops) (Z.to_nat i) with Some r => POk r | None => PErr ERR_BAD_PARAMETER end)
  /\ (forall o, op_ok (s_run [] ops) o -> pk_step p o = PErr ERR_BAD_PARAMETER <-> s_step (s_run [] ops) o = None).
Proof.
  intros O. destruct (run_ok ops pack0 [] rep0 O) as (p & H & R). exists p. pose proof R as (T & N & L & F). split; auto. split; auto. split; [unfold zlen in N; lia|].
  split; [intros; apply index_ok; auto|]. intros o Q. pose proof (step_ok p _ o R Q) as S. destruct (s_step _ o); [destruct S as (q & -> & _); split; discriminate|tauto].
Qed.
(* sub() with a position past the end *)
Lemma sub_past p l pos : rep p l -> zlen l < pos < 2 ^ 64 -> pk_sub p pos size_m1 = PUB.
Proof.
  intros (T & N & L & F) P. unfold pk_sub. rewrite Z.eqb_refl. 
  assert (W : w64 (k_n p - pos) = 2 ^ 64 + zlen l - pos).
  { unfold w64. rewrite N. unfold zlen in *. symmetry. apply (Z.mod_unique _ _ (-1)); lia. }
  rewrite W. replace (pos + (2 ^ 64 + zlen l - pos)) with (zlen l + 1 * 2 ^ 64) by lia.
  assert (W2 : w64 (zlen l + 1 * 2 ^ 64) = zlen l) by (unfold w64; change 18446744073709551616 with (2 ^ 64); rewrite Z_mod_plus_full; apply Z.mod_small; unfold zlen; lia).
  rewrite W2, N. replace (zlen l <? zlen l) with false by lia.
  set (num := 2 ^ 64 + zlen l - pos) in *. 
  assert (C : forall fuel dst i, 0 <= i -> i + Z.of_nat fuel <= 17 -> (num <= i + Z.of_nat fuel -> exists j, 0 <= j < num /\ nth_error (k_tbl p) (Z.to_nat (w64 (pos + j))) = None /\ i <= j) ->
    copy_loop fuel (k_tbl p) dst pos i num = PUB).
  { induction fuel as [|fuel IH]; intros dst i I U J; cbn [copy_loop]; auto.
    destruct (i <? num) eqn:Q; [|destruct J as (j & J1 & J2 & J3); lia].
    destruct (nth_error (k_tbl p) (Z.to_nat (w64 (pos + i)))) as [r|] eqn:E; auto.
    destruct (i <? maxTblNum) eqn:M; auto. apply IH; try lia. intros G. destruct J as (j & J1 & J2 & J3); [lia|]. exists j. repeat split; try lia; auto.
    destruct (Z.eq_dec i j) as [<-|]; [congruence|lia]. }
  rewrite C; auto; try lia. intros G. exists 0. rewrite Z.add_0_r. repeat split; try lia; try (unfold num; unfold zlen in *; lia).
  apply nth_error_None. rewrite T. unfold w64. rewrite Z.mod_small by (unfold zlen in *; lia). unfold num in G. unfold zlen in *. lia.
Qed.
