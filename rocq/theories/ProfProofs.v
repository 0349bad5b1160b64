(* The perf map over a history of Profiler calls (C45). *)
From Coq Require Import ZArith List Bool String Lia.
From Verif Require Import Base CpuTopo SpecProf.
Import ListNotations.
Open Scope Z_scope.
Open Scope list_scope.

Lemma append_nil s : (s ++ "")%string = s.
Proof. induction s as [|c s IH]; [reflexivity|]. cbn [String.append]. rewrite IH. reflexivity. Qed.
Lemma pad_ok s : (s ++ underscores (3 - String.length s))%string = padded s.
Proof.
  unfold padded. destruct (String.length s) as [|[|[|n]]]; cbn [Nat.sub underscores]; try reflexivity. apply append_nil.
Qed.
Definition agrees (past : list profCall) (p : Profiler) : Prop :=
  pf_perf p && pf_open p = recording past /\ pf_suffix p = suffix_now past /\ pf_start p = start_now past.
Lemma set_line past p n a s : agrees past p ->
  agrees past (profSet p n a s) /\ pf_lines (profSet p n a s) = pf_lines p ++ (if recording past then [(a, s, padded (n ++ suffix_now past)%string)] else []).
Proof.
  intros (R & S1 & T). unfold agrees. rewrite <- R, <- S1, <- T. unfold profSet.
  destruct (pf_perf p) eqn:P; [destruct (pf_open p) eqn:Q|]; cbn [andb pf_perf pf_open pf_suffix pf_start pf_lines];
  rewrite ?P, ?Q, ?app_nil_r; cbn [andb]; auto. rewrite pad_ok. auto.
Qed.
Lemma prof_history l : forall past p, agrees past p ->
  pf_lines (fold_left profCall_step l p) = pf_lines p ++ map_lines past l.
Proof.
  induction l as [|c l IH]; intros past p A; cbn [fold_left map_lines].
  - rewrite app_nil_r. reflexivity.
  - assert (Step : agrees (c :: past) (profCall_step p c) /\ pf_lines (profCall_step p c) = pf_lines p ++ line past c).
    { pose proof A as (R & S1 & T). destruct c as [m o|s|a| |n a s|n e]; cbn [profCall_step]; unfold line.
      - destruct (recording past); rewrite app_nil_r; unfold agrees, profInit; cbn [recording suffix_now start_now];
        destruct (m =? 1); cbn [pf_perf pf_open pf_suffix pf_start pf_lines andb]; repeat split; auto; destruct o; reflexivity.
      - destruct (recording past) eqn:RP; rewrite app_nil_r; unfold agrees; cbn; rewrite RP; auto.
      - destruct (recording past) eqn:RP; rewrite app_nil_r; unfold agrees; cbn; rewrite RP; auto.
      - destruct (recording past) eqn:RP; rewrite app_nil_r; unfold agrees; cbn; rewrite andb_false_r; auto.
      - destruct (set_line past p n a s A) as ((B1 & B2 & B3) & L). rewrite L. unfold agrees. cbn [recording suffix_now start_now]. auto.
      - unfold profSetEnd. rewrite T. destruct (set_line past p n (start_now past) (w64 (e - start_now past)) A) as ((B1 & B2 & B3) & L).
        unfold agrees. cbn [recording suffix_now start_now profStart pf_perf pf_open pf_suffix pf_start pf_lines]. rewrite L. auto. }
    destruct Step as [A' L]. rewrite (IH _ _ A'), L, <- app_assoc. reflexivity.
Qed.
Lemma prof_history0 l : pf_lines (fold_left profCall_step l prof0) = map_lines [] l.
Proof. apply (prof_history l [] prof0). repeat split. Qed.
