(* The generated function of sample/quantize.cpp, executed from memory. *)
From Coq Require Import ZArith List Bool Lia.
From Verif Require Import Base SpecFixed SpecDiv SpecDivDec Udiv UdivRun UdivCode.
Import ListNotations.
Open Scope Z_scope.

(* bs is at address A *)
Definition here (m : Z -> Z) (A : Z) (bs : list Z) : Prop := forall k x, nth_error bs k = Some x -> m (A + Z.of_nat k) mod 256 = x.
(* P holds after every instruction *)
Fixpoint keeps (P : mach -> Prop) (l : list ins) (s : mach) : Prop := match l with [] => True | i :: l => P (step s i) /\ keeps P l (step s i) end.
Lemma keeps_app P a : forall b s, keeps P a s -> keeps P b (run a s) -> keeps P (a ++ b) s.
Proof. induction a as [|i a IH]; intros b s K1 K2; [exact K2|]. destruct K1 as [K0 K1]. split; [exact K0|]. now apply IH. Qed.
Lemma keeps_imp (P Q : mach -> Prop) l : (forall t, P t -> Q t) -> forall s, keeps P l s -> keeps Q l s.
Proof. intros PQ. induction l as [|i l IH]; intros s K; [exact K|]. destruct K as [K0 K1]. split; [now apply PQ|now apply IH]. Qed.
Lemma keeps_end (P : mach -> Prop) l : forall s, P s -> keeps P l s -> P (run l s).
Proof. induction l as [|i l IH]; intros s H K; [exact H|]. destruct K as [K0 K1]. now apply IH. Qed.

Lemma map_seq_app (f : nat -> Z) b : forall st n, (forall k x, nth_error b k = Some x -> f (st + k)%nat = x) -> (length b <= n)%nat ->
  map f (seq st n) = b ++ map f (seq (st + length b) (n - length b)).
Proof.
  induction b as [|x b IH]; intros st n H L.
  - cbn [length app]. now rewrite Nat.add_0_r, Nat.sub_0_r.
  - destruct n as [|n]; cbn [length] in *; [lia|]. cbn [seq map app]. pose proof (H O x eq_refl) as H0. rewrite Nat.add_0_r in H0. rewrite H0. f_equal.
    rewrite (IH (S st) n); [f_equal; f_equal; f_equal; lia| |lia]. intros k y K. replace (S st + k)%nat with (st + S k)%nat by lia. now apply H.
Qed.
Lemma one_step i b A s : coded_as i b -> 0 <= A -> A + Z.of_nat (length b) < 2 ^ 32 -> here (byte s) A b -> i <> Ret -> mstep (A, s) = Some (A + Z.of_nat (length b), step s i).
Proof.
  intros (_ & [_ L] & Fe) HA HL H NR. unfold mstep, window. rewrite (map_seq_app _ b); [|intros k x K|exact L].
  - rewrite Fe. rewrite map_length, seq_length. replace (15 - Z.of_nat (15 - length b)) with (Z.of_nat (length b)) by lia. rewrite at32_id by (unfold u32; lia). destruct i; try reflexivity. contradiction.
  - cbn [Nat.add]. assert (k < length b)%nat by (apply nth_error_Some; now rewrite K). rewrite at32_id by (unfold u32; lia). now apply H.
Qed.
Lemma ret_step b A s : coded_as Ret b -> 0 <= A -> A + Z.of_nat (length b) < 2 ^ 32 -> here (byte s) A b ->
  exists pc, ip (step s Ret) = Some pc /\ mstep (A, s) = Some (pc, step s Ret).
Proof.
  intros (_ & [_ L] & Fe) HA HL H. eexists. split; [reflexivity|]. unfold mstep, window. rewrite (map_seq_app _ b); [|intros k x K|exact L].
  - rewrite Fe. reflexivity.
  - cbn [Nat.add]. assert (k < length b)%nat by (apply nth_error_Some; now rewrite K). rewrite at32_id by (unfold u32; lia). now apply H.
Qed.
Lemma here_app m A a b : here m A (a ++ b) -> here m A a /\ here m (A + Z.of_nat (length a)) b.
Proof.
  intros H. split; intros k x K.
  - apply H. rewrite nth_error_app1; [exact K|]. apply nth_error_Some. now rewrite K.
  - rewrite <- Z.add_assoc, <- Nat2Z.inj_add. apply H. rewrite nth_error_app2 by lia. now replace (length a + k - length a)%nat with k by lia.
Qed.
Lemma here_same m m' A bs : here m A bs -> (forall a, A <= a < A + Z.of_nat (length bs) -> m' a = m a) -> here m' A bs.
Proof. intros H E k x K. assert (k < length bs)%nat by (apply nth_error_Some; now rewrite K). rewrite E by lia. now apply H. Qed.
Definition intact (s : mach) (A n : Z) (t : mach) : Prop := forall a, A <= a < A + n -> byte t a = byte s a.
Lemma sim l bs : asm l bs -> ~ In Ret l -> forall A s, 0 <= A -> A + Z.of_nat (length bs) < 2 ^ 32 -> here (byte s) A bs -> keeps (intact s A (Z.of_nat (length bs))) l s ->
  msteps (length l) (A, s) = Some (A + Z.of_nat (length bs), run l s).
Proof.
  induction 1 as [|i b l bs B _ IH]; intros NR A s HA HL H K.
  - cbn. now rewrite Z.add_0_r.
  - destruct K as [K0 K1]. apply here_app in H as [H1 H2]. rewrite app_length, Nat2Z.inj_add in *. cbn [length msteps]. rewrite (one_step i b A s B) by (try assumption; try lia; intros ->; apply NR; now left).
    rewrite IH; [f_equal; f_equal; lia|intros N; apply NR; now right|lia|lia| |].
    + apply (here_same (byte s)); [exact H2|]. intros a Ha. apply K0. lia.
    + apply (keeps_imp (intact s A (Z.of_nat (length b) + Z.of_nat (length bs)))); [|exact K1]. intros t T a Ha. rewrite T by lia. symmetry. apply K0. lia.
Qed.
Lemma msteps_add a : forall b x, msteps (a + b) x = match msteps a x with Some y => msteps b y | None => None end.
Proof. induction a as [|a IH]; intros b x; [reflexivity|]. cbn [Nat.add msteps]. destruct (mstep x); [apply IH|reflexivity]. Qed.
Lemma asm_app a : forall b bs, asm (a ++ b) bs -> exists x y, asm a x /\ asm b y /\ bs = x ++ y.
Proof.
  induction a as [|i a IH]; intros b bs H; [exists [], bs; repeat split; [constructor|exact H]|]. cbn [app] in H. inversion H as [|i' b' l' bs' C A']; subst.
  destruct (IH _ _ A') as (x & y & X & Y & ->). exists (b' ++ x), y. rewrite app_assoc. repeat split; [now constructor|exact Y].
Qed.

(* instructions that do not write *)
Definition quiet (i : ins) : Prop := match i with Store _ _ _ | Push _ => False | _ => True end.
Lemma quiet_step i s : quiet i -> byte (step s i) = byte s.
Proof. destruct i; cbn; try contradiction; try reflexivity. intros _. destruct (_ =? 0); reflexivity. Qed.
Lemma quiet_keeps s A n l : Forall quiet l -> forall t, intact s A n t -> keeps (intact s A n) l t.
Proof. induction 1 as [|i l Q _ IH]; intros t T; [exact Logic.I|]. assert (intact s A n (step t i)) as T' by (intros a Ha; rewrite quiet_step by exact Q; now apply T). split; [exact T'|now apply IH]. Qed.
Lemma udiv_quiet p off : Forall quiet (udiv_code p off) /\ ~ In Ret (udiv_code p off).
Proof.
  unfold udiv_code. destruct p as [e|m a len].
  - destruct (e =? 0); (split; [repeat constructor|cbn; intuition discriminate]).
  - destruct a, (len =? 0); (split; [repeat constructor|cbn; intuition discriminate]).
Qed.
Lemma body_keeps fuel q : Forall divisor q -> (64 <= fuel)%nat -> forall i l t s A n, body fuel i q = Some l -> 0 <= i -> intact s A n t ->
  let D := reg t EDI in 0 <= A -> A + n < 2 ^ 32 -> words D (i + Z.of_nat (length q)) -> (A + n <= D + 4 * i \/ D + 4 * (i + Z.of_nat (length q)) <= A) ->
  keeps (intact s A n) l t /\ ~ In Ret l.
Proof.
  intros H Hf. induction H as [|d q Hd Hq IH]; intros i l t s A n Hb Hi T D HA Hn HD Dj.
  - injection Hb as <-. split; [exact Logic.I|intros []].
  - cbn [body] in Hb. cbn [length] in HD, Dj. destruct (udiv_plan_ok fuel d Hd Hf) as (p & Ep & Pp & _). rewrite Ep in Hb. destruct (body fuel (i + 1) q) as [l'|] eqn:Eb; [|discriminate Hb].
    assert (l = udiv_code p (i * 4) ++ ([Store EDI (i * 4) EAX] ++ l')) as -> by congruence. clear Hb. destruct (udiv_quiet p (i * 4)) as [Q NR].
    pose proof (quiet_keeps s A n _ Q t T) as K1. destruct (udiv_runs p (i * 4) t Pp) as (_ & _ & _ & _ & _ & ED & _). set (t1 := run (udiv_code p (i * 4)) t) in *.
    pose proof (keeps_end _ _ _ T K1) as T1. fold t1 in T1. set (t2 := step t1 (Store EDI (i * 4) EAX)). unfold words in HD.
    assert (intact s A n t2) as T2. { intros a Ha. unfold t2. cbn [step byte]. rewrite ED. fold D. rewrite put_out; [now apply T1|unfold word; lia|unfold u32; lia|lia]. }
    destruct (IH (i + 1) l' t2 s A n Eb ltac:(lia) T2) as [K3 NR3]; [exact HA|exact Hn| | |].
    { change (reg t2 EDI) with (reg t1 EDI). rewrite ED. fold D. unfold words. lia. } { change (reg t2 EDI) with (reg t1 EDI). rewrite ED. fold D. lia. }
    split.
    + apply keeps_app; [exact K1|]. fold t1. split; [exact T2|exact K3].
    + intros N. apply in_app_or in N as [N|N]; [now apply NR|]. destruct N as [N|N]; [discriminate N|now apply NR3].
Qed.
(* code of n bytes at A: neither the table dest nor the two stack words below esp overlap it *)
Lemma quantize_keeps fuel q l' s dest src ret A n : Forall divisor q -> (64 <= fuel)%nat -> body fuel 0 q = Some l' -> let N := Z.of_nat (length q) in
  call s N dest src ret -> 0 <= A -> 0 <= n -> A + n < 2 ^ 32 -> (A + n <= dest \/ dest + 4 * N <= A) -> (A + n <= reg s ESP - 8 \/ reg s ESP <= A) ->
  let l := [Push ESI; Push EDI; Load EDI ESP (4 * 2 + 4); Load ESI ESP (4 * 2 + 8)] ++ (l' ++ [Pop EDI; Pop ESI]) in keeps (intact s A n) l s /\ ~ In Ret l.
Proof.
  intros H Hf Eb N [SP R0 R1 R2 Usi Udi Wd Ws Ds Ss Fw] HA Hn0 Hn Dd De l. set (E := reg s ESP) in *.
  set (pre := [Push ESI; Push EDI; Load EDI ESP (4 * 2 + 4); Load ESI ESP (4 * 2 + 8)]) in *.
  assert (at32 (E - 4) = E - 4) as A4 by (apply at32_id; unfold u32; lia). assert (at32 (E - 4 - 4) = E - 8) as A8 by (replace (E - 4 - 4) with (E - 8) by ring; apply at32_id; unfold u32; lia).
  set (s1 := step s (Push ESI)). assert (reg s1 ESP = E - 4) as P1 by (unfold s1; cbn [step reg]; rewrite set_same; exact A4).
  assert (byte s1 = put32 (byte s) (E - 4) (reg s ESI)) as B1 by (unfold s1; cbn [step byte]; fold E; now rewrite A4).
  assert (intact s A n s1) as T1. { intros a Ha. rewrite B1. apply put_out; [unfold word; lia|unfold u32; lia|lia]. }
  set (s2 := step s1 (Push EDI)). assert (byte s2 = put32 (byte s1) (E - 8) (reg s EDI)) as B2. { unfold s2. cbn [step byte]. rewrite P1, A8. reflexivity. }
  assert (reg s2 ESP = E - 8) as P2 by (unfold s2; cbn [step reg]; rewrite set_same, P1; exact A8).
  assert (intact s A n s2) as T2. { intros a Ha. rewrite B2, put_out; [now apply T1|unfold word; lia|unfold u32; lia|lia]. }
  set (s4 := run pre s). assert (s4 = step (step s2 (Load EDI ESP (4 * 2 + 4))) (Load ESI ESP (4 * 2 + 8))) as E4 by reflexivity.
  assert (intact s A n s4) as T4 by (rewrite E4; intros a Ha; now apply T2).
  assert (reg s4 EDI = dest) as D4.
  { rewrite E4. cbn [step reg]. rewrite set_other by discriminate. rewrite set_same, P2. replace (E - 8 + (4 * 2 + 4)) with (E + 4) by ring. rewrite B2, B1.
    rewrite !get_put_other by (unfold word, apart; lia). exact R1. }
  unfold words in Wd. destruct (body_keeps fuel q H Hf 0 l' s4 s A n Eb ltac:(lia) T4) as [K NR]; [exact HA|exact Hn|rewrite D4; fold N; unfold words; lia|rewrite D4; fold N; lia|].
  split.
  - apply keeps_app; [split; [exact T1|]; split; [exact T2|]; apply (quiet_keeps s A n); [repeat constructor|exact T2]|]. fold s4. apply keeps_app; [exact K|].
    apply (quiet_keeps s A n); [repeat constructor|]. now apply keeps_end.
  - intros I0. apply in_app_or in I0 as [I0|I0]; [cbn in I0; intuition discriminate|]. apply in_app_or in I0 as [I0|I0]; [now apply NR|cbn in I0; intuition discriminate].
Qed.
(* where the code, the tables and the stack are *)
Record loaded_at (s : mach) (bs : list Z) (A N dest : Z) : Prop := {
  la_here : here (byte s) A bs; la_lo : 0 <= A; la_hi : A + Z.of_nat (length bs) < 2 ^ 32;
  la_dest : A + Z.of_nat (length bs) <= dest \/ dest + 4 * N <= A;
  la_stack : A + Z.of_nat (length bs) <= reg s ESP - 8 \/ reg s ESP <= A }.
Lemma quantize_mem fuel q : Forall divisor q -> (64 <= fuel)%nat -> (length q <= 64)%nat -> exists l bs, quantize fuel q = Some l /\ emits_bytes (calls32 l) bs /\
  forall s A dest src ret, let n := Z.of_nat (length q) in call s n dest src ret -> loaded_at s bs A n dest ->
  exists t, msteps (length l) (A, s) = Some (ret, t)
    /\ (forall k d, nth_error q k = Some d -> get32 (byte t) (dest + 4 * Z.of_nat k) = get32 (byte s) (src + 4 * Z.of_nat k) / d)
    /\ (forall a, u32 a -> a < dest \/ dest + 4 * n <= a -> a < reg s ESP - 8 \/ reg s ESP <= a -> byte t a = byte s a)
    /\ reg t ESP = at32 (reg s ESP + 4) /\ (forall r, r <> EAX -> r <> EDX -> r <> ESP -> reg t r = reg s r).
Proof.
  intros H Hf Hq. destruct (quantize_ok fuel q H Hf) as (l & El & Run). destruct (quantize_asm fuel q l H Hf Hq El) as [bs B]. exists l, bs. split; [exact El|]. split; [now apply asm_emits|].
  intros s A dest src ret n C [Hh HA HL Hd Hs]. destruct (Run s dest src ret C) as (V & O & Ip & Sp & Rg). exists (run l s). split; [|repeat split; assumption].
  destruct (quantize_is _ _ _ El) as (l' & Eb & E'). set (l1 := [Push ESI; Push EDI; Load EDI ESP (4 * 2 + 4); Load ESI ESP (4 * 2 + 8)] ++ (l' ++ [Pop EDI; Pop ESI])) in *.
  rewrite E' in B. destruct (asm_app _ _ _ B) as (x & y & X & Y & ->). inversion Y as [|i' b' l2 bs' Cr Yn]; subst i' l2. inversion Yn; subst bs'. rewrite app_nil_r in *. subst y.
  rewrite app_length, Nat2Z.inj_add in *. apply here_app in Hh as [Hx Hy].
  destruct (quantize_keeps fuel q l' s dest src ret A (Z.of_nat (length x) + Z.of_nat (length b')) H Hf Eb C HA ltac:(lia) HL Hd Hs) as [K NR]. fold l1 in K, NR.
  assert (msteps (length l1) (A, s) = Some (A + Z.of_nat (length x), run l1 s)) as M1.
  { apply sim; try assumption; try lia. apply (keeps_imp (intact s A (Z.of_nat (length x) + Z.of_nat (length b')))); [|exact K]. intros t T a Ha. apply T. lia. }
  assert (intact s A (Z.of_nat (length x) + Z.of_nat (length b')) (run l1 s)) as T1 by (apply keeps_end; [intros a _; reflexivity|exact K]).
  destruct (ret_step b' (A + Z.of_nat (length x)) (run l1 s) Cr) as (pc & P1 & P2); [lia|lia|apply (here_same (byte s)); [exact Hy|intros a Ha; apply T1; lia]|].
  rewrite E', app_length, msteps_add, M1. cbn [length msteps]. rewrite P2. assert (run (l1 ++ [Ret]) s = step (run l1 s) Ret) as Er by (rewrite run_app; reflexivity). rewrite Er.
  rewrite E', Er, P1 in Ip. congruence.
Qed.
