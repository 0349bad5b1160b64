(* Proofs about SpecCond.v, and the bytes of the conditional jumps. *)
From Coq Require Import ZArith List Bool Lia String.
From Verif Require Import Base Types Emit Encode State Code Label Gen Wp CodeFacts Append LabelFacts LabelInv LabelEmit SpecMem SpecLabel LabelHist
  LabelThms LabelThms2 LabelThms3 LabelThms4 Stable LabelThms5 Grow LabelThms6 LabelThms7 LabelThms8 SpecCond CondFacts BitFacts.
Import ListNotations.
Open Scope Z_scope.

Definition all_flags : list flags :=
  let b := [false; true] in
  flat_map (fun c => flat_map (fun p => flat_map (fun z => flat_map (fun s => map (fun o => mkFlags c p z s o) b) b) b) b) b.
Lemma cc_unique k k' : 0 <= k < 16 -> 0 <= k' < 16 -> (forall f, cc_holds k f = cc_holds k' f) -> k = k'.
Proof.
  intros K K' H.
  assert (T : forallb (fun i => forallb (fun j => (i =? j) || negb (forallb (fun f => Bool.eqb (cc_holds i f) (cc_holds j f)) all_flags)) (upto 16)) (upto 16) = true) by (vm_compute; reflexivity).
  rewrite forallb_forall in T. specialize (T k (upto_in 16 k K)). rewrite forallb_forall in T. specialize (T k' (upto_in 16 k' K')).
  apply orb_true_iff in T as [T|T]; [now apply Z.eqb_eq|]. apply negb_true_iff in T.
  rewrite (proj2 (forallb_forall _ all_flags)) in T; [discriminate|]. intros f _. rewrite H. apply eqb_reflx.
Qed.
Lemma cc_negated k k' : 0 <= k < 16 -> 0 <= k' < 16 -> (forall f, cc_holds k f = negb (cc_holds k' f)) -> k = Z.lxor k' 1.
Proof.
  intros K K' H. apply cc_unique; [auto| |].
  - assert (forallb (fun i => (0 <=? Z.lxor i 1) && (Z.lxor i 1 <? 16)) (upto 16) = true) as T by reflexivity.
    rewrite forallb_forall in T. specialize (T k' (upto_in 16 k' K')). lia.
  - intros f. rewrite H. unfold cc_holds.
    assert (T : forallb (fun i => Bool.eqb (Z.testbit (Z.lxor i 1) 0) (negb (Z.testbit i 0)) && (Z.lxor i 1 / 2 =? i / 2)) (upto 16) = true) by reflexivity.
    rewrite forallb_forall in T. specialize (T k' (upto_in 16 k' K')). apply andb_true_iff in T as [T1 T2].
    apply eqb_prop in T1. apply Z.eqb_eq in T2. rewrite T1, T2. now destruct (Z.testbit k' 0), (cc_base (k' / 2) f).
Qed.
Lemma alias_code n n' k k' : encodes n k -> encodes n' k' -> cond_of n = cond_of n' -> k = k'.
Proof.
  intros (K & m & M & H) (K' & m' & M' & H') E. rewrite M, M' in E. injection E as ->. apply cc_unique; auto. intros f. now rewrite H, H'.
Qed.
Lemma negated_code n n' k k' : encodes n k -> encodes n' k' ->
  (forall m m', cond_of n = Some m -> cond_of n' = Some m' -> forall f, m f = negb (m' f)) -> k = Z.lxor k' 1.
Proof.
  intros (K & m & M & H) (K' & m' & M' & H') E. apply cc_negated; auto. intros f. now rewrite H, H', (E m m').
Qed.
Lemma cmp_relation n w a b pf m r : 1 <= w -> 0 <= a < 2 ^ w -> 0 <= b < 2 ^ w -> cond_of n = Some m -> relation_of n w a b = Some r ->
  m (cmp_flags w a b pf) = r.
Proof.
  intros W A B M R.
  assert (E2 : 2 ^ w = 2 * 2 ^ (w - 1)) by (rewrite <- Z.pow_succ_r by lia; f_equal; lia).
  assert (P : 0 < 2 ^ (w - 1)) by (apply Z.pow_pos_nonneg; lia).
  assert (D : exists d, (a - b) mod 2 ^ w = d /\ (d = a - b \/ d = a - b + 2 ^ w) /\ 0 <= d < 2 ^ w).
  { destruct (Z.leb_spec b a).
    - exists (a - b). split; [apply Z.mod_small; lia|]. lia.
    - exists (a - b + 2 ^ w). split; [|lia]. rewrite <- (Z_mod_plus_full (a - b) 1), Z.mul_1_l. apply Z.mod_small; lia. }
  destruct D as (d & ED & D & DR).
  assert (F : exists c z s o, cmp_flags w a b pf = mkFlags c pf z s o /\ c = (a <? b) /\ z = (a =? b) /\
     negb (Bool.eqb s o) = (sval w a <? sval w b)).
  { unfold cmp_flags. rewrite ED. do 4 eexists. split; [reflexivity|]. split; [reflexivity|]. split.
    - destruct (Z.eqb_spec d 0), (Z.eqb_spec a b); auto; lia.
    - unfold sval. rewrite E2 in *. set (h := 2 ^ (w - 1)) in *. clearbody h. clear ED E2 M R.
      destruct (Z.ltb_spec a h), (Z.ltb_spec b h), (Z.leb_spec h d);
      repeat match goal with |- context [?x <=? ?y] => destruct (Z.leb_spec x y) | |- context [?x <? ?y] => destruct (Z.ltb_spec x y) end; cbn; auto; lia. }
  destruct F as (c & z & s & o & -> & -> & -> & L).
  assert (L2 : Bool.eqb s o = negb (sval w a <? sval w b)) by (rewrite <- L; now rewrite negb_involutive).
  assert (Q : sval w a = sval w b <-> a = b) by (unfold sval; destruct (Z.ltb_spec a (2 ^ (w - 1))), (Z.ltb_spec b (2 ^ (w - 1))); lia).
  clear E2 P ED D DR L.
  assert (X : forall x, cond_of n = Some x -> relation_of n w a b = Some r -> x (mkFlags (a <? b) pf (a =? b) s o) = r).
  2: { now apply X. }
  clear M. intros x M. revert M R. 
  repeat (destruct n as [|[[] [] [] [] [] [] [] []] n]; cbn [cond_of relation_of]; try discriminate).
  all: intros M R; injection M as <-; injection R as <-; unfold below, above, equal, less, greater; cbn [fCF fPF fZF fSF fOF]; rewrite ?L2.
  all: clear -Q; cbn; intros _; rewrite ?negb_involutive; auto.
  all: set (x := sval w a) in *; set (y := sval w b) in *; clearbody x y.
  all: repeat match goal with |- context [?x <=? ?y] => destruct (Z.leb_spec x y) | |- context [?x <? ?y] => destruct (Z.ltb_spec x y) | |- context [?x =? ?y] => destruct (Z.eqb_spec x y) end; cbn; auto; lia.
Qed.

(* the bytes of a conditional jump *)
Lemma jcc_label_bytes p l ty s a t s1 : jcc_ok p ->
  run s a -> isAutoGrowC (g_code s) && sp_ready a = false -> alive_ref a l -> lm_nextId (g_lm s) < 2147483647 ->
  tid_of a l = Some t -> c_size (g_code s) <= maxCode -> fst (snd p) l ty s = Done s1 tt ->
  exists k, encodes (fst p) k /\
  if takes_short (sp_defs a t) (g_jmpNear s) ty (c_size (g_code s))
  then c_size (g_code s1) = c_size (g_code s) + 2 /\ mem_has (c_mem (g_code s1)) (c_size (g_code s)) [0x70 + k]
  else c_size (g_code s1) = c_size (g_code s) + 6 /\ mem_has (c_mem (g_code s1)) (c_size (g_code s)) [0x0F; 0x80 + k].
Proof.
  intros (k & K & J & _) HR Hf Ha Hn Ht Hm H. exists k. split; [exact K|]. rewrite J in H.
  pose proof (branch_bytes _ _ _ _ _ _ _ _ _ HR Hf Ha Hn Ht Hm H) as B. cbv zeta in B. destruct K as (K & _).
  assert (w8 (0x70 + k) = 0x70 + k) as E1 by (apply Z.mod_small; lia). assert (w8 (0x80 + k) = 0x80 + k) as E2 by (apply Z.mod_small; lia).
  rewrite E1, E2 in B. destruct (takes_short _ _ _ _); exact B.
Qed.
Lemma jcc_abs_bytes p addr s a s1 : jcc_ok p -> run s a -> snd (snd p) addr s = Done s1 tt ->
  exists k, encodes (fst p) k /\
  c_size (g_code s1) = c_size (g_code s) + 6 /\ mem_has (c_mem (g_code s1)) (c_size (g_code s)) [0x0F; 0x80 + k].
Proof.
  intros (k & K & _ & J) HR H. exists k. split; [exact K|]. rewrite J in H. cbn [exec] in H.
  destruct (appends_opJmpAbs (w64 addr) T_NEAR (0x70 + k) (0x80 + k) 0x0F s (proj1 (run_inv _ _ HR))) as (q & _ & Q & A).
  rewrite Q in A by auto. unfold appends in A. rewrite H in A. destruct A as (A & _).
  destruct K as (K & _). assert (w8 (0x80 + k) = 0x80 + k) as E2 by (apply Z.mod_small; lia).
  unfold apps, long_pat in A. rewrite E2 in A. generalize dependent (128 + k). intros kk _ A. cbn in A. cbn. intuition lia.
Qed.
