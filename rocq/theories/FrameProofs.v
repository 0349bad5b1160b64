(* Proofs for C28. *)
From Coq Require Import ZArith List Bool Lia.
From Verif Require CodeThms.
From Verif Require Import Base Types Emit Encode Mnemonic StackFrame SpecFrame EmitFacts.
Import ListNotations.
Open Scope Z_scope.

Definition nums16 : list Z := [0; 1; 2; 3; 4; 5; 6; 7; 8; 9; 10; 11; 12; 13; 14; 15].
Lemma in16 (P : Z -> Prop) : Forall P nums16 -> forall r, 0 <= r < 16 -> P r.
Proof.
  intros F r R. rewrite Forall_forall in F. apply F. unfold nums16. cbn. lia.
Qed.
Ltac all16 := repeat (apply Forall_cons; [|]); [..|apply Forall_nil].
Definition push_bytes (r : Z) : list Z := (if 8 <=? r then [0x41] else []) ++ [0x50 + r mod 8].
Definition pop_bytes (r : Z) : list Z := (if 8 <=? r then [0x41] else []) ++ [0x58 + r mod 8].
Lemma push_run env pos r : 0 <= r < 16 -> push_op (OReg (Reg64 r)) env pos = (map IDb (push_bytes r), Ok tt).
Proof. revert r. apply in16. unfold nums16. all16; reflexivity. Qed.
Lemma pop_run env pos r : 0 <= r < 16 -> pop_op (OReg (Reg64 r)) env pos = (map IDb (pop_bytes r), Ok tt).
Proof. revert r. apply in16. unfold nums16. all16; reflexivity. Qed.
Lemma mov10_run env pos : mov_oo (OReg (Reg64 10)) (OReg (Reg64 1)) env pos = (map IDb [0x49; 0x89; 0xCA], Ok tt).
Proof. reflexivity. Qed.
Lemma mov11_run env pos : mov_oo (OReg (Reg64 11)) (OReg (Reg64 2)) env pos = (map IDb [0x49; 0x89; 0xD3], Ok tt).
Proof. reflexivity. Qed.
Lemma immbit_run env pos P : 0 < P < 2 ^ 31 -> getImmBit (OReg (Reg64 4)) P env pos = ([], Ok (if P <? 128 then 8 else 32)).
Proof.
  intros H. unfold getImmBit. assert (D : IsInDisp8 P = (P <? 128)).
  { unfold IsInDisp8, w32. rewrite Z.mod_small by lia. destruct (Z.ltb_spec P 128); [replace (P <=? 0x7F) with true by lia; apply orb_true_r|].
    replace (P <=? 0x7F) with false by lia. replace (0xFFFFFF80 <=? P) with false by lia. reflexivity. }
  rewrite D. destruct (P <? 128); [reflexivity|]. destruct (isInDisp16relaxed P); reflexivity.
Qed.
Definition alu_bytes (d P : Z) : list Z := if P <? 128 then [0x48; 0x83; d; P] else [0x48; 0x81; d] ++ le_bytes P 4.
Lemma opOI_run env pos P code ext : 0 < P < 2 ^ 31 -> ext = 0 \/ ext = 5 ->
  opOI (OReg (Reg64 4)) P code ext env pos = (map IDb (alu_bytes (0xC4 + 8 * ext) P), Ok tt).
Proof.
  intros H X. unfold opOI. assert (W : w32 P = P) by (unfold w32; rewrite Z.mod_small; lia). rewrite W.
  unfold bind at 1. rewrite immbit_run by auto. unfold alu_bytes. destruct (Z.ltb_spec P 128) as [L|L].
  - cbn [items_size]. destruct X as [-> | ->]; cbn -[dbn]; rewrite CodeThms.dbn_items by lia; change (Z.to_nat 1) with 1%nat; cbn [le_bytes map]; unfold w8; rewrite ?(Z.mod_small P 256) by lia; reflexivity.
  - cbn [items_size]. destruct X as [-> | ->]; cbn -[dbn le_bytes]; rewrite CodeThms.dbn_items by lia; reflexivity.
Qed.
Lemma render_db s l : render s (map IDb l) = l.
Proof. induction l; cbn; congruence. Qed.

(* execution of these bytes *)
Lemma step_push r code m : 0 <= r < 16 -> step (push_bytes r ++ code) m = Some (Next code (push m r)).
Proof. revert r. apply (in16 (fun r => step (push_bytes r ++ code) m = Some (Next code (push m r)))). unfold nums16. all16; reflexivity. Qed.
Lemma step_pop r code m : 0 <= r < 16 -> step (pop_bytes r ++ code) m = Some (Next code (pop m r)).
Proof. revert r. apply (in16 (fun r => step (pop_bytes r ++ code) m = Some (Next code (pop m r)))). unfold nums16. all16; reflexivity. Qed.
Lemma step_mov10 code m : step ([0x49; 0x89; 0xCA] ++ code) m = Some (Next code (set_rg m 10 (rg m 1))).
Proof. reflexivity. Qed.
Lemma step_mov11 code m : step ([0x49; 0x89; 0xD3] ++ code) m = Some (Next code (set_rg m 11 (rg m 2))).
Proof. reflexivity. Qed.
Lemma le4 P : 0 <= P < 2 ^ 32 -> le_val (le_bytes P 4) = P.
Proof. intros H. cbn -[Z.mul]. unfold w8. Z.to_euclidean_division_equations. lia. Qed.
Lemma step_alu d code m P : 0 < P < 2 ^ 31 -> d = 0 \/ d = 5 ->
  step (alu_bytes (0xC4 + 8 * d) P ++ code) m = Some (Next code (set_rg m RSP (if d =? 0 then rg m RSP + P else rg m RSP - P))).
Proof.
  intros H D. unfold alu_bytes. destruct (Z.ltb_spec P 128).
  - destruct D as [-> | ->]; cbn -[set_rg Z.add Z.sub sext]; unfold sext; change (2 ^ (8 - 1)) with 128; replace (P <? 128) with true by lia; reflexivity.
  - pose proof (le4 P ltac:(lia)) as E. cbn [le_bytes] in E |- *. 
    destruct D as [-> | ->]; cbn -[set_rg Z.add Z.sub sext le_val w8 Z.div]; rewrite E; unfold sext; change (2 ^ (32 - 1)) with (2 ^ 31); replace (P <? 2 ^ 31) with true by lia; reflexivity.
Qed.
Lemma steps_trans a m b m1 c m2 : steps a m b m1 -> steps b m1 c m2 -> steps a m c m2.
Proof. induction 1; auto. intros. eapply st_step; eauto. Qed.
Lemma steps_one a m b m1 : step a m = Some (Next b m1) -> steps a m b m1.
Proof. intros. eapply st_step; eauto. apply st_refl. Qed.

(* memory *)
Lemma load_ext m m' a n : (forall x, a <= x < a + Z.of_nat n -> m x = m' x) -> load m a n = load m' a n.
Proof.
  revert a. induction n as [|n IH]; intros a H; cbn [load]; auto. rewrite (H a) by lia. f_equal. f_equal. apply IH. intros x X. apply H. lia.
Qed.
Lemma load_store m a v : 0 <= v < 2 ^ 64 -> load (store m a v) a 8 = v.
Proof.
  intros V.
  assert (G : forall n k, Z.of_nat n + k = 8 -> 0 <= k -> load (store m a v) (a + k) n = v / 2 ^ (8 * k)).
  { induction n as [|n IH]; intros k K K0.
    - cbn [load]. replace k with 8 by lia. symmetry. apply Z.div_small. exact V.
    - cbn [load]. replace (a + k + 1) with (a + (k + 1)) by lia. rewrite IH by lia. unfold store at 1.
      replace ((a <=? a + k) && (a + k <? a + 8)) with true by lia. replace (a + k - a) with k by lia.
      replace (8 * (k + 1)) with (8 * k + 8) by lia. rewrite Z.pow_add_r, <- Z.div_div by lia.
      change (2 ^ 8) with 256. rewrite Z.add_comm, <- (Z.div_mod (v / 2 ^ (8 * k)) 256) by lia. reflexivity. }
  specialize (G 8%nat 0 ltac:(lia) ltac:(lia)). rewrite Z.add_0_r in G. rewrite G. cbn. apply Z.div_1_r.
Qed.
Lemma store_out m a v x : x < a \/ a + 8 <= x -> store m a v x = m x.
Proof. intros H. unfold store. replace ((a <=? x) && (x <? a + 8)) with false by lia. reflexivity. Qed.
Lemma load_store_out m a v b : b + 8 <= a \/ a + 8 <= b -> load (store m a v) b 8 = load m b 8.
Proof. intros H. apply load_ext. intros x X. apply store_out. lia. Qed.

(* pushing a list of registers other than rsp: slot i below rsp holds register i *)
Definition pushed (l : list Z) (sp : Z) (m0 : M) (mem : Z -> Z) : Prop :=
  forall i r, nth_error l i = Some r -> load mem (sp - 8 * (Z.of_nat i + 1)) 8 = rg m0 r.
Definition len (l : list Z) : Z := Z.of_nat (length l).
Lemma pushes_run env l : (forall r, In r l -> 0 <= r < 16) -> forall pos, pushes l env pos = (map IDb (concat (map push_bytes l)), Ok tt).
Proof.
  induction l as [|r l IH]; intros H pos; [reflexivity|]. cbn [pushes map concat]. unfold bind. rewrite push_run by (apply H; left; auto).
  rewrite IH by (intros; apply H; right; auto). rewrite map_app. reflexivity.
Qed.
Lemma pops_run env l : (forall r, In r l -> 0 <= r < 16) -> forall pos, pops l env pos = (map IDb (concat (map pop_bytes l)), Ok tt).
Proof.
  induction l as [|r l IH]; intros H pos; [reflexivity|]. cbn [pops map concat]. unfold bind. rewrite pop_run by (apply H; left; auto).
  rewrite IH by (intros; apply H; right; auto). rewrite map_app. reflexivity.
Qed.
Lemma wrap_small x : 0 <= x < 2 ^ 64 -> wrap x = x.
Proof. apply Z.mod_small. Qed.
Lemma exec_pushes code l : (forall r, In r l -> 0 <= r < 16 /\ r <> RSP) -> forall m, regs64 m -> 8 * len l <= rg m RSP ->
  exists m1, steps (concat (map push_bytes l) ++ code) m code m1 /\ rg m1 RSP = rg m RSP - 8 * len l
   /\ (forall r, r <> RSP -> rg m1 r = rg m r) /\ pushed l (rg m RSP) m (mm m1) /\ (forall a, rg m RSP <= a -> mm m1 a = mm m a).
Proof.
  unfold len. induction l as [|r l IH]; intros H m R Sz.
  - exists m. cbn [length concat map app]. rewrite Z.mul_0_r, Z.sub_0_r. repeat split; auto using st_refl. intros [|i] x X; discriminate.
  - cbn [length] in Sz. rewrite Nat2Z.inj_succ in Sz. cbn [map concat]. rewrite <- app_assoc.
    destruct (H r ltac:(left; auto)) as [Hr Hn].
    set (m' := push m r).
    assert (E : rg m' RSP = rg m RSP - 8). { unfold m', push. cbn [rg]. unfold upd. rewrite Z.eqb_refl. apply wrap_small. specialize (R RSP). lia. }
    assert (O : forall x, x <> RSP -> rg m' x = rg m x). { intros x X. unfold m', push. cbn [rg]. unfold upd. replace (x =? RSP) with false by lia. reflexivity. }
    assert (R' : regs64 m'). { intros x. destruct (Z.eq_dec x RSP) as [->|X]; [rewrite E; specialize (R RSP); lia|rewrite O; auto]. }
    destruct (IH (fun x X => H x (or_intror X)) m' R' ltac:(lia)) as (m1 & S1 & E1 & O1 & P1 & A1).
    exists m1. split; [|split; [|split; [|split]]].
    + eapply st_step; [apply step_push; auto|]. exact S1.
    + rewrite E1, E. cbn [length]. lia.
    + intros x X. rewrite O1, O by auto. reflexivity.
    + intros [|i] x X; cbn in X.
      * inversion X; subst x. replace (rg m RSP - 8 * (Z.of_nat 0 + 1)) with (rg m' RSP) by lia.
        rewrite (load_ext (mm m1) (mm m')) by (intros; apply A1; lia).
        unfold m' at 1, push. cbn [mm]. rewrite wrap_small by (specialize (R RSP); lia). rewrite E. apply load_store. apply R.
      * replace (rg m RSP - 8 * (Z.of_nat (S i) + 1)) with (rg m' RSP - 8 * (Z.of_nat i + 1)) by lia.
        rewrite (P1 i x X). apply O. apply nth_error_In in X. destruct (H x (or_intror X)). auto.
    + intros a A. rewrite A1 by lia. unfold m', push. cbn [mm]. rewrite wrap_small by (specialize (R RSP); lia). apply store_out. lia.
Qed.
(* popping a list of registers other than rsp *)
Lemma exec_pops code l : NoDup l -> (forall r, In r l -> 0 <= r < 16 /\ r <> RSP) -> forall m, regs64 m -> rg m RSP + 8 * len l < 2 ^ 64 ->
  exists m1, steps (concat (map pop_bytes l) ++ code) m code m1 /\ rg m1 RSP = rg m RSP + 8 * len l /\ mm m1 = mm m
   /\ (forall r, r <> RSP -> ~ In r l -> rg m1 r = rg m r)
   /\ (forall i r, nth_error l i = Some r -> rg m1 r = wrap (load (mm m) (rg m RSP + 8 * Z.of_nat i) 8)).
Proof.
  unfold len. induction l as [|r l IH]; intros N H m R Sz.
  - exists m. cbn [length concat map app]. rewrite Z.mul_0_r, Z.add_0_r. repeat split; auto using st_refl. intros [|i] x X; discriminate.
  - cbn [length] in Sz. rewrite Nat2Z.inj_succ in Sz. cbn [map concat]. rewrite <- app_assoc.
    destruct (H r ltac:(left; auto)) as [Hr Hn]. apply NoDup_cons_iff in N as [N1 N2].
    set (m' := pop m r).
    assert (E : rg m' RSP = rg m RSP + 8).
    { unfold m', pop, set_rg. cbn [rg mm]. unfold upd. rewrite (proj2 (Z.eqb_neq RSP r)) by auto. rewrite Z.eqb_refl. apply wrap_small. specialize (R RSP). lia. }
    assert (O : forall x, x <> RSP -> x <> r -> rg m' x = rg m x).
    { intros x X Y. unfold m', pop, set_rg. cbn [rg mm]. unfold upd. rewrite (proj2 (Z.eqb_neq x r)), (proj2 (Z.eqb_neq x RSP)) by auto. reflexivity. }
    assert (V : rg m' r = wrap (load (mm m) (rg m RSP) 8)). { unfold m', pop, set_rg. cbn [rg mm]. unfold upd. rewrite Z.eqb_refl. reflexivity. }
    assert (R' : regs64 m').
    { intros x. destruct (Z.eq_dec x RSP) as [->|X]; [rewrite E; specialize (R RSP); lia|]. destruct (Z.eq_dec x r) as [->|Y]; [rewrite V; apply Z.mod_pos_bound; lia|rewrite O; auto]. }
    destruct (IH N2 (fun x X => H x (or_intror X)) m' R' ltac:(lia)) as (m1 & S1 & E1 & M1 & O1 & P1).
    exists m1. split; [|split; [|split; [|split]]].
    + eapply st_step; [apply step_pop; auto|]. exact S1.
    + rewrite E1, E. cbn [length]. lia.
    + rewrite M1. reflexivity.
    + intros x X Y. rewrite O1, O; auto; intros C; apply Y; [left; congruence|right; auto].
    + intros [|i] x X; cbn in X.
      * inversion X; subst x. rewrite O1 by auto. rewrite V. f_equal. f_equal. lia.
      * rewrite (P1 i x X). f_equal. change (mm m') with (mm m). f_equal. rewrite E. lia.
Qed.

(* register allocation: all parameter and temporary counts *)
Definition inb (x : Z) (l : list Z) : bool := existsb (Z.eqb x) l.
Fixpoint nodupb (l : list Z) : bool := match l with [] => true | x :: r => negb (inb x r) && nodupb r end.
Definition save_of (win : bool) (pn tn : nat) (rcx rdx : bool) : Z :=
  Z.max 0 (Z.of_nat pn + Z.of_nat tn + b2z rcx + b2z rdx - noSaveNum win).
Definition arg_ok (win rcx rdx : bool) (pn : nat) (p : list Z) : bool :=
  let m10 := rcx && (rcxPos win <? Z.of_nat pn) in
  let m11 := rdx && (rdxPos win <? Z.of_nat pn) in
  forallb (fun q => let '(a, r) := q in
     if r =? 10 then m10 && (a =? 1) else if r =? 11 then m11 && (a =? 2) else (a =? r))
   (combine (args win) p).
Definition alloc_ok (win : bool) (pn tn : nat) (rcx rdx : bool) : bool :=
  match getRegs win rcx rdx pn 0 with
  | None => false
  | Some (p, pos) =>
      match getRegs win rcx rdx tn pos with
      | None => false
      | Some (t, _) =>
          nodupb (p ++ t) && Nat.eqb (length p) pn && Nat.eqb (length t) tn
          && forallb (fun r => (0 <=? r) && (r <? 16) && negb (r =? RSP) && negb (r =? 0) && negb (rcx && (r =? 1)) && negb (rdx && (r =? 2))
                               && implb (inb r (callee_saved win)) (inb r (saved win (save_of win pn tn rcx rdx)))) (p ++ t)
          && arg_ok win rcx rdx pn p
          && (len (saved win (save_of win pn tn rcx rdx)) =? save_of win pn tn rcx rdx)
          && forallb (fun r => (0 <=? r) && (r <? 16) && negb (r =? RSP) && inb r (callee_saved win)) (saved win (save_of win pn tn rcx rdx))
          && nodupb (saved win (save_of win pn tn rcx rdx))
      end
  end.
Definition bools : list bool := [true; false].
Lemma bools_in b : In b bools.
Proof. destruct b; cbn; auto. Qed.
Lemma alloc_sweep : forallb (fun win => forallb (fun rcx => forallb (fun rdx => forallb (fun pn => forallb (fun tn =>
   implb (Z.of_nat pn + Z.of_nat tn + b2z rcx + b2z rdx <=? 14) (alloc_ok win pn tn rcx rdx)) (seq 0 15)) (seq 0 5)) bools) bools) bools = true.
Proof. vm_compute. reflexivity. Qed.
Lemma alloc_all win pn tn rcx rdx : (pn <= 4)%nat -> Z.of_nat pn + Z.of_nat tn + b2z rcx + b2z rdx <= 14 -> alloc_ok win pn tn rcx rdx = true.
Proof.
  intros Hp Ht. pose proof alloc_sweep as H. rewrite forallb_forall in H. specialize (H win (bools_in win)).
  rewrite forallb_forall in H. specialize (H rcx (bools_in rcx)). rewrite forallb_forall in H. specialize (H rdx (bools_in rdx)).
  rewrite forallb_forall in H. specialize (H pn ltac:(apply in_seq; lia)). rewrite forallb_forall in H. specialize (H tn).
  assert (B : 0 <= b2z rcx /\ 0 <= b2z rdx) by (destruct rcx, rdx; cbn; lia).
  specialize (H ltac:(apply in_seq; lia)). rewrite (proj2 (Z.leb_le _ _) Ht) in H. exact H.
Qed.
Lemma inb_in x l : inb x l = true <-> In x l.
Proof. unfold inb. rewrite existsb_exists. split; [intros (y & Y & E); apply Z.eqb_eq in E; congruence|intros; exists x; split; auto using Z.eqb_refl]. Qed.
Lemma nodupb_ok l : nodupb l = true -> NoDup l.
Proof.
  induction l as [|x l IH]; intros H; [constructor|]. cbn in H. apply andb_true_iff in H as [H1 H2]. constructor; auto.
  intros C. apply inb_in in C. rewrite C in H1. discriminate.
Qed.

Definition regs_ok (win rcx rdx : bool) (p t : list Z) : Prop :=
  NoDup (p ++ t) /\ forall r, In r (p ++ t) -> 0 <= r < 16 /\ r <> RSP /\ r <> 0 /\ (rcx = true -> r <> 1) /\ (rdx = true -> r <> 2).
Lemma frameSize_spec size sv P : frameSize size sv = Some P ->
  P < 2 ^ 31 /\ Z.max 0 size <= Z.max 0 P /\ (P <= 0 \/ P mod 16 = (8 * (sv + 1)) mod 16) /\ (0 < size -> 0 < P).
Proof.
  unfold frameSize. destruct (INT_MAX <? size + 7) eqn:A; [discriminate|]. cbv zeta.
  set (q := Z.quot (size + 7) 8). assert (Q : size <= 8 * q \/ size < 0 /\ q <= 0). { unfold q. Z.to_euclidean_division_equations. lia. }
  assert (Q0 : 0 < size -> 0 < q). { unfold q. Z.to_euclidean_division_equations. lia. }
  change 1 with (Z.ones 1). rewrite !Z.land_ones by lia. change (2 ^ 1) with 2. change (Z.ones 1) with 1.
  clearbody q. unfold INT_MAX in *.
  apply Z.ltb_ge in A. destruct ((0 <? q) && (q mod 2 =? sv mod 2)) eqn:B; destruct (2147483647 <? _) eqn:C; try discriminate; intros H; injection H as <-.
  - apply andb_true_iff in B as [B1 B2]. split; [lia|]. split; [lia|]. split; [|lia]. right. Z.to_euclidean_division_equations. lia.
  - split; [lia|]. split; [lia|]. split; [|lia]. destruct (Z.ltb_spec 0 q); [|lia]. right. cbn in B. apply Z.eqb_neq in B. Z.to_euclidean_division_equations. lia.
Qed.
(* what the construction gives *)
Lemma sf_new_inv win pNum tNum size env pos its f : emits (sf_new win pNum tNum size) env pos its (Some f) ->
  let rcx := has tNum UseRCX in let rdx := has tNum UseRDX in let tn := tNum &&& Z.lnot (UseRCX ||| UseRDX) in
  0 <= pNum <= 4 /\ 0 <= tn /\ pNum + tn + b2z rcx + b2z rdx <= 14
  /\ exists p t pos1 pos2 P, getRegs win rcx rdx (Z.to_nat pNum) 0 = Some (p, pos1) /\ getRegs win rcx rdx (Z.to_nat tn) pos1 = Some (t, pos2)
   /\ frameSize size (save_of win (Z.to_nat pNum) (Z.to_nat tn) rcx rdx) = Some P
   /\ f = mkSF (save_of win (Z.to_nat pNum) (Z.to_nat tn) rcx rdx) P p t
   /\ forall s, render s its = concat (map push_bytes (saved win (save_of win (Z.to_nat pNum) (Z.to_nat tn) rcx rdx)))
      ++ (if 0 <? P then alu_bytes (0xC4 + 8 * 5) P else [])
      ++ (if rcx && (rcxPos win <? pNum) then [0x49; 0x89; 0xCA] else []) ++ (if rdx && (rdxPos win <? pNum) then [0x49; 0x89; 0xD3] else []).
Proof.
  intros H. cbv zeta. apply emits_fn in H. cbv zeta in H.
  destruct ((pNum <? 0) || (4 <? pNum)) eqn:HP; [apply emits_throw in H; contradiction|].
  set (tn := tNum &&& Z.lnot (UseRCX ||| UseRDX)) in *. set (rcx := has tNum UseRCX) in *. set (rdx := has tNum UseRDX) in *.
  destruct ((tn <? 0) || (maxRegNum <? pNum + tn + b2z rcx + b2z rdx)) eqn:HT; [apply emits_throw in H; contradiction|].
  apply orb_false_iff in HP as [HP1 HP2]. apply orb_false_iff in HT as [HT1 HT2]. unfold maxRegNum in HT2.
  split; [lia|]. split; [lia|]. split; [lia|].
  pose proof (alloc_all win (Z.to_nat pNum) (Z.to_nat tn) rcx rdx ltac:(lia) ltac:(rewrite !Z2Nat.id by lia; lia)) as A.
  assert (SV : Z.max 0 (pNum + tn + b2z rcx + b2z rdx - noSaveNum win) = save_of win (Z.to_nat pNum) (Z.to_nat tn) rcx rdx)
    by (unfold save_of; rewrite !Z2Nat.id by lia; reflexivity).
  rewrite SV in H. set (sv := save_of win (Z.to_nat pNum) (Z.to_nat tn) rcx rdx) in *.
  unfold alloc_ok in A. fold sv in A.
  destruct (getRegs win rcx rdx (Z.to_nat pNum) 0) as [[p pos1]|] eqn:G1; [|discriminate].
  destruct (getRegs win rcx rdx (Z.to_nat tn) pos1) as [[t pos2]|] eqn:G2; [|discriminate].
  rewrite !andb_true_iff in A. destruct A as [[[[[[[A1 A2] A3] A4] A5] A6] A7] A8].
  apply emits_bind in H as (i1 & i2 & u & H1 & H2 & ->).
  destruct H1 as [N1 H1]. rewrite pushes_run in H1.
  2:{ intros r R. rewrite forallb_forall in A7. specialize (A7 r R). clear -A7. lia. }
  inversion H1; subst i1 u. clear H1.
  destruct (frameSize size sv) as [P|] eqn:FS; [|apply emits_ret in H2 as [_ H2]; discriminate].
  apply emits_bind in H2 as (i3 & i4 & u & H3 & H4 & ->).
  apply emits_bind in H4 as (i5 & i6 & u1 & H5 & H6 & ->).
  apply emits_bind in H6 as (i7 & i8 & u2 & H7 & H8 & ->).
  apply emits_ret in H8 as [-> H8]. inversion H8; subst f. clear H8.
  assert (R3 : forall s, render s i3 = if 0 <? P then alu_bytes (0xC4 + 8 * 5) P else []).
  { intros s. destruct (Z.ltb_spec 0 P) as [L|L]; [|apply emits_ret in H3 as [-> _]; reflexivity].
    destruct H3 as [_ H3]. unfold i_sub_oi in H3.
    pose proof (proj1 (frameSize_spec _ _ _ FS)) as PB.
    assert (W : w32 P = P) by (clear -L PB; unfold w32; rewrite Z.mod_small; lia). cbv zeta in H3. rewrite W in H3.
    rewrite opOI_run in H3 by auto. inversion H3. apply render_db. }
  assert (R5 : forall s, render s i5 = if rcx && (rcxPos win <? pNum) then [0x49; 0x89; 0xCA] else []).
  { intros s. destruct (rcx && _); [|apply emits_ret in H5 as [-> _]; reflexivity]. destruct H5 as [_ H5]. rewrite mov10_run in H5. inversion H5. apply (render_db s [0x49; 0x89; 0xCA]). }
  assert (R7 : forall s, render s i7 = if rdx && (rdxPos win <? pNum) then [0x49; 0x89; 0xD3] else []).
  { intros s. destruct (rdx && _); [|apply emits_ret in H7 as [-> _]; reflexivity]. destruct H7 as [_ H7]. rewrite mov11_run in H7. inversion H7. apply (render_db s [0x49; 0x89; 0xD3]). }
  exists p, t, pos1, pos2, P. repeat split; auto.
  intros s. rewrite !render_app, R3, R5, R7, render_db, app_nil_r. reflexivity.
Qed.
Lemma saved_facts win pn tn rcx rdx p t pos1 pos2 : (pn <= 4)%nat -> Z.of_nat pn + Z.of_nat tn + b2z rcx + b2z rdx <= 14 ->
  getRegs win rcx rdx pn 0 = Some (p, pos1) -> getRegs win rcx rdx tn pos1 = Some (t, pos2) ->
  let sv := saved win (save_of win pn tn rcx rdx) in
  regs_ok win rcx rdx p t /\ length p = pn /\ length t = tn
  /\ (forall r, In r (p ++ t) -> In r (callee_saved win) -> In r sv)
  /\ arg_ok win rcx rdx pn p = true /\ len sv = save_of win pn tn rcx rdx
  /\ (forall r, In r sv -> (0 <= r < 16 /\ r <> RSP) /\ In r (callee_saved win)) /\ NoDup sv.
Proof.
  intros Hp Ht G1 G2. cbv zeta. pose proof (alloc_all win pn tn rcx rdx Hp Ht) as A. unfold alloc_ok in A. rewrite G1, G2 in A.
  generalize dependent (saved win (save_of win pn tn rcx rdx)). intros sv A.
  rewrite !andb_true_iff in A. destruct A as [[[[[[[A1 A2] A3] A4] A5] A6] A7] A8].
  rewrite forallb_forall in A4, A7.
  split; [split; [apply nodupb_ok; auto|]|].
  { intros r R. specialize (A4 r R). clear -A4. destruct rcx, rdx; cbn [andb] in A4; repeat split; intros; try lia. }
  repeat split; auto; try (apply Nat.eqb_eq; auto); try (apply Z.eqb_eq; auto); try (apply nodupb_ok; auto).
  - intros r R C. specialize (A4 r R). apply andb_true_iff in A4 as [_ A4]. apply inb_in in C. rewrite C in A4. apply inb_in; auto.
  - specialize (A7 r H). clear -A7. lia.
  - specialize (A7 r H). clear -A7. lia.
  - specialize (A7 r H). clear -A7. unfold RSP in *. lia.
  - specialize (A7 r H). apply andb_true_iff in A7 as [_ A7]. apply inb_in; auto.
Qed.
Lemma arg_ok_nth win rcx rdx pn p i a r : arg_ok win rcx rdx pn p = true -> nth_error (args win) i = Some a -> nth_error p i = Some r ->
  if r =? 10 then rcx && (rcxPos win <? Z.of_nat pn) = true /\ a = 1 else if r =? 11 then rdx && (rdxPos win <? Z.of_nat pn) = true /\ a = 2 else a = r.
Proof.
  unfold arg_ok. rewrite forallb_forall. intros H A R.
  assert (I : In (a, r) (combine (args win) p)).
  { clear H. revert p i A R. induction (args win) as [|x l IH]; intros p i A R; [destruct i; discriminate|]. destruct p as [|y p]; [destruct i; discriminate|].
    destruct i; cbn in *; [left; congruence|right; eapply IH; eauto]. }
  specialize (H _ I). cbv beta iota in H. destruct (r =? 10); [|destruct (r =? 11)]; rewrite ?andb_true_iff, ?Z.eqb_eq in *; auto.
Qed.
Lemma set_regs64 m r v : regs64 m -> regs64 (set_rg m r v).
Proof. intros R x. unfold set_rg, upd. cbn [rg]. destruct (_ =? _); [apply Z.mod_pos_bound; lia|apply R]. Qed.
Lemma set_same m r v : rg (set_rg m r v) r = wrap v.
Proof. unfold set_rg, upd. cbn [rg]. rewrite Z.eqb_refl. reflexivity. Qed.
Lemma set_other m r v x : x <> r -> rg (set_rg m r v) x = rg m x.
Proof. intros H. unfold set_rg, upd. cbn [rg]. rewrite (proj2 (Z.eqb_neq x r)) by auto. reflexivity. Qed.

(* prologue *)
Lemma prologue win pNum tNum size env pos its f s m code : emits (sf_new win pNum tNum size) env pos its (Some f) ->
  regs64 m -> 8 * f_save f + Z.max 0 (f_P f) <= rg m RSP ->
  exists m1, steps (render s its ++ code) m code m1
   /\ rg m1 RSP = rg m RSP - 8 * f_save f - Z.max 0 (f_P f)
   /\ (forall i a r, nth_error (args win) i = Some a -> nth_error (f_p f) i = Some r -> rg m1 r = rg m a)
   /\ (forall r, r <> RSP -> r <> 10 -> r <> 11 -> rg m1 r = rg m r)
   /\ pushed (saved win (f_save f)) (rg m RSP) m (mm m1) /\ (forall a, rg m RSP <= a -> mm m1 a = mm m a).
Proof.
  intros H R Rm. apply sf_new_inv in H. cbv zeta in H. destruct H as (Hp & Ht & Ha & p & t & pos1 & pos2 & P & G1 & G2 & FS & -> & RR).
  set (rcx := has tNum UseRCX) in *. set (rdx := has tNum UseRDX) in *. set (tn := tNum &&& Z.lnot (UseRCX ||| UseRDX)) in *.
  destruct (saved_facts win (Z.to_nat pNum) (Z.to_nat tn) rcx rdx p t pos1 pos2 ltac:(clear -Hp; lia) ltac:(clear -Hp Ht Ha; rewrite !Z2Nat.id by lia; lia) G1 G2)
    as (F1 & F2 & F3 & F4 & F5 & F6 & F7 & F8). rewrite RR. cbn [f_save f_P f_p f_t] in *.
  set (sv := save_of win (Z.to_nat pNum) (Z.to_nat tn) rcx rdx) in *.
  pose proof (proj1 (frameSize_spec _ _ _ FS)) as PB.
  rewrite <- !app_assoc.
  set (c3 := (if rdx && (rdxPos win <? pNum) then [0x49; 0x89; 0xD3] else []) ++ code).
  set (c2 := (if rcx && (rcxPos win <? pNum) then [0x49; 0x89; 0xCA] else []) ++ c3).
  set (c1 := (if 0 <? P then alu_bytes (0xC4 + 8 * 5) P else []) ++ c2).
  destruct (exec_pushes c1 (saved win sv) (fun r X => proj1 (F7 r X)) m R ltac:(rewrite F6; clear -Rm; lia)) as (ma & S1 & E1 & O1 & P1 & A1).
  rewrite F6 in E1.
  assert (Ra : regs64 ma). { intros x. destruct (Z.eq_dec x RSP) as [->|X]; [rewrite E1; specialize (R RSP); clear -R Rm F6; unfold len in F6; lia|rewrite O1; auto]. }
  set (mb := if 0 <? P then set_rg ma RSP (rg ma RSP - P) else ma).
  assert (S2 : steps c1 ma c2 mb).
  { unfold c1, mb. destruct (Z.ltb_spec 0 P); [|apply st_refl]. apply steps_one. rewrite step_alu by (auto; clear -H PB; lia). reflexivity. }
  assert (E2 : rg mb RSP = rg m RSP - 8 * sv - Z.max 0 P).
  { unfold mb. destruct (Z.ltb_spec 0 P); [rewrite set_same, E1, Z.max_r by (clear -H; lia); apply wrap_small; specialize (R RSP); clear -R Rm H F6; unfold len in F6; lia|rewrite E1; clear -H; lia]. }
  assert (O2 : forall x, x <> RSP -> rg mb x = rg ma x). { intros x X. unfold mb. destruct (0 <? P); auto. apply set_other; auto. }
  assert (Rb : regs64 mb). { unfold mb. destruct (0 <? P); auto. apply set_regs64; auto. }
  assert (M2 : mm mb = mm ma). { unfold mb. destruct (0 <? P); reflexivity. }
  set (m10 := rcx && (rcxPos win <? pNum)) in *. set (m11 := rdx && (rdxPos win <? pNum)) in *.
  set (mc := if m10 then set_rg mb 10 (rg mb 1) else mb).
  assert (S3 : steps c2 mb c3 mc). { unfold c2, mc. destruct m10; [|apply st_refl]. apply steps_one. apply step_mov10. }
  set (md := if m11 then set_rg mc 11 (rg mc 2) else mc).
  assert (S4 : steps c3 mc code md). { unfold c3, md. destruct m11; [|apply st_refl]. apply steps_one. apply step_mov11. }
  assert (O3 : forall x, x <> 10 -> rg mc x = rg mb x). { intros x X. unfold mc. destruct m10; auto. apply set_other; auto. }
  assert (O4 : forall x, x <> 11 -> rg md x = rg mc x). { intros x X. unfold md. destruct m11; auto. apply set_other; auto. }
  assert (OO : forall x, x <> RSP -> x <> 10 -> x <> 11 -> rg md x = rg m x). { intros x X Y Z0. rewrite O4, O3, O2, O1; auto. }
  assert (MM : mm md = mm ma). { unfold md, mc. destruct m11, m10; cbn; exact M2. }
  exists md. split; [|split; [|split; [|split; [|split]]]].
  - eapply steps_trans; [exact S1|]. eapply steps_trans; [exact S2|]. eapply steps_trans; [exact S3|]. exact S4.
  - rewrite O4, O3 by (clear; unfold RSP; lia). exact E2.
  - intros i a r A Q. pose proof (arg_ok_nth _ _ _ _ _ _ _ _ F5 A Q) as K. rewrite Z2Nat.id in K by (clear -Hp; lia). fold m10 m11 in K.
    destruct F1 as [_ F1]. destruct (F1 r ltac:(apply in_or_app; left; eapply nth_error_In; eauto)) as (B1 & B2 & _).
    destruct (Z.eqb_spec r 10) as [->|N10]; [|destruct (Z.eqb_spec r 11) as [->|N11]].
    + destruct K as [K ->]. rewrite O4 by (clear; lia). unfold mc. rewrite K, set_same, wrap_small by apply Rb. rewrite O2, O1 by (clear; unfold RSP; lia). reflexivity.
    + destruct K as [K ->]. unfold md. rewrite K, set_same.
      rewrite wrap_small; [|unfold mc; destruct m10; [apply set_regs64|]; apply Rb]. rewrite O3, O2, O1 by (clear; unfold RSP; lia). reflexivity.
    + subst a. apply OO; auto.
  - exact OO.
  - rewrite MM. exact P1.
  - intros a A. rewrite MM. apply A1; auto.
Qed.
Lemma rev_nth (l : list Z) i r : nth_error l i = Some r -> nth_error (rev l) (length l - 1 - i) = Some r.
Proof.
  intros H. assert (L : (i < length l)%nat) by (apply nth_error_Some; congruence).
  rewrite (nth_error_nth' (rev l) 0) by (rewrite rev_length; lia). rewrite rev_nth by lia.
  replace (length l - S (length l - 1 - i))%nat with i by lia. rewrite (nth_error_nth' l 0) in H by lia. exact H.
Qed.
Definition frame_of (win : bool) (pNum tNum size : Z) (f : SF) : Prop := exists env pos its, emits (sf_new win pNum tNum size) env pos its (Some f).
(* epilogue *)
Lemma epilogue win pNum tNum size f env pos its u s m m1 m2 code : frame_of win pNum tNum size f ->
  emits (sf_close win f true) env pos its u ->
  regs64 m -> 8 * f_save f + Z.max 0 (f_P f) <= rg m RSP -> rg m RSP + 8 < 2 ^ 64 ->
  rg m1 RSP = rg m RSP - 8 * f_save f - Z.max 0 (f_P f) ->
  (forall r, r <> RSP -> r <> 10 -> r <> 11 -> rg m1 r = rg m r) ->
  pushed (saved win (f_save f)) (rg m RSP) m (mm m1) -> (forall a, rg m RSP <= a -> mm m1 a = mm m a) ->
  body_ok win (f_p f) (f_t f) size m1 m2 ->
  exists m3 m4, steps (render s its ++ code) m2 (0xC3 :: code) m3
   /\ step (0xC3 :: code) m3 = Some (Return (load (mm m) (rg m RSP) 8) m4)
   /\ rg m4 RSP = rg m RSP + 8 /\ (forall r, In r (callee_saved win) -> rg m4 r = rg m r) /\ (forall a, rg m RSP <= a -> mm m4 a = mm m a).
Proof.
  intros (env0 & pos0 & its0 & H) HC R Rm Top E1 O1 P1 A1 (B1 & B2 & B3 & B4).
  apply sf_new_inv in H. cbv zeta in H. destruct H as (Hp & Ht & Ha & p & t & pos1 & pos2 & P & G1 & G2 & FS & -> & _).
  set (rcx := has tNum UseRCX) in *. set (rdx := has tNum UseRDX) in *. set (tn := tNum &&& Z.lnot (UseRCX ||| UseRDX)) in *.
  destruct (saved_facts win (Z.to_nat pNum) (Z.to_nat tn) rcx rdx p t pos1 pos2 ltac:(clear -Hp; lia) ltac:(clear -Hp Ht Ha; rewrite !Z2Nat.id by lia; lia) G1 G2)
    as (F1 & F2 & F3 & F4 & F5 & F6 & F7 & F8). cbn [f_save f_P f_p f_t] in *.
  set (sv := save_of win (Z.to_nat pNum) (Z.to_nat tn) rcx rdx) in *.
  destruct (frameSize_spec _ _ _ FS) as (PB & SZ & _).
  unfold sf_close in HC. cbn [f_save f_P] in HC.
  apply emits_bind in HC as (i1 & i2 & u1 & H1 & H2 & ->). apply emits_bind in H2 as (i3 & i4 & u2 & H3 & H4 & ->).
  assert (R1 : render s i1 = if 0 <? P then alu_bytes (0xC4 + 8 * 0) P else []).
  { destruct (Z.ltb_spec 0 P) as [L|L]; [|apply emits_ret in H1 as [-> _]; reflexivity].
    destruct H1 as [_ H1]. unfold i_add_oi in H1. assert (W : w32 P = P) by (clear -L PB; unfold w32; rewrite Z.mod_small; lia). cbv zeta in H1. rewrite W in H1.
    rewrite opOI_run in H1 by auto. inversion H1. apply render_db. }
  assert (R3 : render s i3 = concat (map pop_bytes (rev (saved win sv)))).
  { destruct H3 as [_ H3]. rewrite pops_run in H3. - inversion H3. apply render_db. - intros r X. apply in_rev in X. apply (F7 r X). }
  assert (R4 : render s i4 = [0xC3]). { destruct H4 as [_ H4]. cbn in H4. inversion H4. reflexivity. }
  rewrite !render_app, R1, R3, R4, <- !app_assoc. change ([0xC3] ++ code) with (0xC3 :: code).
  set (c1 := concat (map pop_bytes (rev (saved win sv))) ++ 0xC3 :: code).
  set (ma := if 0 <? P then set_rg m2 RSP (rg m2 RSP + P) else m2).
  assert (S1 : steps ((if 0 <? P then alu_bytes (0xC4 + 8 * 0) P else []) ++ c1) m2 c1 ma).
  { unfold ma. destruct (Z.ltb_spec 0 P); [|apply st_refl]. apply steps_one. rewrite step_alu by (auto; clear -H PB; lia). reflexivity. }
  assert (Ea : rg ma RSP = rg m RSP - 8 * sv).
  { unfold ma. destruct (Z.ltb_spec 0 P); [rewrite set_same, B1, E1, Z.max_r by (clear -H; lia); rewrite wrap_small; specialize (R RSP); clear -R Rm H F6; unfold len in F6; lia|rewrite B1, E1; clear -H; lia]. }
  assert (Oa : forall x, x <> RSP -> rg ma x = rg m2 x). { intros x X. unfold ma. destruct (0 <? P); auto. apply set_other; auto. }
  assert (Ra : regs64 ma). { unfold ma. destruct (0 <? P); auto. apply set_regs64; auto. }
  assert (Ma : mm ma = mm m2). { unfold ma. destruct (0 <? P); reflexivity. }
  assert (LV : len (rev (saved win sv)) = sv). { unfold len in *. rewrite rev_length. exact F6. }
  destruct (exec_pops (0xC3 :: code) (rev (saved win sv)) (NoDup_rev F8) (fun r X => proj1 (F7 r (proj2 (in_rev _ r) X))) ma Ra
     ltac:(rewrite LV, Ea; clear -Top; lia)) as (mb & S2 & Eb & Mb & Ob & Pb).
  rewrite LV, Ea in Eb.
  exists mb, (set_rg mb RSP (rg mb RSP + 8)).
  assert (UP : forall a, rg m RSP - 8 * sv <= a -> mm mb a = mm m1 a). { intros a A. rewrite Mb, Ma. apply B4. rewrite E1. clear -A SZ. lia. }
  assert (SVN : 0 <= sv) by (clear -F6; unfold len in F6; lia).
  split; [eapply steps_trans; [exact S1|exact S2]|]. split; [|split; [|split]].
  - cbn [step]. replace (rg mb RSP) with (rg m RSP) by (rewrite Eb; lia). cbn -[load set_rg Z.add]. f_equal. f_equal; [|rewrite Eb; f_equal; lia].
    replace (rg mb RSP) with (rg m RSP) by (rewrite Eb; lia).
    apply load_ext. intros x X. rewrite UP by (clear -X SVN; lia). apply A1. clear -X; lia.
  - rewrite set_same, wrap_small; rewrite Eb; [clear; lia|]. specialize (R RSP). clear -R Top. lia.
  - intros r C. assert (NR : r <> RSP /\ r <> 10 /\ r <> 11). { clear -C. unfold RSP. destruct win; cbn in C; lia. }
    destruct NR as (N1 & N2 & N3). rewrite set_other by auto.
    destruct (in_dec Z.eq_dec r (saved win sv)) as [I|I].
    + destruct (In_nth_error _ _ I) as [i Hi]. rewrite (Pb _ r (rev_nth _ _ _ Hi)).
      assert (Li : (i < length (saved win sv))%nat) by (apply nth_error_Some; congruence).
      replace (rg ma RSP + 8 * Z.of_nat (length (saved win sv) - 1 - i)) with (rg m RSP - 8 * (Z.of_nat i + 1)).
      2:{ rewrite Ea. unfold len in F6. clear -F6 Li. lia. }
      rewrite <- Mb. rewrite (load_ext (mm mb) (mm m1)). 2:{ intros x X. apply UP. unfold len in F6. clear -X F6 Li. lia. }
      rewrite (P1 i r Hi). apply wrap_small. apply R.
    + rewrite Ob, Oa by (auto; intros X; apply I; apply in_rev; auto).
      destruct (B2 r) as [E|[K|[K|[K _]]]]; [rewrite E; apply O1; auto| | |contradiction]; exfalso; apply I; apply F4; auto; apply in_or_app; auto.
  - intros a A. cbn [mm set_rg]. rewrite UP by (clear -A SVN; lia). auto.
Qed.

Definition accepted (pNum tNum : Z) : Prop :=
  let tn := tNum &&& Z.lnot (UseRCX ||| UseRDX) in
  0 <= pNum <= 4 /\ 0 <= tn /\ pNum + tn + b2z (has tNum UseRCX) + b2z (has tNum UseRDX) <= 14.
Lemma frame_regs win pNum tNum size f : frame_of win pNum tNum size f ->
  accepted pNum tNum /\ regs_ok win (has tNum UseRCX) (has tNum UseRDX) (f_p f) (f_t f)
  /\ len (f_p f) = pNum /\ len (f_t f) = tNum &&& Z.lnot (UseRCX ||| UseRDX) /\ Z.max 0 size <= Z.max 0 (f_P f) /\ 0 <= f_save f <= 8.
Proof.
  intros (env0 & pos0 & its0 & H).
  apply sf_new_inv in H. cbv zeta in H. destruct H as (Hp & Ht & Ha & p & t & pos1 & pos2 & P & G1 & G2 & FS & -> & _).
  set (rcx := has tNum UseRCX) in *. set (rdx := has tNum UseRDX) in *. set (tn := tNum &&& Z.lnot (UseRCX ||| UseRDX)) in *.
  destruct (saved_facts win (Z.to_nat pNum) (Z.to_nat tn) rcx rdx p t pos1 pos2 ltac:(clear -Hp; lia) ltac:(clear -Hp Ht Ha; rewrite !Z2Nat.id by lia; lia) G1 G2)
    as (F1 & F2 & F3 & F4 & F5 & F6 & F7 & F8). cbn [f_save f_P f_p f_t] in *.
  destruct (frameSize_spec _ _ _ FS) as (_ & SZ & _).
  split; [split; auto|]. split; [auto|]. unfold len in *. rewrite F2, F3, !Z2Nat.id by (clear -Hp Ht; lia).
  split; [auto|]. split; [auto|]. split; [auto|]. unfold save_of, noSaveNum. rewrite !Z2Nat.id by (clear -Hp Ht; lia). clear -Hp Ht Ha. destruct win; lia.
Qed.
Lemma frame_all win pNum tNum size env pos its f : emits (sf_new win pNum tNum size) env pos its (Some f) ->
  forall s m code, regs64 m -> 8 * f_save f + Z.max 0 (f_P f) <= rg m RSP -> rg m RSP + 8 < 2 ^ 64 ->
  exists m1, steps (render s its ++ code) m code m1
   /\ rg m1 RSP + Z.max 0 size <= rg m RSP - 8 * f_save f
   /\ (0 < size -> rg m RSP mod 16 = 8 -> rg m1 RSP mod 16 = 0)
   /\ (forall i a r, nth_error (args win) i = Some a -> nth_error (f_p f) i = Some r -> rg m1 r = rg m a)
   /\ (forall r, r <> RSP -> r <> 10 -> r <> 11 -> rg m1 r = rg m r)
   /\ forall m2 env' pos' its' u code', body_ok win (f_p f) (f_t f) size m1 m2 -> emits (sf_close win f true) env' pos' its' u ->
      exists m3 m4, steps (render s its' ++ code') m2 (0xC3 :: code') m3
       /\ step (0xC3 :: code') m3 = Some (Return (load (mm m) (rg m RSP) 8) m4)
       /\ rg m4 RSP = rg m RSP + 8 /\ (forall r, In r (callee_saved win) -> rg m4 r = rg m r)
       /\ (forall a, rg m RSP <= a -> mm m4 a = mm m a).
Proof.
  intros H s m code R Rm Top. destruct (prologue _ _ _ _ _ _ _ _ s m code H R Rm) as (m1 & S1 & E1 & G1 & O1 & P1 & A1).
  assert (FO : frame_of win pNum tNum size f) by (exists env, pos, its; auto).
  exists m1. split; [auto|]. destruct (frame_regs _ _ _ _ _ FO) as (_ & _ & _ & _ & SZ & _). split; [rewrite E1; clear -SZ; lia|].
  split; [|split; [auto|split; [auto|]]].
  - intros Pz AL. apply sf_new_inv in H. cbv zeta in H. destruct H as (_ & _ & _ & p & t & pos1 & pos2 & P & _ & _ & FS & -> & _).
    cbn [f_save f_P] in *. destruct (frameSize_spec _ _ _ FS) as (_ & _ & Q1 & Q2). rewrite E1. specialize (Q2 Pz). destruct Q1 as [Q1|Q1]; [clear -Q1 Q2; lia|].
    rewrite Z.max_r by (clear -Q2; lia). clear -AL Q1 Q2.
    generalize dependent (save_of win (Z.to_nat pNum) (Z.to_nat (tNum &&& Z.lnot (UseRCX ||| UseRDX))) (has tNum UseRCX) (has tNum UseRDX)).
    generalize dependent (rg m RSP). intros x AL sv Q1. Z.to_euclidean_division_equations. lia.
  - intros m2 env' pos' its' u code' B C. eapply epilogue; eauto.
Qed.
Lemma frame_defined win pNum tNum size env pos : env_noexc env = false ->
  (accepted pNum tNum -> size <= INT_MAX - 15 -> exists its f, emits (sf_new win pNum tNum size) env pos its (Some f))
  /\ (~ accepted pNum tNum -> exists e, (e = ERR_BAD_PNUM \/ e = ERR_BAD_TNUM) /\ sf_new win pNum tNum size env pos = ([], Err e)).
Proof.
  intros N. split.
  - intros (Hp & Ht & Ha) Hs.
    set (rcx := has tNum UseRCX) in *. set (rdx := has tNum UseRDX) in *. set (tn := tNum &&& Z.lnot (UseRCX ||| UseRDX)) in *.
    pose proof (alloc_all win (Z.to_nat pNum) (Z.to_nat tn) rcx rdx ltac:(clear -Hp; lia) ltac:(clear -Hp Ht Ha; rewrite !Z2Nat.id by lia; lia)) as A.
    assert (SV : Z.max 0 (pNum + tn + b2z rcx + b2z rdx - noSaveNum win) = save_of win (Z.to_nat pNum) (Z.to_nat tn) rcx rdx)
      by (clear -Hp Ht; unfold save_of; rewrite !Z2Nat.id by lia; reflexivity).
    unfold sf_new. cbv zeta. fold rcx rdx tn. rewrite (proj2 (orb_false_iff (pNum <? 0) (4 <? pNum))) by (clear -Hp; lia).
    rewrite (proj2 (orb_false_iff (tn <? 0) (maxRegNum <? pNum + tn + b2z rcx + b2z rdx))) by (unfold maxRegNum; clear -Ht Ha; lia).
    rewrite SV. set (sv := save_of win (Z.to_nat pNum) (Z.to_nat tn) rcx rdx) in *.
    unfold alloc_ok in A. fold sv in A.
    destruct (getRegs win rcx rdx (Z.to_nat pNum) 0) as [[p pos1]|] eqn:G1; [|discriminate].
    destruct (getRegs win rcx rdx (Z.to_nat tn) pos1) as [[t pos2]|] eqn:G2; [|discriminate].
    rewrite !andb_true_iff in A. destruct A as [[[[[[[A1 A2] A3] A4] A5] A6] A7] A8].
    assert (FS : exists P, frameSize size sv = Some P /\ P < 2 ^ 31).
    { destruct (frameSize size sv) as [P|] eqn:F; [exists P; split; auto; apply (frameSize_spec _ _ _ F)|]. exfalso. unfold frameSize in F.
      replace (INT_MAX <? size + 7) with false in F by (clear -Hs; unfold INT_MAX in *; lia). cbv zeta in F.
      match type of F with (if INT_MAX <? ?x then _ else _) = None => assert (X : x <= INT_MAX); [|rewrite (proj2 (Z.ltb_ge INT_MAX x) X) in F; discriminate] end.
      clear -Hs. destruct (_ && _); unfold INT_MAX in *; Z.to_euclidean_division_equations; lia. }
    destruct FS as (P & FS & PB). rewrite FS.
    assert (SB : forall r, In r (saved win sv) -> 0 <= r < 16) by (intros r X; rewrite forallb_forall in A7; specialize (A7 r X); clear -A7; lia).
    unfold emits. destruct (Z.ltb_spec 0 P) as [L|L].
    + assert (W : w32 P = P) by (clear -L PB; unfold w32; rewrite Z.mod_small; lia).
      destruct (rcx && _), (rdx && _); eexists; exists (mkSF sv P p t); (split; [exact N|]); unfold fn, bind; rewrite pushes_run by auto;
        unfold i_sub_oi; cbv zeta; rewrite W, opOI_run by auto; rewrite ?mov10_run, ?mov11_run; reflexivity.
    + destruct (rcx && _), (rdx && _); eexists; exists (mkSF sv P p t); (split; [exact N|]); unfold fn, bind; rewrite pushes_run by auto;
        cbn [ret]; rewrite ?mov10_run, ?mov11_run; reflexivity.
  - intros NA. unfold sf_new. cbv zeta. unfold accepted in NA. cbv zeta in NA. unfold fn, throw. rewrite N.
    destruct ((pNum <? 0) || (4 <? pNum)) eqn:HP; [exists ERR_BAD_PNUM; split; auto|].
    destruct ((_ <? 0) || (maxRegNum <? _)) eqn:HT; [exists ERR_BAD_TNUM; split; auto|].
    exfalso. apply NA. unfold maxRegNum in HT. lia.
Qed.
