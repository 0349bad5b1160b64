(* The code that sample/bf.cpp generates does what the Brainfuck program means. *)
From Coq Require Import ZArith List Bool String Ascii Lia.
From Verif Require Import Base Types Emit EmitFacts Encode Mnemonic SpecX86 SpecAddr SpecLeg SpecCond SpecExec SpecMach Wf State Code Label Gen SpecLabel LabelThms Grow LabelThms6 SpecProg ProgInsn ProgMach ProgRef ProgHist ProgSim ProgSum ProgThms SseMean SpecBf SpecBfRun Bf.
Import ListNotations.
Open Scope list_scope.
Open Scope Z_scope.
Notation upd := SpecExec.upd.

(* ---- pieces of a program ---- *)
Definition at_ (p : program) (i : nat) (l : program) : Prop := exists pre post, p = pre ++ l ++ post /\ List.length pre = i.
Lemma at_hd p i q l : at_ p i (q :: l) -> nth_error p i = Some q /\ at_ p (S i) l /\ (S i <= List.length p)%nat.
Proof.
  intros (pre & post & -> & <-). split; [|split].
  - rewrite nth_error_app2 by lia. now rewrite Nat.sub_diag.
  - exists (pre ++ [q]), post. split; [now rewrite <- app_assoc|]. rewrite app_length. cbn. lia.
  - rewrite !app_length. cbn. lia.
Qed.
Lemma at_app p i l1 l2 : at_ p i (l1 ++ l2) -> at_ p i l1 /\ at_ p (i + List.length l1) l2.
Proof.
  intros (pre & post & -> & <-). split.
  - exists pre, (l2 ++ post). now rewrite <- app_assoc.
  - exists (pre ++ l1), post. split; [now rewrite <- !app_assoc|]. apply app_length.
Qed.
Lemma at_news p i l : at_ p i l -> news (firstn (i + List.length l) p) = (news (firstn i p) + news l)%nat.
Proof.
  intros (pre & post & -> & <-). rewrite firstn_app_2, firstn_app, firstn_all, Nat.sub_diag, app_nil_r. rewrite firstn_app, firstn_all, Nat.sub_diag, app_nil_r, news_app. reflexivity.
Qed.
Lemma news_1 p i q l : at_ p i (q :: l) -> news (firstn (S i) p) = (news (firstn i p) + if is_new q then 1 else 0)%nat.
Proof.
  intros H. change (q :: l) with ([q] ++ l) in H. apply at_app in H as [H _]. apply at_news in H. cbn [List.length news] in H.
  rewrite Nat.add_1_r in H. rewrite H. now destruct (is_new q).
Qed.

(* ---- memory ---- *)
Lemma a64 z : 0 <= addr64 z < 2 ^ 64.
Proof. apply Z.mod_pos_bound. reflexivity. Qed.
Lemma a64_a64 z : addr64 (addr64 z) = addr64 z.
Proof. apply Z.mod_mod. discriminate. Qed.
Lemma a64_l a b : addr64 (addr64 a + b) = addr64 (a + b).
Proof. apply Zplus_mod_idemp_l. Qed.
Lemma a64_s a b : addr64 (addr64 a - b) = addr64 (a - b).
Proof. apply Zminus_mod_idemp_l. Qed.
Lemma a64_inj b k k' : addr64 (b + k) = addr64 (b + k') -> 0 <= k < 2 ^ 64 -> 0 <= k' < 2 ^ 64 -> k = k'.
Proof.
  unfold addr64. intros H Hk Hk'. assert ((k - k') mod 2 ^ 64 = 0) as D.
  { replace (k - k') with ((b + k) - (b + k')) by ring. rewrite Zminus_mod, H, Z.sub_diag. reflexivity. }
  apply Z.mod_divide in D as [z D]; [|discriminate]. nia.
Qed.
Lemma load_same m m' a n : (forall k, 0 <= k < Z.of_nat n -> m (addr64 (a + k)) = m' (addr64 (a + k))) -> load m a n = load m' a n.
Proof.
  revert a. induction n as [|n IH]; intros a H; [reflexivity|]. cbn [load]. f_equal; [specialize (H 0); rewrite Z.add_0_r in H; apply H; lia|].
  f_equal. apply IH. intros k Hk. replace (a + 1 + k) with (a + (k + 1)) by ring. apply H. lia.
Qed.
Lemma store_out m a v n z : (forall k, 0 <= k < Z.of_nat n -> z <> addr64 (a + k)) -> store m a v n z = m z.
Proof.
  revert m a v. induction n as [|n IH]; intros m a v H; [reflexivity|]. cbn [store]. rewrite IH.
  - unfold upd. destruct (Z.eqb_spec z (addr64 a)) as [E|]; [|reflexivity]. exfalso. apply (H 0); [lia|]. now rewrite Z.add_0_r.
  - intros k Hk. replace (a + 1 + k) with (a + (k + 1)) by ring. apply H. lia.
Qed.
Lemma load_store m v : forall n a, Z.of_nat n <= 2 ^ 64 -> load (store m a v n) a n = v mod 256 ^ Z.of_nat n.
Proof.
  assert (forall n m v a, Z.of_nat n <= 2 ^ 64 -> load (store m a v n) a n = v mod 256 ^ Z.of_nat n) as X; [|intros; now apply X].
  clear. induction n as [|n IH]; intros m v a H; [cbn; now rewrite Z.mod_1_r|].
  cbn [load store]. rewrite IH by lia. rewrite store_out.
  - unfold upd. rewrite Z.eqb_refl. rewrite Nat2Z.inj_succ, Z.pow_succ_r by lia. symmetry. rewrite Z.rem_mul_r by (try apply Z.pow_nonzero; lia). reflexivity.
  - intros k Hk E. replace (addr64 a) with (addr64 (a + 0)) in E by (f_equal; ring). replace (a + 1 + k) with (a + (k + 1)) in E by ring.
    apply a64_inj in E; lia.
Qed.

(* ---- instructions ---- *)
Lemma cur_loc x : loc_of cur x = LMem (addr64 (rg x 12)).
Proof.
  change (loc_of cur x) with (LMem ((rg x 12 + 0 + 0) mod 2 ^ 64)). now rewrite !Z.add_0_r.
Qed.
Lemma read_cur x : read 8 (loc_of cur x) x = mm x (addr64 (rg x 12)).
Proof. rewrite cur_loc. change (mm x (addr64 (addr64 (rg x 12))) + 256 * 0 = mm x (addr64 (rg x 12))). rewrite a64_a64. ring. Qed.
Lemma write_cur x v : write 8 (loc_of cur x) v x = SpecExec.mkSt (rg x) (upd (mm x) (addr64 (rg x 12)) (v mod 256)) (fl x) (un x) (vu x).
Proof. rewrite cur_loc. unfold write. change (Z.to_nat (8 / 8)) with 1%nat. cbn [store]. now rewrite a64_a64. Qed.
Lemma add_cell_does n : exists m f, add_cell n = SIns m f /\ forall x, 0 <= mm x (addr64 (rg x 12)) < 256 ->
  rg (f x) = rg x /\ mm (f x) = upd (mm x) (addr64 (rg x 12)) ((mm x (addr64 (rg x 12)) + n) mod 256).
Proof.
  unfold add_cell. destruct (Z.eqb_spec n 1) as [->|N1]; [|destruct (Z.eqb_spec n (-1)) as [->|N2]]; eexists; eexists; (split; [reflexivity|]); intros x H.
  - unfold e_unary, do_unary. rewrite read_cur. set (v := mm x _) in *. unfold alu. cbn [Z.eqb Pos.eqb]. cbv beta iota zeta. rewrite write_cur. split; [reflexivity|].
    unfold set_fl. cbn [mm]. fold v. change (2 ^ 8) with 256. now rewrite Z.add_0_r, Z.mod_mod.
  - unfold e_unary, do_unary. rewrite read_cur. set (v := mm x _) in *. unfold alu. cbn [Z.eqb Pos.eqb]. cbv beta iota zeta. rewrite write_cur. split; [reflexivity|].
    unfold set_fl. cbn [mm]. fold v. change (2 ^ 8) with 256. rewrite Z.sub_0_r, Z.mod_mod by lia. reflexivity.
  - unfold e_alu, do_alu. rewrite read_cur. set (v := mm x _) in *. unfold alu. cbn [Z.eqb Pos.eqb]. cbv beta iota zeta. rewrite write_cur. split; [reflexivity|].
    unfold set_fl. cbn [mm]. fold v. change (2 ^ 8) with 256. rewrite Z.add_0_r, Z.mod_mod by lia. f_equal. rewrite Zplus_mod_idemp_r.
    assert (arg32 (w32 n) mod 256 = n mod 256) as E.
    { unfold arg32, signed, w32. change 4294967296 with (2 ^ 32). rewrite Z.mod_mod by discriminate.
      assert (n mod 2 ^ 32 mod 256 = n mod 256) as M by (change (2 ^ 32) with (256 * 2 ^ 24); rewrite Z.rem_mul_r by lia; rewrite Z.mul_comm, Z.mod_add by lia; now rewrite Z.mod_mod).
      destruct (_ <? _); [exact M|]. rewrite Zminus_mod. rewrite M. change (2 ^ 32 mod 256) with 0. now rewrite Z.sub_0_r, Z.mod_mod. }
    rewrite <- Zplus_mod_idemp_r, E, Zplus_mod_idemp_r. reflexivity.
Qed.
Lemma add_pos_does n : - 2 ^ 31 <= n < 2 ^ 31 -> exists m f, add_pos n = SIns m f /\ forall x,
  mm (f x) = mm x /\ rg (f x) = upd (rg x) 12 (addr64 (rg x 12 + n)).
Proof.
  intros Hn. eexists; eexists; (split; [reflexivity|]). intros x. split; [reflexivity|].
  change (upd (rg x) 12 (((rg x 12 mod 2 ^ 64 + arg32 (w32 n) mod 2 ^ 64 + 0) mod 2 ^ 64) mod 2 ^ 64) = upd (rg x) 12 (addr64 (rg x 12 + n))).
  assert (arg32 (w32 n) = n) as ->.
  { unfold arg32, signed, w32. change 4294967296 with (2 ^ 32). rewrite Z.mod_mod by discriminate. change (32 - 1) with 31.
    destruct (Z_lt_dec n 0) as [L|L].
    - replace (n mod 2 ^ 32) with (n + 2 ^ 32) by (apply Z.mod_unique with (-1); lia). destruct (Z.ltb_spec (n + 2 ^ 32) (2 ^ 31)); lia.
    - rewrite (Z.mod_small n) by lia. destruct (Z.ltb_spec n (2 ^ 31)); lia. }
  rewrite Z.mod_mod, Z.add_0_r by discriminate. unfold addr64. now rewrite <- Zplus_mod.
Qed.
Lemma push_does k x : loc_of (r64 k) x = LReg k ->
  rg (e_push 64 (r64 k) x) = upd (rg x) RSP (addr64 (rg x RSP - 8)) /\ mm (e_push 64 (r64 k) x) = store (mm x) (addr64 (rg x RSP - 8)) (addr64 (rg x k)) 8.
Proof. intros H. unfold e_push. rewrite H. split; reflexivity. Qed.
Lemma mov_does k j x : loc_of (r64 k) x = LReg k -> loc_of (r64 j) x = LReg j ->
  rg (e_mov2 64 (r64 k) (r64 j) x) = upd (rg x) k (addr64 (rg x j)) /\ mm (e_mov2 64 (r64 k) (r64 j) x) = mm x.
Proof. intros H1 H2. unfold e_mov2. rewrite H1, H2. split; [|reflexivity]. unfold write, read, set_reg. cbn [rg Z.eqb]. f_equal. apply Z.mod_mod. discriminate. Qed.
Lemma pop_does k x : (forall y, loc_of (r64 k) y = LReg k) ->
  rg (e_pop 64 (r64 k) x) = upd (upd (rg x) RSP (addr64 (rg x RSP + 8))) k (addr64 (load (mm x) (rg x RSP) 8)) /\ mm (e_pop 64 (r64 k) x) = mm x.
Proof. intros H. unfold e_pop, do_pop. rewrite H. split; reflexivity. Qed.
Lemma movzx_does k x : loc_of (OReg (Reg32 k)) x = LReg k -> 0 <= mm x (addr64 (rg x 12)) < 256 ->
  rg (e_extend false 32 8 (OReg (Reg32 k)) cur x) = upd (rg x) k (mm x (addr64 (rg x 12))) /\ mm (e_extend false 32 8 (OReg (Reg32 k)) cur x) = mm x.
Proof.
  intros H B. unfold e_extend. rewrite H, read_cur. split; [|reflexivity]. cbv zeta. unfold write, set_reg. cbn [rg Z.eqb Pos.eqb]. f_equal. apply Z.mod_small. lia.
Qed.
Lemma test_does x : 0 <= rg x 0 < 256 -> rg (e_test 32 eax eax x) = rg x /\ mm (e_test 32 eax eax x) = mm x /\ cc_holds 4 (fl (e_test 32 eax eax x)) = (rg x 0 =? 0).
Proof.
  intros H. split; [reflexivity|]. split; [reflexivity|].
  change (cc_holds 4 (fl (e_test 32 eax eax x))) with (xorb false (Z.land (rg x 0 mod 2 ^ 32) (rg x 0 mod 2 ^ 32) =? 0)). rewrite xorb_false_l, Z.land_diag, Z.mod_small by lia. reflexivity.
Qed.
Lemma get_does x : rg (e_mov2 8 cur al x) = rg x /\ mm (e_mov2 8 cur al x) = upd (mm x) (addr64 (rg x 12)) (rg x 0 mod 256).
Proof.
  unfold e_mov2. rewrite write_cur. split; [reflexivity|]. cbn [mm]. f_equal. change (read 8 (loc_of al x) x) with (rg x 0 mod 256). apply Z.mod_mod. discriminate.
Qed.
Lemma call_does a x : rg (do_push 64 a x) = upd (rg x) RSP (addr64 (rg x RSP - 8)) /\ mm (do_push 64 a x) = store (mm x) (addr64 (rg x RSP - 8)) a 8.
Proof. split; reflexivity. Qed.
Lemma io_trans c d e f : io c d e -> io c e f -> io c d f.
Proof. induction 1; intros; auto; [eapply IO_cpu|eapply IO_put|eapply IO_get]; eauto. Qed.

Section R.
  Variables (b0 : bf) (s0 s : St) (a : Spec) (lib : libc) (x0 : st) (N : Z).
  Let p := whole b0.
  Hypothesis Hb : built s0 p s a.
  Let tape := rg x0 2.
  Let sp := rg x0 RSP.
  Hypothesis Hput : putchar lib = addr64 (rg x0 7).
  Hypothesis Hget : getchar lib = addr64 (rg x0 6).
  Hypothesis Ha : apart lib s tape N sp.
  Hypothesis Hc : conforms lib (callers s tape N sp).
  Let A := adr s0 s p.
  Lemma adr_out i : (i <= List.length p)%nat -> A i <> putchar lib /\ A i <> getchar lib.
  Proof.
    intros H. destruct Ha, Hb. pose proof (well_good _ bt_insns) as G.
    pose proof (pos_ge s0 s a p bt_new bt_calls i) as P1. pose proof (pos_le s0 s a p bt_new bt_calls i H) as P2.
    assert (bytes_at (c_top (g_code s)) (c_size (g_code s) + 1) (A i)) as B by (exists (pos_of s0 p i); split; [lia|reflexivity]).
    split; intros E; rewrite E in B; auto.
  Qed.
  Lemma io_step i x c pi po : pstep p A (At i x) c -> loaded s x -> (i <= List.length p)%nat -> io lib (A i, x, pi, po) (mcfg s0 s p c, pi, po).
  Proof.
    intros Hs Hl Hi. destruct (adr_out i Hi) as [O1 O2]. destruct (b_step s0 p s a i x c Hb Hl Hs) as [M|[M _]].
    - destruct (mcfg s0 s p c) as [ip x'] eqn:E. eapply IO_cpu; eauto. constructor.
    - rewrite M. constructor.
  Qed.

  (* memory: the code, the tape, the saved registers and the return address (F) *)
  Variable F : Z -> Z.
  Record Mem (m : Z -> Z) (cs : Z -> Z) : Prop := {
    m_code : forall k, 0 <= k < c_size (g_code s) -> m (addr64 (c_top (g_code s) + k)) = c_mem (g_code s) k;
    m_tape : forall i, 0 <= i < N -> m (addr64 (tape + i)) = cs i;
    m_byte : forall i, 0 <= i < N -> 0 <= cs i < 256;
    m_frame : forall k, 0 <= k < 32 -> m (addr64 (sp - 24 + k)) = F k }.
  Definition Regs (x : st) (i : Z) : Prop :=
    rg x 3 = putchar lib /\ rg x 5 = getchar lib /\ rg x 12 = addr64 (tape + i) /\ rg x RSP = addr64 (sp - 24).
  Lemma Mem_keep m m' cs : Mem m cs -> (forall z, callers s tape N sp z -> m' z = m z) -> Mem m' cs.
  Proof.
    intros [] H. split; intros; auto; rewrite H; auto.
    - left. exists k. auto.
    - right. left. exists i. auto.
    - right. right. exists k. auto.
  Qed.
  Lemma Mem_set m cs i v : Mem m cs -> 0 <= i < N -> Mem (upd m (addr64 (tape + i)) (v mod 256)) (put_cell cs i v).
  Proof.
    intros [] Hi. destruct Ha. assert (bytes_at tape N (addr64 (tape + i))) as B by (exists i; auto). split; intros.
    - unfold upd. destruct (Z.eqb_spec (addr64 (c_top (g_code s) + k)) (addr64 (tape + i))) as [E|]; [|auto]. exfalso. eapply ap_code; [exact B|]. exists k. auto.
    - unfold upd, put_cell. destruct (Z.eqb_spec i0 i) as [->|D]; [now rewrite Z.eqb_refl|].
      destruct (Z.eqb_spec (addr64 (tape + i0)) (addr64 (tape + i))) as [E|]; [|auto]. exfalso. apply D. apply a64_inj in E; lia.
    - unfold put_cell. destruct (i0 =? i); [apply Z.mod_pos_bound; lia|auto].
    - unfold upd. destruct (Z.eqb_spec (addr64 (sp - 24 + k)) (addr64 (tape + i))) as [E|]; [|auto]. exfalso. eapply ap_stack; [exact B|]. exists (k + 8).
      split; [lia|]. rewrite <- E. f_equal. ring.
  Qed.
  Lemma Mem_push m cs v : Mem m cs -> Mem (store m (addr64 (sp - 32)) v 8) cs.
  Proof.
    intros H. apply Mem_keep with m; [exact H|]. destruct Ha. intros z Hz. apply store_out. intros k Hk E. rewrite a64_l in E. change (Z.of_nat 8) with 8 in Hk.
    assert (forall n, 8 <= n -> bytes_at (sp - 32) n z) as B by (intros n Hn; exists k; split; [lia|exact E]).
    destruct Hz as [Hz|[Hz|(j & Hj & Hz)]].
    - apply (ap_stack_code z); auto. apply B. lia.
    - apply (ap_stack z); auto. apply B. lia.
    - rewrite Hz in E. replace (sp - 24 + j) with (sp - 32 + (j + 8)) in E by ring. apply a64_inj in E; lia.
  Qed.
  Lemma Mem_loaded x cs : Mem (mm x) cs -> loaded s x.
  Proof. intros [] k Hk. auto. Qed.

  (* ---- where the processor is ---- *)
  Definition loop_code (n : nat) (b k : bf) : program :=
    loop_calls n ++ fst (comp (S (S n)) b) ++ close_calls n ++ fst (comp (snd (comp (S (S n)) b)) k).
  Definition loop_at (i : nat) (b k : bf) (K : nat -> Prop) : Prop :=
    exists n, at_ p i (loop_code n b k) /\ news (firstn i p) = S n /\ K (i + List.length (loop_code n b k))%nat.
  (* after the end of a loop body, or of the program *)
  Fixpoint after_ (ls : list bf) (j : nat) : Prop :=
    match ls with
    | [] => at_ p j epilogue
    | l :: ls => exists h b k j', l = Loop b k /\ nth_error p j = Some (SJmp (LObj h) T_AUTO) /\ leads_to p j (LObj h) j' /\ loop_at j' b k (after_ ls)
    end.
  Definition code_of (n : nat) (b : bf) : program := fst (comp n b).
  Definition is_at (i : nat) (b : bf) (K : nat -> Prop) : Prop := at_ p i (code_of (news (firstn i p)) b) /\ K (i + List.length (code_of (news (firstn i p)) b))%nat.
  Definition spot (i : nat) (b : bf) (ls : list bf) : Prop := is_at i b (after_ ls) \/ exists b1 k, b = Loop b1 k /\ loop_at i b1 k (after_ ls).
  Definition Inv (x : st) (c : bst) : Prop := Mem (mm x) (cells c) /\ Regs x (here c) /\ 0 <= here c < N.

  Lemma code_loop n b k : code_of n (Loop b k) = SNewLabel n :: loop_code n b k.
  Proof. unfold code_of, loop_code. cbn [comp]. destruct (comp (S (S n)) b) as [cb n1]. cbn [fst snd]. now destruct (comp n1 k). Qed.
  Lemma code_add n z b : code_of n (Add z b) = add_cell z :: code_of n b.
  Proof. unfold code_of. cbn [comp]. now destruct (comp n b). Qed.
  Lemma code_move n z b : code_of n (Move z b) = add_pos z :: code_of n b.
  Proof. unfold code_of. cbn [comp]. now destruct (comp n b). Qed.
  Lemma code_put n b : code_of n (Put b) = put_calls ++ code_of n b.
  Proof. unfold code_of. cbn [comp]. now destruct (comp n b). Qed.
  Lemma code_get n b : code_of n (Get b) = get_calls ++ code_of n b.
  Proof. unfold code_of. cbn [comp]. now destruct (comp n b). Qed.
  Lemma at_len i l : at_ p i l -> (i + List.length l <= List.length p)%nat.
  Proof. intros (pre & post & -> & <-). rewrite !app_length. lia. Qed.
  (* after instructions that make no label *)
  Lemma is_next i l b (K : nat -> Prop) : at_ p i (l ++ code_of (news (firstn i p)) b) -> news l = O -> K (i + List.length (l ++ code_of (news (firstn i p)) b))%nat -> is_at (i + List.length l) b K.
  Proof.
    intros H Q HK. apply at_app in H as [H1 H2]. pose proof (at_news _ _ _ H1) as E. rewrite Q, Nat.add_0_r in E. unfold is_at. rewrite E. split; [exact H2|].
    rewrite app_length, Nat.add_assoc in HK. exact HK.
  Qed.
  Lemma one_ins i m f l x cs pi po : at_ p i (SIns m f :: l) -> Mem (mm x) cs -> io lib (A i, x, pi, po) (A (S i), f x, pi, po).
  Proof. intros H HM. apply at_hd in H as (H1 & _ & H2). refine (io_step i x (At (S i) (f x)) pi po _ (Mem_loaded _ _ HM) ltac:(lia)). eapply P_ins; eauto. Qed.
  Lemma one_skip i q l x cs pi po : at_ p i (q :: l) -> no_code q = true -> Mem (mm x) cs -> io lib (A i, x, pi, po) (A (S i), x, pi, po).
  Proof. intros H Hq HM. apply at_hd in H as (H1 & _ & H2). refine (io_step i x (At (S i) x) pi po _ (Mem_loaded _ _ HM) ltac:(lia)). eapply P_skip; eauto. Qed.
  Lemma cell_of x c : Inv x c -> mm x (addr64 (rg x 12)) = cells c (here c) /\ 0 <= cells c (here c) < 256 /\ addr64 (rg x 12) = addr64 (tape + here c).
  Proof.
    intros (HM & (_ & _ & R & _) & Hi). rewrite R, a64_a64. destruct HM. split; [auto|]. split; [auto|reflexivity].
  Qed.
  (* call(reg) of a C function and its return *)
  Lemma one_call i r l x cs pi po : at_ p i (SCallTo (call_op (r64 r) T_AUTO) (go_to (r64 r)) :: l) -> loc_of (r64 r) x = LReg r -> Mem (mm x) cs -> rg x RSP = addr64 (sp - 24) ->
    let y := do_push 64 (A (S i)) x in
    io lib (A i, x, pi, po) (addr64 (rg x r), y, pi, po) /\ ret_addr y = A (S i) /\ Mem (mm y) cs /\ rg y RSP = addr64 (sp - 32).
  Proof.
    intros H L HM HS y. apply at_hd in H as (H1 & _ & H2).
    assert (E : addr64 (rg x RSP - 8) = addr64 (sp - 32)) by (rewrite HS, a64_s; f_equal; ring).
    destruct (call_does (A (S i)) x) as [C1 C2]. fold y in C1, C2. rewrite E in C1, C2. split; [|split; [|split]].
    - replace (addr64 (rg x r)) with (addr64 (go_to (r64 r) x)) by (unfold go_to; rewrite L; apply a64_a64).
      refine (io_step i x (Out _ _) pi po _ (Mem_loaded _ _ HM) ltac:(lia)). eapply P_callout; eauto.
    - unfold ret_addr. rewrite C1, C2. unfold upd at 1. rewrite Z.eqb_refl, load_store by (vm_compute; discriminate). change (256 ^ Z.of_nat 8) with (2 ^ 64).
      fold (addr64 (A (S i))). rewrite a64_a64. apply (adr_mod s0 s p).
    - rewrite C2. now apply Mem_push.
    - rewrite C1. unfold upd. now rewrite Z.eqb_refl.
  Qed.
  Lemma returned mine x y i : returns mine x y -> mine = callers s tape N sp -> forall cs, Mem (mm x) cs -> rg x RSP = addr64 (sp - 32) ->
    rg x 3 = putchar lib -> rg x 5 = getchar lib -> rg x 12 = addr64 (tape + i) -> Mem (mm y) cs /\ Regs y i.
  Proof.
    intros (R1 & R2 & R3) -> cs HM HS E3 E5 E12. split; [eapply Mem_keep; eauto|]. unfold Regs. rewrite R1, !R2 by (cbn; tauto). repeat split; auto.
    rewrite HS, a64_l. f_equal. ring.
  Qed.
  Lemma put_step i l x c : at_ p i (put_calls ++ l) -> Inv x c ->
    exists y, io lib (A i, x, input c, output c) (A (S (S i)), y, input c, output c ++ [cells c (here c)]) /\ Mem (mm y) (cells c) /\ Regs y (here c).
  Proof.
    intros H HI. destruct (cell_of x c HI) as (C1 & C2 & C3). destruct HI as (HM & (R3 & R5 & R12 & RS) & Hi). cbn [app put_calls] in H.
    pose proof (one_ins i _ _ _ x (cells c) (input c) (output c) H HM) as S1. apply at_hd in H as (_ & H & _). revert S1.
    destruct (movzx_does 7 x eq_refl ltac:(rewrite C1; exact C2)) as [M1 M2]. set (x1 := e_extend _ _ _ _ _ x) in *. intros S1.
    assert (forall r, r <> 7 -> rg x1 r = rg x r) as U by (intros r Hr; rewrite M1; unfold upd; destruct (Z.eqb_spec r 7); [contradiction|reflexivity]).
    destruct (one_call (S i) 3 _ x1 (cells c) (input c) (output c) H eq_refl) as (S2 & RA & HM2 & RS2); [rewrite M2; exact HM|rewrite U by discriminate; exact RS|].
    set (x2 := do_push 64 (A (S (S i))) x1) in *. rewrite U, R3 in S2 by discriminate. replace (addr64 (putchar lib)) with (putchar lib) in S2 by (rewrite Hput; symmetry; apply a64_a64).
    destruct Hc as [_ HC]. destruct (HC (input c) (output c) x2) as (P & _ & _). exists (do_put lib (input c) (output c) x2). split.
    - eapply io_trans; [exact S1|]. eapply io_trans; [exact S2|]. apply IO_put. rewrite RA. replace (rg x2 7 mod 256) with (cells c (here c)); [constructor|].
      change (rg x2 7) with (rg x1 7). rewrite M1. unfold upd. rewrite Z.eqb_refl, C1. symmetry. now apply Z.mod_small.
    - eapply returned; eauto; change (rg x2 3) with (rg x1 3) || change (rg x2 5) with (rg x1 5) || change (rg x2 12) with (rg x1 12); rewrite U by discriminate; assumption.
  Qed.
  Lemma get_step i l x c : at_ p i (get_calls ++ l) -> Inv x c ->
    exists y, io lib (A i, x, input c, output c) (A (S (S i)), y, tl (input c), output c) /\ Mem (mm y) (put_cell (cells c) (here c) (next_char (input c))) /\ Regs y (here c).
  Proof.
    intros H HI. destruct HI as (HM & (R3 & R5 & R12 & RS) & Hi). cbn [app get_calls] in H.
    destruct (one_call i 5 _ x (cells c) (input c) (output c) H eq_refl HM RS) as (S2 & RA & HM2 & RS2). apply at_hd in H as (_ & H & _).
    set (x2 := do_push 64 (A (S i)) x) in *. rewrite R5 in S2. replace (addr64 (getchar lib)) with (getchar lib) in S2 by (rewrite Hget; symmetry; apply a64_a64).
    destruct Hc as [HD HC]. destruct (HC (input c) (output c) x2) as (_ & P & V). set (x3 := do_get lib (input c) (output c) x2) in *.
    destruct (returned _ x2 x3 (here c) P eq_refl (cells c) HM2 RS2 R3 R5 R12) as [HM3 HR3].
    destruct (get_does x3) as [G1 G2]. pose proof HR3 as (Q3 & Q5 & Q12 & QS). exists (e_mov2 8 cur al x3). split; [|split].
    - eapply io_trans; [exact S2|]. apply IO_get; [congruence|]. rewrite RA. eapply one_ins; eauto.
    - rewrite G2, Q12, a64_a64, V. apply Mem_set; auto.
    - unfold Regs. rewrite G1. exact HR3.
  Qed.
  Lemma to_loop i b k ls x cs pi po : spot i (Loop b k) ls -> Mem (mm x) cs -> exists j, io lib (A i, x, pi, po) (A j, x, pi, po) /\ loop_at j b k (after_ ls).
  Proof.
    intros [[H K]|(b1 & k1 & E & H)] HM.
    - rewrite code_loop in H, K. exists (S i). split; [eapply one_skip; eauto|]. exists (news (firstn i p)).
      pose proof (news_1 _ _ _ _ H) as W. cbn [is_new] in W. apply at_hd in H as (_ & H & _). split; [exact H|]. split; [lia|].
      cbn [List.length] in K. rewrite Nat.add_succ_r in K. exact K.
    - injection E as <- <-. exists i. split; [constructor|exact H].
  Qed.
  Lemma p_ordered : ordered 0 p.
  Proof. apply whole_ordered. Qed.
  Lemma loop_step i b k ls x c : loop_at i b k (after_ ls) -> Inv x c ->
    exists j y, io lib (A i, x, input c, output c) (A j, y, input c, output c) /\ Inv y c
      /\ (if cells c (here c) =? 0 then is_at j k (after_ ls) else is_at j b (after_ (Loop b k :: ls))).
  Proof.
    intros HL HI. destruct (cell_of x c HI) as (C1 & C2 & C3). pose proof HI as (HM & (R3 & R5 & R12 & RS) & Hi). pose proof HL as (n & H & W & K).
    pose proof H as H0. unfold loop_code in H. cbn [loop_calls app] in H. set (cb := fst (comp (S (S n)) b)) in *. set (n1 := snd (comp (S (S n)) b)) in *.
    destruct (comp_new b (S (S n))) as [CN _]. fold cb n1 in CN.
    pose proof (one_skip i _ _ x _ (input c) (output c) H eq_refl HM) as S1. pose proof (news_1 _ _ _ _ H) as W1. pose proof H as HB. apply at_hd in HB as (HB & H1 & _).
    pose proof (one_ins _ _ _ _ x _ (input c) (output c) H1 HM) as S2. pose proof (news_1 _ _ _ _ H1) as W2. pose proof H1 as HT. apply at_hd in HT as (_ & H2 & _).
    destruct (movzx_does 0 x eq_refl ltac:(rewrite C1; exact C2)) as [M1 M2]. change (OReg (Reg32 0)) with eax in *. set (x1 := e_extend false 32 8 eax cur x) in *.
    assert (HM1 : Mem (mm x1) (cells c)) by (rewrite M2; exact HM).
    pose proof (one_ins _ _ _ _ x1 _ (input c) (output c) H2 HM1) as S3. pose proof (news_1 _ _ _ _ H2) as W3. apply at_hd in H2 as (_ & H3 & _).
    assert (V : rg x1 0 = cells c (here c)) by (rewrite M1; unfold upd; rewrite Z.eqb_refl; exact C1).
    destruct (test_does x1 ltac:(rewrite V; exact C2)) as (T1 & T2 & T3). set (x2 := e_test 32 eax eax x1) in *.
    assert (HM2 : Mem (mm x2) (cells c)) by (rewrite T2; exact HM1).
    assert (HI2 : Inv x2 c).
    { split; [exact HM2|]. split; [|exact Hi]. unfold Regs. rewrite T1, M1. repeat split; assumption. }
    pose proof (one_skip _ _ _ x2 _ (input c) (output c) H3 eq_refl HM2) as S4. pose proof (news_1 _ _ _ _ H3) as W4. apply at_hd in H3 as (_ & H4 & _).
    pose proof (news_1 _ _ _ _ H4) as W5. pose proof H4 as HJ. apply at_hd in HJ as (HJ & H5 & HJl).
    cbn [is_new] in W1, W2, W3, W4, W5. rewrite Nat.add_0_r in W1, W2, W3, W5.
    assert (WJ : news (firstn (S (S (S (S i)))) p) = S (S n)) by lia.
    set (q := S (S (S (S i)))) in *. apply at_app in H5 as [H5 H6]. pose proof (at_news _ _ _ H5) as W6. cbn [close_calls app] in H6.
    set (e := (S q + List.length cb)%nat) in *. pose proof (news_1 _ _ _ _ H6) as W7. pose proof H6 as HE. apply at_hd in HE as (HE & H7 & HEl).
    pose proof (news_1 _ _ _ _ H7) as W8. pose proof H7 as HF. apply at_hd in HF as (HF & H8 & HFl). cbn [is_new] in W7, W8. rewrite Nat.add_0_r in W7, W8.
    assert (S14 : io lib (A i, x, input c, output c) (A q, x2, input c, output c)).
    { eapply io_trans; [exact S1|]. eapply io_trans; [exact S2|]. eapply io_trans; [exact S3|exact S4]. }
    rewrite V in T3. destruct (Z.eqb_spec (cells c (here c)) 0) as [Z0|Z0].
    - exists (S (S e)), x2. split; [|split; [exact HI2|]].
      + eapply io_trans; [exact S14|]. eapply io_trans; [|eapply one_skip; [exact H7|reflexivity|exact HM2]].
        refine (io_step q x2 (At (S e) x2) _ _ _ (Mem_loaded _ _ HM2) ltac:(lia)). eapply P_taken; [exact HJ| |exact T3].
        apply leads; [exact p_ordered|exact HF|lia|lia].
      + assert (EN : news (firstn (S (S e)) p) = n1) by lia. unfold is_at, code_of. rewrite EN. split; [exact H8|].
        unfold loop_code in K. fold cb n1 in K. rewrite !app_length in K. cbn [loop_calls close_calls List.length] in K.
        replace (S (S e) + List.length (fst (comp n1 k)))%nat with (i + (5 + (List.length cb + (2 + List.length (fst (comp n1 k))))))%nat by (unfold e, q; lia). exact K.
    - exists (S q), x2. split; [|split; [exact HI2|]].
      + eapply io_trans; [exact S14|]. refine (io_step q x2 (At (S q) x2) _ _ _ (Mem_loaded _ _ HM2) ltac:(lia)). eapply P_not_taken; [exact HJ|exact T3].
      + unfold is_at, code_of. rewrite W5, WJ. split; [exact H5|]. fold cb. fold e. exists n, b, k, i. split; [reflexivity|]. split; [exact HE|]. split; [|exact HL].
        apply leads; [exact p_ordered|exact HB|lia|lia].
  Qed.
  Lemma sim c c' i x : bstep N c c' -> spot i (todo c) (around c) -> Inv x c ->
    exists j y, io lib (A i, x, input c, output c) (A j, y, input c', output c') /\ spot j (todo c') (around c') /\ Inv y c'.
  Proof.
    intros H Hs HI. destruct (cell_of x c HI) as (C1 & C2 & C3). destruct H; cbn [todo around cells here input output] in *.
    - destruct Hs as [[H K]|(? & ? & X & _)]; [|discriminate X]. rewrite code_add in H, K. destruct (add_cell_does n) as (mt & f & E & D). rewrite E in H, K.
      destruct (D x ltac:(rewrite C1; exact C2)) as [D1 D2]. pose proof HI as (HM & HR & Hi). exists (S i), (f x). split; [eapply one_ins; eauto|]. split.
      + left. rewrite <- Nat.add_1_r. exact (is_next i [SIns mt f] k _ H eq_refl K).
      + split; [|split; [unfold Regs; rewrite D1; exact HR|exact Hi]]. rewrite D2, C1, C3. now apply Mem_set.
    - destruct Hs as [[Q K]|(? & ? & X & _)]; [|discriminate X]. rewrite code_move in Q, K. pose proof HI as (HM & (R3 & R5 & R12 & RS) & Hi). cbn [here cells] in *. destruct Ha.
      destruct (add_pos_does n ltac:(lia)) as (mt & f & E & D). rewrite E in Q, K. destruct (D x) as [D1 D2]. exists (S i), (f x). split; [eapply one_ins; eauto|]. split.
      + left. rewrite <- Nat.add_1_r. exact (is_next i [SIns mt f] k _ Q eq_refl K).
      + split; [rewrite D1; exact HM|]. split; [|exact H]. unfold Regs. rewrite D2. unfold upd. cbn [Z.eqb Pos.eqb RSP]. repeat split; auto.
        rewrite R12, a64_l. cbn [here]. f_equal. ring.
    - destruct Hs as [[H K]|(? & ? & X & _)]; [|discriminate X]. rewrite code_put in H, K. destruct (put_step i _ x _ H HI) as (y & S1 & M1 & R1). exists (S (S i)), y. split; [exact S1|]. split.
      + left. replace (S (S i)) with (i + List.length put_calls)%nat by (cbn; lia). exact (is_next i put_calls k _ H eq_refl K).
      + split; [exact M1|]. split; [exact R1|]. apply HI.
    - destruct Hs as [[H K]|(? & ? & X & _)]; [|discriminate X]. rewrite code_get in H, K. destruct (get_step i _ x _ H HI) as (y & S1 & M1 & R1). exists (S (S i)), y. split; [exact S1|]. split.
      + left. replace (S (S i)) with (i + List.length get_calls)%nat by (cbn; lia). exact (is_next i get_calls k _ H eq_refl K).
      + split; [exact M1|]. split; [exact R1|]. apply HI.
    - destruct Hs as [[H K]|(? & ? & X & _)]; [|discriminate X]. rewrite code_get in H, K. destruct (get_step i _ x _ H HI) as (y & S1 & M1 & R1). exists (S (S i)), y. split; [exact S1|]. split.
      + left. replace (S (S i)) with (i + List.length get_calls)%nat by (cbn; lia). exact (is_next i get_calls k _ H eq_refl K).
      + split; [exact M1|]. split; [exact R1|]. apply HI.
    - destruct (to_loop _ _ _ _ x _ p0 o Hs (proj1 HI)) as (j & S1 & L). destruct (loop_step _ _ _ _ x _ L HI) as (j' & y & S2 & I2 & B). cbn [cells here input output] in *.
      rewrite H in B. cbn [Z.eqb] in B. exists j', y. split; [eapply io_trans; eauto|]. split; [left; exact B|exact I2].
    - destruct (to_loop _ _ _ _ x _ p0 o Hs (proj1 HI)) as (j & S1 & L). destruct (loop_step _ _ _ _ x _ L HI) as (j' & y & S2 & I2 & B). cbn [cells here input output] in *.
      destruct (Z.eqb_spec (m i0) 0); [contradiction|]. exists j', y. split; [eapply io_trans; eauto|]. split; [left; exact B|exact I2].
    - destruct Hs as [[H K]|(? & ? & X & _)]; [|discriminate X]. cbn [code_of comp fst List.length] in K. rewrite Nat.add_0_r in K. cbn [after_] in K.
      destruct K as (h & b & k & j' & -> & HJ & HL & L). exists j', x. split; [|split; [right; exists b, k; auto|exact HI]].
      refine (io_step i x (At j' x) _ _ _ (Mem_loaded _ _ (proj1 HI)) _); [eapply P_jmp; eauto|]. apply Nat.lt_le_incl, nth_error_Some. rewrite HJ. discriminate.
  Qed.
  Lemma sims c c' : bsteps N c c' -> forall i x, spot i (todo c) (around c) -> Inv x c ->
    exists j y, io lib (A i, x, input c, output c) (A j, y, input c', output c') /\ spot j (todo c') (around c') /\ Inv y c'.
  Proof.
    induction 1 as [c|c c' c'' H _ IH]; intros i x Hs HI; [exists i, x; split; [constructor|auto]|].
    destruct (sim _ _ _ _ H Hs HI) as (j & y & S1 & Hs1 & HI1). destruct (IH _ _ Hs1 HI1) as (j' & y' & S2 & R). exists j', y'. split; [eapply io_trans; eauto|exact R].
  Qed.

  (* ---- the end ---- *)
  Definition saved : Prop := forall m, (forall k, 0 <= k < 32 -> m (addr64 (sp - 24 + k)) = F k) ->
    load m (addr64 (sp - 24)) 8 = addr64 (rg x0 12) /\ load m (addr64 (sp - 16)) 8 = addr64 (rg x0 5) /\ load m (addr64 (sp - 8)) 8 = addr64 (rg x0 3)
    /\ load m (addr64 sp) 8 = load (mm x0) sp 8.
  Lemma leave i x c : at_ p i epilogue -> Inv x c -> saved ->
    exists y, io lib (A i, x, input c, output c) (ret_addr x0, y, input c, output c) /\ mm y = mm x
      /\ rg y RSP = addr64 (sp + 8) /\ rg y 3 = addr64 (rg x0 3) /\ rg y 5 = addr64 (rg x0 5) /\ rg y 12 = addr64 (rg x0 12).
  Proof.
    intros H (HM & (_ & _ & _ & RS) & _) HS. destruct (HS (mm x) (m_frame _ _ HM)) as (L12 & L5 & L3 & LR). unfold epilogue in H.
    pose proof (one_ins i _ _ _ x _ (input c) (output c) H HM) as S1. apply at_hd in H as (_ & H & _).
    destruct (pop_does 12 x ltac:(reflexivity)) as [P1 M1]. rewrite RS, L12, a64_l in P1. set (x1 := e_pop 64 r12 x) in *. change (r64 12) with r12 in *. fold x1 in P1, M1.
    assert (HM1 : Mem (mm x1) (cells c)) by (rewrite M1; exact HM).
    assert (R1 : rg x1 RSP = addr64 (sp - 16)) by (rewrite P1; unfold upd; cbn [Z.eqb Pos.eqb RSP]; f_equal; ring).
    pose proof (one_ins _ _ _ _ x1 _ (input c) (output c) H HM1) as S2. apply at_hd in H as (_ & H & _).
    destruct (pop_does 5 x1 ltac:(reflexivity)) as [P2 M2]. rewrite R1, M1, L5, a64_l in P2. change (r64 5) with rbp in *. set (x2 := e_pop 64 rbp x1) in *. rewrite M1 in M2.
    assert (HM2 : Mem (mm x2) (cells c)) by (rewrite M2; exact HM).
    assert (R2 : rg x2 RSP = addr64 (sp - 8)) by (rewrite P2; unfold upd; cbn [Z.eqb Pos.eqb RSP]; f_equal; ring).
    pose proof (one_ins _ _ _ _ x2 _ (input c) (output c) H HM2) as S3. apply at_hd in H as (_ & H & _).
    destruct (pop_does 3 x2 ltac:(reflexivity)) as [P3 M3]. rewrite R2, M2, L3, a64_l in P3. change (r64 3) with rbx in *. set (x3 := e_pop 64 rbx x2) in *. rewrite M2 in M3.
    assert (HM3 : Mem (mm x3) (cells c)) by (rewrite M3; exact HM).
    assert (R3 : rg x3 RSP = addr64 sp) by (rewrite P3; unfold upd; cbn [Z.eqb Pos.eqb RSP]; f_equal; ring).
    apply at_hd in H as (H & _ & Hl). exists (set_reg x3 RSP (addr64 (rg x3 RSP + 8))). split; [|split; [exact M3|]].
    - eapply io_trans; [exact S1|]. eapply io_trans; [exact S2|]. eapply io_trans; [exact S3|].
      replace (ret_addr x0) with (addr64 (load (mm x3) (rg x3 RSP) 8)) by (rewrite R3, M3, LR; reflexivity).
      refine (io_step (S (S (S i))) x3 (Out _ _) _ _ _ (Mem_loaded _ _ HM3) ltac:(lia)). now apply P_leave.
    - unfold set_reg. cbn [rg]. rewrite R3, a64_l. unfold upd. cbn [Z.eqb Pos.eqb RSP]. split; [reflexivity|]. rewrite P3. unfold upd. cbn [Z.eqb Pos.eqb RSP].
      rewrite P2. unfold upd. cbn [Z.eqb Pos.eqb RSP]. rewrite P1. unfold upd. cbn [Z.eqb Pos.eqb RSP]. rewrite !a64_a64. repeat split.
  Qed.
End R.

(* ---- the beginning ---- *)
Lemma load_a64 m a n : load m (addr64 a) n = load m a n.
Proof.
  assert (forall n a b, addr64 a = addr64 b -> load m a n = load m b n) as X; [|apply X, a64_a64].
  clear. induction n as [|n IH]; intros a b E; [reflexivity|]. cbn [load]. rewrite E. do 2 f_equal. apply IH. now rewrite <- (a64_l a), E, a64_l.
Qed.
Lemma load_other m v sp d d' : 0 <= d <= 24 -> 0 <= d' <= 24 -> d + 8 <= d' \/ d' + 8 <= d ->
  load (store m (addr64 (sp - 24 + d')) v 8) (addr64 (sp - 24 + d)) 8 = load m (addr64 (sp - 24 + d)) 8.
Proof.
  intros Hd Hd' H. apply load_same. change (Z.of_nat 8) with 8. intros k Hk. apply store_out. change (Z.of_nat 8) with 8. intros k' Hk' E. rewrite !a64_l in E.
  replace (sp - 24 + d + k) with (sp - 24 + (d + k)) in E by ring. replace (sp - 24 + d' + k') with (sp - 24 + (d' + k')) in E by ring. apply a64_inj in E; lia.
Qed.
Section B.
  Variables (b0 : bf) (s0 s : St) (a : Spec) (lib : libc) (x0 : st) (N : Z).
  Let p := whole b0.
  Hypothesis Hb : built s0 p s a.
  Let tape := rg x0 2.
  Let sp := rg x0 RSP.
  Hypothesis Hput : putchar lib = addr64 (rg x0 7).
  Hypothesis Hget : getchar lib = addr64 (rg x0 6).
  Hypothesis Ha : apart lib s tape N sp.
  Hypothesis Hc : conforms lib (callers s tape N sp).
  Variable m0 : Z -> Z.
  Hypothesis Hl : loaded s x0.
  Hypothesis Ht : forall i, 0 <= i < N -> mm x0 (addr64 (tape + i)) = m0 i /\ 0 <= m0 i < 256.
  Let A := adr s0 s p.
  Lemma keep_stack m d v z : d = 8 \/ d = 16 \/ d = 24 -> ~ bytes_at (sp - 32) 32 z -> store m (addr64 (sp - d)) v 8 z = m z.
  Proof.
    intros Hd Hz. apply store_out. change (Z.of_nat 8) with 8. intros k Hk E. apply Hz. rewrite a64_l in E. exists (32 - d + k). split; [lia|]. rewrite E. f_equal. ring.
  Qed.
  Definition code_kept (x : st) : Prop := forall z, ~ bytes_at (sp - 32) 32 z -> mm x z = mm x0 z.
  Lemma kept_loaded x : code_kept x -> loaded s x.
  Proof.
    intros H k Hk. rewrite H; [now apply Hl|]. intros B. destruct Ha. eapply ap_stack_code; [exact B|]. exists k. auto.
  Qed.
  Lemma ins i m f l x pi po : at_ p i (SIns m f :: l) -> code_kept x -> io lib (A i, x, pi, po) (A (S i), f x, pi, po).
  Proof. intros H HK. apply at_hd in H as (H1 & _ & H2). refine (io_step b0 s0 s a lib x0 N Hb Ha i x (At (S i) (f x)) pi po _ (kept_loaded _ HK) (Nat.lt_le_incl _ _ H2)). eapply P_ins; eauto. Qed.
  Lemma begin pi : exists F x, io lib (A 0%nat, x0, pi, []) (A 6%nat, x, pi, []) /\ spot b0 6 b0 [] /\ Inv s lib x0 N F x (mkB b0 [] m0 0 pi []) /\ saved x0 F.
  Proof.
    assert (H : at_ p 0 (prologue ++ fst (comp 0 b0) ++ epilogue)) by (exists [], []; split; [unfold p, whole; now rewrite app_nil_r|reflexivity]).
    assert (K0 : code_kept x0) by (intros z _; reflexivity).
    assert (Sp : spot b0 6 b0 []).
    { left. fold p in H. change 6%nat with (0 + List.length prologue)%nat. eapply is_next with (l := prologue).
      - unfold code_of. cbn [firstn news]. rewrite app_assoc in H. apply at_app in H as [H _]. exact H.
      - reflexivity.
      - cbn [after_]. unfold code_of. cbn [firstn news]. rewrite app_assoc in H. apply at_app in H as [_ H]. exact H. }
    unfold prologue in H. cbn [app] in H.
    pose proof (ins _ _ _ _ x0 pi [] H K0) as S1. apply at_hd in H as (_ & H & _).
    destruct (push_does 3 x0 eq_refl) as [P1 M1]. change (r64 3) with rbx in *. set (x1 := e_push 64 rbx x0) in *. fold sp in P1, M1.
    assert (K1 : code_kept x1) by (intros z Hz; rewrite M1, keep_stack by auto; reflexivity).
    assert (E2 : addr64 (rg x1 RSP - 8) = addr64 (sp - 16)) by (rewrite P1; unfold upd; rewrite Z.eqb_refl, a64_s; f_equal; ring).
    pose proof (ins _ _ _ _ x1 pi [] H K1) as S2. apply at_hd in H as (_ & H & _).
    destruct (push_does 5 x1 eq_refl) as [P2 M2]. change (r64 5) with rbp in *. set (x2 := e_push 64 rbp x1) in *. rewrite E2 in P2, M2.
    assert (K2 : code_kept x2) by (intros z Hz; rewrite M2, keep_stack by auto; now apply K1).
    assert (E3 : addr64 (rg x2 RSP - 8) = addr64 (sp - 24)) by (rewrite P2; unfold upd; rewrite Z.eqb_refl, a64_s; f_equal; ring).
    pose proof (ins _ _ _ _ x2 pi [] H K2) as S3. apply at_hd in H as (_ & H & _).
    destruct (push_does 12 x2 eq_refl) as [P3 M3]. change (r64 12) with r12 in *. set (x3 := e_push 64 r12 x2) in *. rewrite E3 in P3, M3.
    assert (K3 : code_kept x3) by (intros z Hz; rewrite M3, keep_stack by auto; now apply K2).
    pose proof (ins _ _ _ _ x3 pi [] H K3) as S4. apply at_hd in H as (_ & H & _).
    destruct (mov_does 3 7 x3 eq_refl eq_refl) as [P4 M4]. change (r64 3) with rbx in *. change (r64 7) with rdi in *. set (x4 := e_mov2 64 rbx rdi x3) in *.
    assert (K4 : code_kept x4) by (intros z Hz; rewrite M4; now apply K3).
    pose proof (ins _ _ _ _ x4 pi [] H K4) as S5. apply at_hd in H as (_ & H & _).
    destruct (mov_does 5 6 x4 eq_refl eq_refl) as [P5 M5]. change (r64 5) with rbp in *. change (r64 6) with rsi in *. set (x5 := e_mov2 64 rbp rsi x4) in *.
    assert (K5 : code_kept x5) by (intros z Hz; rewrite M5; now apply K4).
    pose proof (ins _ _ _ _ x5 pi [] H K5) as S6.
    destruct (mov_does 12 2 x5 eq_refl eq_refl) as [P6 M6]. change (r64 12) with r12 in *. change (r64 2) with rdx in *. set (x6 := e_mov2 64 r12 rdx x5) in *.
    assert (K6 : code_kept x6) by (intros z Hz; rewrite M6; now apply K5).
    assert (EM : mm x6 = mm x3) by (rewrite M6, M5; exact M4).
    exists (fun k => mm x6 (addr64 (sp - 24 + k))), x6. split; [|split; [exact Sp|split]].
    - eapply io_trans; [exact S1|]. eapply io_trans; [exact S2|]. eapply io_trans; [exact S3|]. eapply io_trans; [exact S4|]. eapply io_trans; [exact S5|exact S6].
    - destruct Ha. split; [|split; [|cbn [here]; lia]]; cbn [cells here].
      + split; [exact (kept_loaded _ K6)| |intros i Hi; now apply Ht|reflexivity].
        intros i Hi. rewrite K6; [now apply Ht|]. intros (k & Hk & E). apply (ap_stack (addr64 (tape + i))); [exists i; auto|]. exists k. split; [lia|exact E].
      + unfold Regs. rewrite P6, P5, P4, P3, P2, P1. unfold upd. cbn [Z.eqb Pos.eqb RSP]. rewrite Hput, Hget. repeat split.
        fold tape. f_equal. ring.
    - intros m Hm. assert (X : forall d, 0 <= d <= 24 -> load m (addr64 (sp - 24 + d)) 8 = load (mm x3) (addr64 (sp - 24 + d)) 8).
      { intros d Hd. rewrite !load_a64. apply load_same. change (Z.of_nat 8) with 8. intros k Hk. rewrite <- EM. rewrite <- Z.add_assoc. apply Hm. lia. }
      assert (V2 : rg x1 5 = rg x0 5) by (rewrite P1; reflexivity). assert (V3 : rg x2 12 = rg x0 12) by (rewrite P2, P1; reflexivity).
      rewrite V2 in M2. rewrite V3 in M3. fold sp. change (rg x0 RSP) with sp.
      replace (sp - 16) with (sp - 24 + 8) in * by ring. replace (sp - 8) with (sp - 24 + 16) in * by ring. replace (addr64 sp) with (addr64 (sp - 24 + 24)) by (f_equal; ring).
      pose proof (X 0 ltac:(lia)) as X0. replace (addr64 (sp - 24)) with (addr64 (sp - 24 + 0)) in * by (f_equal; ring).
      rewrite X0, !X by lia. rewrite M3, M2, M1.
      split; [|split; [|split]].
      + rewrite load_store by (vm_compute; discriminate). apply a64_a64.
      + rewrite load_other, load_store by (try (vm_compute; discriminate); lia). apply a64_a64.
      + rewrite !load_other, load_store by (try (vm_compute; discriminate); lia). apply a64_a64.
      + rewrite !load_other by lia. rewrite load_a64. f_equal. ring.
  Qed.
  Theorem runs_bf pi c : bsteps N (mkB b0 [] m0 0 pi []) c -> exists F j x, io lib (A 0%nat, x0, pi, []) (A j, x, input c, output c)
    /\ spot b0 j (todo c) (around c) /\ Inv s lib x0 N F x c /\ saved x0 F.
  Proof.
    intros H. destruct (begin pi) as (F & x & S1 & Sp & I1 & Sv).
    destruct (sims b0 s0 s a lib x0 N Hb Hput Hget Ha Hc F _ _ H 6 x Sp I1) as (j & y & S2 & Sp2 & I2). exists F, j, y. split; [eapply io_trans; eauto|auto].
  Qed.
  Theorem run_state pi c : bsteps N (mkB b0 [] m0 0 pi []) c -> exists ip x, io lib (addr64 (c_top (g_code s)), x0, pi, []) (ip, x, input c, output c)
    /\ rg x 12 = addr64 (tape + here c) /\ forall i, 0 <= i < N -> mm x (addr64 (tape + i)) = cells c i.
  Proof.
    intros H. destruct (runs_bf pi c H) as (F & j & x & S1 & _ & (HM & (_ & _ & R & _) & _) & _). exists (A j), x. rewrite <- (entry s0 p s a Hb). split; [exact S1|]. split; [exact R|]. apply (m_tape _ _ _ _ _ _ HM).
  Qed.
  Theorem run_done pi c : bsteps N (mkB b0 [] m0 0 pi []) c -> all_done c -> exists x, io lib (addr64 (c_top (g_code s)), x0, pi, []) (ret_addr x0, x, input c, output c)
    /\ rg x RSP = addr64 (sp + 8) /\ rg x 3 = addr64 (rg x0 3) /\ rg x 5 = addr64 (rg x0 5) /\ rg x 12 = addr64 (rg x0 12)
    /\ forall i, 0 <= i < N -> mm x (addr64 (tape + i)) = cells c i.
  Proof.
    intros H [D1 D2]. destruct (runs_bf pi c H) as (F & j & x & S1 & Sp & HI & Sv). rewrite D1, D2 in Sp. destruct Sp as [[_ K]|(? & ? & X & _)]; [|discriminate X].
    cbn [code_of comp fst List.length after_] in K. rewrite Nat.add_0_r in K.
    destruct (leave b0 s0 s a lib x0 N Hb Ha F j x c K HI Sv) as (y & S2 & M & R & R3 & R5 & R12). exists y. rewrite <- (entry s0 p s a Hb).
    split; [eapply io_trans; eauto|]. split; [exact R|]. split; [exact R3|]. split; [exact R5|]. split; [exact R12|]. rewrite M. destruct HI as (HM & _). apply (m_tape _ _ _ _ _ _ HM).
  Qed.
End B.
