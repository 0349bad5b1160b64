(* A program with SSE instructions, built and run: the sum of two arrays of floats.
   L("lp"); movups(xmm0, ptr [rsi]); movups(xmm1, ptr [rdx]); addps(xmm0, xmm1); movups(ptr [rdi], xmm0);
   add(rsi, 16); add(rdx, 16); add(rdi, 16); sub(ecx, 1); jnz("lp"); ret(); *)
From Coq Require Import ZArith List Bool String Lia.
From Verif Require Import Base Types Emit EmitFacts Encode Mnemonic SpecX86 SpecAddr SpecIsa SpecInsn SpecLeg SpecMix SpecCond SpecExec SpecVec SpecSse SpecSseRun SseIsa SpecMach Wf ArgCheck ExecFacts ExecProofs ExecMore State Code Label Gen SpecLabel LabelThms Grow LabelThms6 SpecProg LegTables MixTables VecFacts SseMean ProgInsn ProgMach VecInsn SseInsn ProgRef ProgHist ProgSim ProgSum ProgThms ProgVec.
Import ListNotations.
Open Scope list_scope.
Open Scope Z_scope.

(* the conditions of a call as a check *)
Definition lbareb (o : Operand) : bool := match o with OReg r => bareb r | OMem a => (mask_ (a_op a) =? 0) && negb (a_broadcast a) end.
Definition xmm_mem (o : Operand) : bool := match o with OReg r => vec_regb r | OMem a => mem_okb a && negb (bit_ (a_op a) =? 16) end.
Lemma lbareb_ok o : lbareb o = true -> lbare o.
Proof. destruct o as [r|a]; cbn; [apply bareb_ok|]. intros H. apply andb_prop in H as [H1 H2]. split; [lia|now apply negb_true_iff]. Qed.
Lemma vec_not_mmx r : vec_reg r -> ~ mmx_reg r.
Proof. intros [H _] [K _]. rewrite K in H. destruct H as [[H _]|[[H _]|[H _]]]; discriminate. Qed.
Lemma sinsn_by e q x o imm act n : nth_error legacy_table n = Some e -> sse_named (le_name e) = Some q -> le_fun e [OReg x; o] imm = Some act ->
  (if list_eq_dec (fun a b : lcls => ltac:(repeat decide equality)) (le_sig e) [tX; tOx] then true else false) = true ->
  vec_regb x && xmm_mem o && bareb x && lbareb o && (0 <=? imm) && (imm <? 256) = true -> sinsn act (smeans q imm [OReg x; o]).
Proof.
  intros Hn N Hf Sg H. destruct (list_eq_dec _ _ _) as [Sg'|]; [|discriminate Sg]. do 5 apply andb_prop in H as [H ?].
  eapply S_call; eauto; try lia.
  - exact (nth_error_In _ _ Hn).
  - rewrite Sg'. constructor; [now apply vec_regb_ok|]. constructor; [|constructor]. destruct o as [r|a]; cbn in *.
    + right; left. now apply vec_regb_ok.
    + match goal with Q : mem_okb _ && _ = true |- _ => apply andb_prop in Q as [Q1 Q2] end. split; [now apply mem_okb_ok|lia].
  - constructor; [now apply bareb_ok|]. constructor; [now apply lbareb_ok|constructor].
  - intros r [E|[E|[]]]; [injection E as <-; now apply vec_not_mmx, vec_regb_ok|]. subst o. apply vec_not_mmx, vec_regb_ok. assumption.
Qed.

Definition at64 (n : Z) : Operand := OMem (address0 0 false (mkRegExp (Reg64 n) noReg 0 0)).
Definition mem64 (n : Z) : Address := address0 0 false (mkRegExp (Reg64 n) noReg 0 0).
Definition rdi := OReg (Reg64 7).
Definition rdx := OReg (Reg64 2).
Definition q_movups := mkSse SpecIsa.NP 1 0x10 false One (MLane Mov 32).
Definition q_addps := mkSse SpecIsa.NP 1 0x58 false Two (MLane (Fp FAdd) 32).
Definition q_store := mkSse SpecIsa.NP 1 0x11 false Store (MLane Mov 32).
Definition add_prog : program :=
  [SLabel (LStr "lp");
   SIns (i_movups_xo (Xmm 0) (at64 6)) (smeans q_movups 0 [OReg (Xmm 0); at64 6]);
   SIns (i_movups_xo (Xmm 1) (at64 2)) (smeans q_movups 0 [OReg (Xmm 1); at64 2]);
   SIns (i_addps (Xmm 0) (OReg (Xmm 1))) (smeans q_addps 0 [OReg (Xmm 0); OReg (Xmm 1)]);
   SIns (i_movups_ax (mem64 7) (Xmm 0)) (smeans q_store 0 [at64 7; OReg (Xmm 0)]);
   SIns (i_add_oi rsi 16) (e_alu 0 64 rsi 16);
   SIns (i_add_oi rdx 16) (e_alu 0 64 rdx 16);
   SIns (i_add_oi rdi 16) (e_alu 0 64 rdi 16);
   SIns (i_sub_oi ecx 1) (e_alu 5 32 ecx 1);
   SJcc 5 (LStr "lp") T_AUTO;
   SRet;
   SReady].
Definition pos_of_name (n : string) : nat := (fix go (l : list lentry) (k : nat) := match l with [] => k | e :: l => if String.eqb n (le_name e) then k else go l (S k) end) legacy_table O.
Lemma ld_sinsn x n : (x = 0 /\ n = 6) \/ (x = 1 /\ n = 2) -> sinsn (i_movups_xo (Xmm x) (at64 n)) (smeans q_movups 0 [OReg (Xmm x); at64 n]).
Proof.
  intros [[-> ->]|[-> ->]];
    [exact (sinsn_by e_movups_xo q_movups (Xmm 0) (at64 6) 0 _ (pos_of_name "movups") eq_refl eq_refl eq_refl eq_refl eq_refl)
    |exact (sinsn_by e_movups_xo q_movups (Xmm 1) (at64 2) 0 _ (pos_of_name "movups") eq_refl eq_refl eq_refl eq_refl eq_refl)].
Qed.
Lemma add_sinsn : sinsn (i_addps (Xmm 0) (OReg (Xmm 1))) (smeans q_addps 0 [OReg (Xmm 0); OReg (Xmm 1)]).
Proof. exact (sinsn_by e_addps q_addps (Xmm 0) (OReg (Xmm 1)) 0 _ 0 eq_refl eq_refl eq_refl eq_refl eq_refl). Qed.
Lemma st_sinsn : sinsn (i_movups_ax (mem64 7) (Xmm 0)) (smeans q_store 0 [at64 7; OReg (Xmm 0)]).
Proof.
  eapply (S_store me_50 q_store [at64 7; OReg (Xmm 0)] 0); try reflexivity; try lia.
  - apply (nth_error_In _ 50). reflexivity.
  - constructor; [split; [apply mem_okb_ok; reflexivity|now left]|]. constructor; [|constructor]. split; [apply vec_regb_ok; reflexivity|reflexivity].
  - constructor; [apply lbareb_ok; reflexivity|]. constructor; [apply lbareb_ok; reflexivity|constructor].
Qed.
Lemma add_wf : well_formed add_prog.
Proof.
  unfold add_prog, well_formed. repeat apply Forall_cons; try exact Logic.I; try lia; try apply Forall_nil.
  - right; right. apply ld_sinsn. auto.
  - right; right. apply ld_sinsn. auto.
  - right; right. exact add_sinsn.
  - right; right. exact st_sinsn.
  - left; refine (I_alu 0 i_add_oi i_add_oo rsi 16 _ _); [now left|]. split; [left; apply gprb_ok; reflexivity|repeat split].
  - left; refine (I_alu 0 i_add_oi i_add_oo rdx 16 _ _); [now left|]. split; [left; apply gprb_ok; reflexivity|repeat split].
  - left; refine (I_alu 0 i_add_oi i_add_oo rdi 16 _ _); [now left|]. split; [left; apply gprb_ok; reflexivity|repeat split].
  - left; refine (I_alu 5 i_sub_oi i_sub_oo ecx 1 _ _); [cbn; tauto|]. split; [left; apply gprb_ok; reflexivity|repeat split].
Qed.

(* ---- one round ---- *)
Definition bytes64 (m : Z -> Z) : Prop := forall a, 0 <= m (addr64 a) < 256.
Lemma addr64_idem a : addr64 (addr64 a) = addr64 a. Proof. unfold addr64. now rewrite Z.mod_mod. Qed.
Lemma addr64_range a : 0 <= addr64 a < 2 ^ 64. Proof. unfold addr64. apply Z.mod_pos_bound. reflexivity. Qed.
Lemma load_same m m' n : forall a, (forall i, 0 <= i < Z.of_nat n -> m (addr64 (a + i)) = m' (addr64 (a + i))) -> load m a n = load m' a n.
Proof.
  induction n as [|n IH]; intros a H; [reflexivity|]. cbn [load]. pose proof (H 0 ltac:(lia)) as H0. rewrite Z.add_0_r in H0. rewrite H0. do 2 f_equal. apply IH.
  intros i Hi. replace (a + 1 + i) with (a + (i + 1)) by ring. apply H. lia.
Qed.
Lemma lane_load64 m a i : bytes64 m -> 0 <= i < 4 -> lane 32 i (load m a 16) = load m (a + 4 * i) 4.
Proof.
  intros Hb Hi. set (m' := fun z => m (addr64 z)).
  assert (forall n a, load m a n = load m' a n) as E by (intros; apply load_same; intros; unfold m'; now rewrite addr64_idem).
  rewrite !E. apply (lane_load m' a 16 4 i); [intros z; apply Hb|lia|]. change (Z.of_nat 4) with 4. change (Z.of_nat 16) with 16. lia.
Qed.
Definition r1 (x : st) : st := smeans q_movups 0 [OReg (Xmm 0); at64 6] x.
Definition r2 (x : st) : st := smeans q_movups 0 [OReg (Xmm 1); at64 2] (r1 x).
Definition r3 (x : st) : st := smeans q_addps 0 [OReg (Xmm 0); OReg (Xmm 1)] (r2 x).
Definition r4 (x : st) : st := smeans q_store 0 [at64 7; OReg (Xmm 0)] (r3 x).
Definition round (x : st) : st := e_alu 5 32 ecx 1 (e_alu 0 64 rdi 16 (e_alu 0 64 rdx 16 (e_alu 0 64 rsi 16 (r4 x)))).
Definition fadd (x : st) (a b : Z) : Z := fpu (vu x) FAdd 32 0 [a; b] mod 2 ^ 32.
Lemma written64 x n : 0 <= n < 16 -> written (rg x) (mkRegExp (Reg64 n) noReg 0 0) mod 2 ^ 64 = addr64 (rg x n).
Proof.
  intros H. assert (n = 0 \/ n = 1 \/ n = 2 \/ n = 3 \/ n = 4 \/ n = 5 \/ n = 6 \/ n = 7 \/ n = 8 \/ n = 9 \/ n = 10 \/ n = 11 \/ n = 12 \/ n = 13 \/ n = 14 \/ n = 15) as K by lia.
  unfold addr64. repeat (destruct K as [-> |K]; [match goal with |- written (rg x) (mkRegExp (Reg64 ?k) _ _ _) mod _ = _ => change (written (rg x) (mkRegExp (Reg64 k) noReg 0 0)) with (rg x k + 0 + 0) end; now rewrite !Z.add_0_r|]).
  subst n. change (written (rg x) (mkRegExp (Reg64 15) noReg 0 0)) with (rg x 15 + 0 + 0). now rewrite !Z.add_0_r.
Qed.
Lemma ld_lane x k n i : bytes64 (mm x) -> 0 <= n < 16 -> 0 <= k < 16 -> 0 <= i < 4 ->
  lane 32 i (vx (smeans q_movups 0 [OReg (Xmm k); at64 n] x) (regno (Xmm k))) = load (mm x) (rg x n + 4 * i) 4.
Proof.
  intros Hb Hn Hk Hi. rewrite (smeans_lane q_movups 0 (Xmm k) (at64 n) x eq_refl eq_refl Mov 32 i eq_refl) by (change (128 / 32) with 4; lia).
  change (q_form q_movups) with One. cbv iota. cbn [map apply nth].
  assert (where_ x (at64 n) = XMem (addr64 (rg x n))) as W.
  { unfold where_, at64, address0. cbn [a_e]. f_equal. rewrite <- (written64 x n Hn). reflexivity. }
  rewrite W. cbn [source]. change (Z.to_nat (mem_bytes (MLane Mov 32) 128)) with 16%nat. rewrite lane_load64 by assumption.
  assert (bytes_mem (fun z => mm x (addr64 z))) as Hb' by (intros z; apply Hb).
  assert (load (mm x) (addr64 (rg x n) + 4 * i) 4 = load (mm x) (rg x n + 4 * i) 4) as -> by (apply load_addr; unfold addr64; now rewrite Zplus_mod_idemp_l).
  apply Z.mod_small. assert (load (mm x) (rg x n + 4 * i) 4 = load (fun z => mm x (addr64 z)) (rg x n + 4 * i) 4) as -> by (apply load_same; intros; now rewrite addr64_idem).
  exact (load_bound _ (rg x n + 4 * i) 4 Hb').
Qed.
Lemma r3_lane x i : bytes64 (mm x) -> 0 <= i < 4 -> lane 32 i (vx (r3 x) 0) = fadd x (load (mm x) (rg x 6 + 4 * i) 4) (load (mm x) (rg x 2 + 4 * i) 4).
Proof.
  intros Hb Hi.
  pose proof (smeans_rest q_movups 0 (Xmm 0) (at64 6) x eq_refl eq_refl) as R1. cbv zeta in R1. fold (r1 x) in R1. destruct R1 as (A1 & A2 & _ & _ & _).
  pose proof (smeans_rest q_movups 0 (Xmm 1) (at64 2) (r1 x) eq_refl eq_refl) as R2. cbv zeta in R2. fold (r2 x) in R2. destruct R2 as (B1 & B2 & _ & _ & B3).
  assert (fpu (vu (r2 x)) = fpu (vu x)) as Hf by reflexivity.
  change (vx (r3 x) 0) with (vx (r3 x) (regno (Xmm 0))). unfold r3. rewrite (smeans_lane q_addps 0 (Xmm 0) (OReg (Xmm 1)) (r2 x) eq_refl eq_refl (Fp FAdd) 32 i eq_refl) by (change (128 / 32) with 4; lia).
  change (q_form q_addps) with Two. cbv iota. cbn [map apply nth]. change (where_ (r2 x) (OReg (Xmm 1))) with (XReg (regno (Xmm 1))). cbn [source].
  unfold fadd. rewrite Hf. change (if q_imm q_addps then 0 else 0) with 0.
  assert (lane 32 i (vx (r2 x) (regno (Xmm 0))) = load (mm x) (rg x 6 + 4 * i) 4) as ->.
  { rewrite B3 by discriminate. apply ld_lane; (assumption || lia). }
  assert (lane 32 i (vx (r2 x) (regno (Xmm 1))) = load (mm x) (rg x 2 + 4 * i) 4) as ->.
  { unfold r2. rewrite ld_lane by (try lia; try assumption; intros z; rewrite A2; apply Hb). now rewrite A1, A2. }
  reflexivity.
Qed.
Definition step4 (y : st) : st := e_alu 5 32 ecx 1 (e_alu 0 64 rdi 16 (e_alu 0 64 rdx 16 (e_alu 0 64 rsi 16 y))).
Lemma step4_ok y : let n := rg y 1 mod 2 ^ 32 in
  rg (step4 y) RSP = rg y RSP /\ rg (step4 y) 1 mod 2 ^ 32 = (n - 1) mod 2 ^ 32
  /\ addr64 (rg (step4 y) 6) = addr64 (rg y 6 + 16) /\ addr64 (rg (step4 y) 2) = addr64 (rg y 2 + 16) /\ addr64 (rg (step4 y) 7) = addr64 (rg y 7 + 16)
  /\ cc_holds 5 (fl (step4 y)) = negb ((n - 1) mod 2 ^ 32 =? 0) /\ vu (step4 y) = vu y /\ mm (step4 y) = mm y.
Proof.
  cbv zeta. assert (2 ^ 32 <> 0) by discriminate. assert (2 ^ 64 <> 0) by discriminate.
  split; [reflexivity|].
  assert (B : rg (step4 y) 1 = ((rg y 1 mod 2 ^ 32 - 1 - 0) mod 2 ^ 32) mod 2 ^ 32) by reflexivity.
  assert (D6 : rg (step4 y) 6 = ((rg y 6 mod 2 ^ 64 + 16 + 0) mod 2 ^ 64) mod 2 ^ 64) by reflexivity.
  assert (D2 : rg (step4 y) 2 = ((rg y 2 mod 2 ^ 64 + 16 + 0) mod 2 ^ 64) mod 2 ^ 64) by reflexivity.
  assert (D7 : rg (step4 y) 7 = ((rg y 7 mod 2 ^ 64 + 16 + 0) mod 2 ^ 64) mod 2 ^ 64) by reflexivity.
  assert (C : cc_holds 5 (fl (step4 y)) = xorb true ((rg y 1 mod 2 ^ 32 - 1 - 0) mod 2 ^ 32 =? 0)) by reflexivity.
  rewrite B, C, D6, D2, D7. split; [rewrite !Z.mod_mod, !Z.sub_0_r by assumption; reflexivity|].
  assert (forall v, addr64 (((v mod 2 ^ 64 + 16 + 0) mod 2 ^ 64) mod 2 ^ 64) = addr64 (v + 16)) as A16 by (intros v; unfold addr64; rewrite !Z.mod_mod, Z.add_0_r, Zplus_mod_idemp_l by assumption; reflexivity).
  rewrite !A16. split; [reflexivity|]. split; [reflexivity|]. split; [reflexivity|]. split; [rewrite !Z.sub_0_r; reflexivity|]. split; reflexivity.
Qed.
Lemma r4_ok x : rg (r4 x) = rg x /\ fpu (vu (r4 x)) = fpu (vu x)
  /\ forall z, mm (r4 x) (addr64 z) = let d := (addr64 z - rg x 7) mod 2 ^ 64 in if d <? 16 then lane 8 d (vx (r3 x) 0) else mm x (addr64 z).
Proof.
  pose proof (smeans_rest q_movups 0 (Xmm 0) (at64 6) x eq_refl eq_refl) as R1. cbv zeta in R1. fold (r1 x) in R1. destruct R1 as (A1 & A2 & _ & _ & _).
  pose proof (smeans_rest q_movups 0 (Xmm 1) (at64 2) (r1 x) eq_refl eq_refl) as R2. cbv zeta in R2. fold (r2 x) in R2. destruct R2 as (B1 & B2 & _ & _ & _).
  pose proof (smeans_rest q_addps 0 (Xmm 0) (OReg (Xmm 1)) (r2 x) eq_refl eq_refl) as R3. cbv zeta in R3. fold (r3 x) in R3. destruct R3 as (C1 & C2 & _ & _ & _).
  pose proof (stores_rest q_store 0 (mem64 7) (Xmm 0) (r3 x) eq_refl) as R4. cbv zeta in R4. change (smeans q_store 0 [OMem (mem64 7); OReg (Xmm 0)] (r3 x)) with (r4 x) in R4. destruct R4 as (D1 & _ & D2).
  split; [congruence|]. split; [rewrite D2; reflexivity|]. intros z.
  pose proof (stores_bytes q_store 0 (mem64 7) (Xmm 0) (r3 x) 4 eq_refl eq_refl eq_refl ltac:(auto) (addr64 z) (addr64_range z)) as S0.
  change (smeans q_store 0 [OMem (mem64 7); OReg (Xmm 0)] (r3 x)) with (r4 x) in S0. change (regno (Xmm 0)) with 0 in S0.
  assert (W : written (rg (r3 x)) (a_e (mem64 7)) mod addr_size (uses32 (a_e (mem64 7))) = addr64 (rg x 7)).
  { replace (rg x 7) with (rg (r3 x) 7) by congruence. exact (written64 (r3 x) 7 ltac:(lia)). }
  rewrite W in S0. cbv zeta in S0 |- *.
  assert (forall v, (v - addr64 (rg x 7)) mod 2 ^ 64 = (v - rg x 7) mod 2 ^ 64) as E by (intros v; unfold addr64; apply Zminus_mod_idemp_r).
  rewrite !E in S0. rewrite S0, C2, B2, A2. reflexivity.
Qed.
Lemma round_ok x : let n := rg x 1 mod 2 ^ 32 in
  rg (round x) RSP = rg x RSP /\ rg (round x) 1 mod 2 ^ 32 = (n - 1) mod 2 ^ 32
  /\ addr64 (rg (round x) 6) = addr64 (rg x 6 + 16) /\ addr64 (rg (round x) 2) = addr64 (rg x 2 + 16) /\ addr64 (rg (round x) 7) = addr64 (rg x 7 + 16)
  /\ cc_holds 5 (fl (round x)) = negb ((n - 1) mod 2 ^ 32 =? 0) /\ fpu (vu (round x)) = fpu (vu x)
  /\ (forall z, 16 <= (addr64 z - rg x 7) mod 2 ^ 64 -> mm (round x) (addr64 z) = mm x (addr64 z))
  /\ (forall i, 0 <= i < 16 -> mm (round x) (addr64 (rg x 7 + i)) = lane 8 i (vx (r3 x) 0)).
Proof.
  cbv zeta. destruct (r4_ok x) as (R & F & St). pose proof (step4_ok (r4 x)) as K. cbv zeta in K. rewrite R in K. change (step4 (r4 x)) with (round x) in K.
  destruct K as (K1 & K2 & K3 & K4 & K5 & K6 & K7 & K8). rewrite K7, K8. repeat (split; [assumption|]). split.
  - intros z Hz. rewrite St. cbv zeta. now replace ((addr64 z - rg x 7) mod 2 ^ 64 <? 16) with false by lia.
  - intros i Hi. rewrite St. cbv zeta. unfold addr64. rewrite Zminus_mod_idemp_l. replace (rg x 7 + i - rg x 7) with i by ring. rewrite Z.mod_small by lia.
    now replace (i <? 16) with true by lia.
Qed.

(* ---- the loop ---- *)
(* address a is not among the n bytes from d *)
Definition out (d n a : Z) : Prop := n <= (addr64 a - d) mod 2 ^ 64.
Lemma out_addr d d' n a : addr64 d = addr64 d' -> out d n a -> out d' n a.
Proof. unfold out. intros H O. rewrite <- (Zminus_mod_idemp_r (addr64 a) d'). unfold addr64 in H. rewrite <- H, Zminus_mod_idemp_r. exact O. Qed.
Lemma out_arg d n a a' : addr64 a = addr64 a' -> out d n a -> out d n a'.
Proof. unfold out. now intros ->. Qed.
Lemma out_less d n n' a : n' <= n -> out d n a -> out d n' a. Proof. unfold out. lia. Qed.
Lemma out_next d n a : 0 <= n -> out d (n + 16) a -> out (d + 16) n a.
Proof.
  unfold out. intros Hn H. pose proof (Z.mod_pos_bound (addr64 a - d) (2 ^ 64) ltac:(reflexivity)). set (e := (addr64 a - d) mod 2 ^ 64) in *.
  assert ((addr64 a - (d + 16)) mod 2 ^ 64 = (e - 16) mod 2 ^ 64) as -> by (unfold e; rewrite Zminus_mod_idemp_l; f_equal; ring). rewrite Z.mod_small by lia. lia.
Qed.
Lemma out_first d n i : 0 <= n -> n + 16 <= 2 ^ 64 -> 0 <= i < 16 -> out (d + 16) n (d + i).
Proof.
  unfold out. intros Hn H Hi. unfold addr64. rewrite Zminus_mod_idemp_l. replace (d + i - (d + 16)) with (i - 16) by ring.
  rewrite <- (Z.mod_add _ 1) by discriminate. rewrite Z.mod_small; lia.
Qed.
Lemma round_bytes x : bytes64 (mm x) -> bytes64 (mm (round x)).
Proof.
  intros Hb a. destruct (round_ok x) as (_ & _ & _ & _ & _ & _ & _ & Q1 & Q2). set (d := (addr64 a - rg x 7) mod 2 ^ 64) in *.
  destruct (Z_lt_ge_dec d 16) as [H|H]; [|rewrite Q1 by (unfold d in H; lia); apply Hb].
  assert (0 <= d) by (apply Z.mod_pos_bound; reflexivity). assert (addr64 a = addr64 (rg x 7 + d)) as ->.
  { unfold d, addr64. rewrite Zplus_mod_idemp_r. replace (rg x 7 + (a mod 2 ^ 64 - rg x 7)) with (a mod 2 ^ 64) by ring. now rewrite Z.mod_mod. }
  rewrite Q2 by lia. unfold lane. apply Z.mod_pos_bound. reflexivity.
Qed.
Lemma add_leads : leads_to add_prog 9 (LStr "lp") 0.
Proof. exists (TGlobal "lp"), (LStr "lp"). repeat split. Qed.
Definition sums (x : st) (m : Z -> Z) (n : Z) : Prop := forall i, 0 <= i < n ->
  load m (rg x 7 + 4 * i) 4 = fadd x (load (mm x) (rg x 6 + 4 * i) 4) (load (mm x) (rg x 2 + 4 * i) 4).

Section S.
  Variables (s0 s3 : St) (a3 : Spec).
  Hypothesis Hb : built s0 add_prog s3 a3.
  (* the destination overlaps neither the sources nor the code *)
  Definition apart (x : st) (len : Z) : Prop :=
    (forall j, 0 <= j < len -> out (rg x 7) len (rg x 6 + j)) /\ (forall j, 0 <= j < len -> out (rg x 7) len (rg x 2 + j))
    /\ forall c, 0 <= c < c_size (g_code s3) -> out (rg x 7) len (c_top (g_code s3) + c).
  Lemma round_loaded x len : loaded s3 x -> apart x len -> 16 <= len -> loaded s3 (round x).
  Proof.
    intros Hl (_ & _ & A) H c Hc. destruct (round_ok x) as (_ & _ & _ & _ & _ & _ & _ & Q1 & _). rewrite Q1; [now apply Hl|]. specialize (A c Hc). unfold out in A. lia.
  Qed.
  Lemma round_first x m : bytes64 (mm x) -> (forall i, 0 <= i < 16 -> m (addr64 (rg x 7 + i)) = mm (round x) (addr64 (rg x 7 + i))) -> sums x m 4.
  Proof.
    intros Hx Hm i Hi. destruct (round_ok x) as (_ & _ & _ & _ & _ & _ & _ & _ & Q2). rewrite <- r3_lane by assumption.
    rewrite (load_lanes _ _ (lane 32 i (vx (r3 x) 0)) 4); [unfold lane; rewrite Z.mod_mod by discriminate; reflexivity|]. change (Z.of_nat 4) with 4. intros k Hk.
    replace (rg x 7 + 4 * i + k) with (rg x 7 + (4 * i + k)) by ring. rewrite Hm, Q2 by lia.
    pose proof (lane_lane 4 (4 * i + k) (vx (r3 x) 0) ltac:(lia) ltac:(lia)) as L.
    replace ((4 * i + k) mod 4) with k in L by (apply (Z.mod_unique _ _ i); lia). replace ((4 * i + k) / 4) with i in L by (apply (Z.div_unique _ _ _ k); lia). symmetry. exact L.
  Qed.
  Lemma run_step4 y x' : loaded s3 y -> pruns s0 s3 add_prog (At 9 (step4 y)) x' -> pruns s0 s3 add_prog (At 5 y) x'.
  Proof.
    intros Hl R. eapply PR_one; [exact Hl|eapply P_ins; reflexivity|]. eapply PR_one; [|eapply P_ins; reflexivity|]; [exact Hl|]. eapply PR_one; [|eapply P_ins; reflexivity|]; [exact Hl|].
    eapply PR_one; [|eapply P_ins; reflexivity|]; [exact Hl|]. exact R.
  Qed.
  Lemma round_mm x : mm (round x) = mm (r4 x).
  Proof. pose proof (step4_ok (r4 x)) as K. cbv zeta in K. change (step4 (r4 x)) with (round x) in K. apply K. Qed.
  Lemma run_round x x' : loaded s3 x -> loaded s3 (r4 x) -> pruns s0 s3 add_prog (At 9 (round x)) x' -> pruns s0 s3 add_prog (At 0 x) x'.
  Proof.
    intros Hl L4 R.
    assert (mm (r1 x) = mm x) as M1 by exact (proj1 (proj2 (smeans_rest q_movups 0 (Xmm 0) (at64 6) x eq_refl eq_refl))).
    assert (mm (r2 x) = mm (r1 x)) as M2 by exact (proj1 (proj2 (smeans_rest q_movups 0 (Xmm 1) (at64 2) (r1 x) eq_refl eq_refl))).
    assert (mm (r3 x) = mm (r2 x)) as M3 by exact (proj1 (proj2 (smeans_rest q_addps 0 (Xmm 0) (OReg (Xmm 1)) (r2 x) eq_refl eq_refl))).
    assert (loaded s3 (r1 x)) by (intros z Hz; rewrite M1; now apply Hl). assert (loaded s3 (r2 x)) by (intros z Hz; rewrite M2; auto). assert (loaded s3 (r3 x)) by (intros z Hz; rewrite M3; auto).
    eapply PR_one; [exact Hl|eapply P_skip; reflexivity|]. eapply PR_one; [exact Hl|eapply P_ins; reflexivity|]. fold (r1 x).
    eapply PR_one; [|eapply P_ins; reflexivity|]; [assumption|]. fold (r2 x). eapply PR_one; [|eapply P_ins; reflexivity|]; [assumption|]. fold (r3 x).
    eapply PR_one; [|eapply P_ins; reflexivity|]; [assumption|]. fold (r4 x). apply run_step4; [exact L4|]. exact R.
  Qed.
  Lemma add_loop (k : nat) : forall x, let n := Z.of_nat (S k) in loaded s3 x -> bytes64 (mm x) -> rg x 1 mod 2 ^ 32 = n -> n < 2 ^ 32 -> apart x (16 * n) ->
    exists x', pruns s0 s3 add_prog (At 0 x) (At 10 x') /\ rg x' RSP = rg x RSP
      /\ (forall z, out (rg x 7) (16 * n) z -> mm x' (addr64 z) = mm x (addr64 z)) /\ sums x (mm x') (4 * n).
  Proof.
    induction k as [|k IH]; intros x n Hl Hm Hn Hk Ha; pose proof (round_ok x) as Q; cbv zeta in Q; destruct Q as (Q1 & Q2 & Q6 & Qd & Q7 & Qf & Qv & Qo & Qi); rewrite Hn in *.
    - assert (loaded s3 (round x)) as Lr by (eapply round_loaded; eauto; lia). pose proof (round_mm x) as Mr.
      exists (round x). split; [|split; [exact Q1|split]].
      + apply run_round; [exact Hl|intros z Hz; rewrite <- Mr; now apply Lr|]. eapply PR_one; [exact Lr|eapply P_not_taken; [reflexivity|exact Qf]|apply PR_none].
      + intros z Hz. apply Qo. unfold out in Hz. lia.
      + apply round_first; auto.
    - set (n' := Z.of_nat (S k)). assert (n = n' + 1) as En by lia. assert ((n - 1) mod 2 ^ 32 = n') as Em by (rewrite Z.mod_small; lia).
      assert (loaded s3 (round x)) as Lr by (eapply round_loaded; eauto; lia). pose proof (round_mm x) as Mr.
      assert (forall a, out (rg x 7) (16 * n) a -> out (rg (round x) 7) (16 * n') a) as On.
      { intros a Oa. apply (out_addr (rg x 7 + 16)); [now symmetry|]. apply out_next; [lia|]. now replace (16 * n' + 16) with (16 * n) by lia. }
      destruct Ha as (A6 & A2 & Ac).
      assert (apart (round x) (16 * n')) as Ha'.
      { split; [|split].
        - intros j Hj. apply (out_arg _ _ (rg x 6 + (j + 16))); [|apply On, A6; lia]. unfold addr64 in *. rewrite <- (Zplus_mod_idemp_l (rg (round x) 6)), Q6, Zplus_mod_idemp_l. f_equal. ring.
        - intros j Hj. apply (out_arg _ _ (rg x 2 + (j + 16))); [|apply On, A2; lia]. unfold addr64 in *. rewrite <- (Zplus_mod_idemp_l (rg (round x) 2)), Qd, Zplus_mod_idemp_l. f_equal. ring.
        - intros c Hc. apply On, Ac, Hc. }
      destruct (IH (round x) Lr (round_bytes x Hm) ltac:(fold n'; congruence) ltac:(fold n'; lia) Ha') as (x' & R & S' & O & Sm). fold n' in O, Sm.
      exists x'. split; [|split; [congruence|split]].
      + apply run_round; [exact Hl|intros z Hz; rewrite <- Mr; now apply Lr|]. eapply PR_one; [exact Lr|eapply P_taken; [reflexivity|apply add_leads|]|exact R]. rewrite Qf, Em. unfold n'. lia.
      + intros z Hz. rewrite O by now apply On. apply Qo. unfold out in Hz. lia.
      + intros i Hi. destruct (Z_lt_ge_dec i 4) as [H4|H4].
        * apply (round_first x (mm x') Hm); [|lia]. intros j Hj. apply O. apply (out_addr (rg x 7 + 16)); [now symmetry|]. apply out_first; lia.
        * specialize (Sm (i - 4) ltac:(lia)).
          assert (forall r, addr64 (rg (round x) r) = addr64 (rg x r + 16) -> addr64 (rg (round x) r + 4 * (i - 4)) = addr64 (rg x r + 4 * i)) as Ea.
          { intros r Hr. unfold addr64 in *. rewrite <- (Zplus_mod_idemp_l (rg (round x) r)), Hr, Zplus_mod_idemp_l. f_equal. ring. }
          rewrite (load_addr _ 4 _ _ (Ea 7 Q7)), (load_addr _ 4 _ _ (Ea 6 Q6)), (load_addr _ 4 _ _ (Ea 2 Qd)) in Sm. rewrite Sm. unfold fadd. rewrite Qv. do 2 f_equal.
          assert (forall r, (forall j, 0 <= j < 16 * n -> out (rg x 7) (16 * n) (rg x r + j)) -> load (mm (round x)) (rg x r + 4 * i) 4 = load (mm x) (rg x r + 4 * i) 4) as El.
          { intros r Hr. apply load_same. change (Z.of_nat 4) with 4. intros j Hj. apply Qo. specialize (Hr (4 * i + j) ltac:(lia)). unfold out in Hr. rewrite Z.add_assoc in Hr. lia. }
          now rewrite (El 6 A6), (El 2 A2).
  Qed.
  Theorem add_runs n x : loaded s3 x -> bytes64 (mm x) -> rg x 1 mod 2 ^ 32 = n -> 1 <= n -> apart x (16 * n) -> (forall j, 0 <= j < 8 -> out (rg x 7) (16 * n) (rg x RSP + j)) -> exists x',
    msteps (addr64 (c_top (g_code s3)), x) (addr64 (load (mm x) (rg x RSP) 8), x') /\ rg x' RSP = addr64 (rg x RSP + 8)
    /\ (forall z, out (rg x 7) (16 * n) z -> mm x' (addr64 z) = mm x (addr64 z)) /\ sums x (mm x') (4 * n).
  Proof.
    intros Hl Hm Hn H1 Ha Hs. assert (n < 2 ^ 32) by (subst n; apply Z.mod_pos_bound; reflexivity).
    assert (Z.of_nat (S (Z.to_nat (n - 1))) = n) as En by lia.
    pose proof (add_loop (Z.to_nat (n - 1)) x) as L. cbv zeta in L. rewrite En in L. destruct (L Hl Hm Hn ltac:(assumption) Ha) as (x' & R & S' & O & Sm).
    assert (loaded s3 x') as Lx by (destruct Ha as (_ & _ & Ac); intros c Hc; rewrite O by auto; now apply Hl).
    exists (set_reg x' RSP (addr64 (rg x' RSP + 8))). split; [|split; [cbn; now rewrite S'|split; [exact O|exact Sm]]].
    rewrite <- (entry _ _ _ _ Hb).
    apply (b_runs s0 add_prog s3 a3 (At 0 x) (Out (addr64 (load (mm x) (rg x RSP) 8)) (set_reg x' RSP (addr64 (rg x' RSP + 8)))) Hb).
    assert (forall a b c, pruns s0 s3 add_prog a b -> pruns s0 s3 add_prog b c -> pruns s0 s3 add_prog a c) as TR.
    { intros a b c H1' H2'. induction H1'; [exact H2'|]. eapply PR_one; eauto. }
    eapply TR; [exact R|]. eapply PR_one; [exact Lx| |apply PR_none].
    replace (load (mm x) (rg x RSP) 8) with (load (mm x') (rg x' RSP) 8); [apply P_leave; reflexivity|]. rewrite S'. apply load_same. intros j Hj. apply O, Hs. lia.
  Qed.
End S.
