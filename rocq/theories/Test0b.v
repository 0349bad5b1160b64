(* sample/test0.cpp:41-57 (AddFunc), 59-86 (CallAtoi), 88-102 (JmpAtoi), System V branches. *)
From Coq Require Import ZArith List Bool String Lia.
From Verif Require Import Base Types Emit EmitFacts Encode Mnemonic SpecX86 SpecAddr SpecLeg SpecCond SpecExec SpecMach Wf ArgCheck ExecFacts ExecProofs ExecMore State Code Label Gen SpecLabel LabelThms Grow LabelThms6 SpecProg ProgInsn ProgMach VecInsn SseInsn ProgRef ProgHist ProgSim ProgSum ProgThms CalcRun.
Import ListNotations.
Open Scope list_scope.
Open Scope Z_scope.

(* ptr[edi + y]: xbyak.h:1045-1064, 1399; see edi_plus_ok *)
Definition edi_plus (y : Z) : Address := address0 0 false (mkRegExp (Reg32 7) noReg 0 (w64 y)).
Lemma edi_plus_ok y env pos :
  Emit.bind (regExpReg (Reg32 7) 1) (fun r => Emit.bind (regExpAdd r (regExpDisp y)) (frameAt 0 false)) env pos = Emit.ret (edi_plus y) env pos.
Proof. unfold edi_plus; (replace (w64 y) with (w64 (0 + w64 y)) by (unfold w64; rewrite Z.add_0_l; apply Z.mod_mod; discriminate)); reflexivity. Qed.
(* test0.cpp:51-54 *)
Definition add_prog (y : Z) : program := [SIns (i_lea (Reg32 0) (edi_plus y)) (SpecExec.e_lea 32 (OReg (Reg32 0)) (edi_plus y)); SRet].
Lemma edi_plus_mem y : mem_okb (edi_plus y) = true.
Proof.
  unfold mem_okb, wf_modrmb, edi_plus, address0. cbn [a_mode a_op a_e e_base e_index e_scale e_disp].
  assert (0 <= w64 y < 18446744073709551616) as W by (apply Z.mod_pos_bound; reflexivity).
  replace (0 <=? w64 y) with true by lia. replace (w64 y <? 18446744073709551616) with true by lia. reflexivity.
Qed.
Lemma add_wf y : well_formed (add_prog y).
Proof.
  constructor; [|repeat constructor]. left.
  refine (I_lea (Reg32 0) (edi_plus y) _ _ _ _ _); [apply gprb_ok; reflexivity|apply mem_okb_ok, edi_plus_mem|repeat split|repeat split|].
  intros _. constructor; [discriminate|]. constructor; [split; reflexivity|constructor].
Qed.
Lemma lea_ok y x : SpecExec.e_lea 32 (OReg (Reg32 0)) (edi_plus y) x = set_reg x 0 ((rg x 7 + y) mod 2 ^ 32).
Proof.
  unfold SpecExec.e_lea. assert (V : value_of (edi_plus y) x = (rg x 7 + y) mod 2 ^ 32).
  { unfold value_of. change (addr_size (uses32 (a_e (edi_plus y)))) with (2 ^ 32).
    assert (W : written (rg x) (a_e (edi_plus y)) = rg x 7 + s64 (w64 y)) by (unfold written; cbn - [s64 w64]; ring).
    rewrite W. assert (Q : exists k, s64 (w64 y) = y + k * 2 ^ 32).
    { pose proof (CalcRun.s64_add 0 y) as P. rewrite !Z.add_0_l in P. exists ((s64 (w64 y) / 2 ^ 64 - y / 2 ^ 64) * 2 ^ 32).
      pose proof (Z.div_mod (s64 (w64 y)) (2 ^ 64) ltac:(discriminate)). pose proof (Z.div_mod y (2 ^ 64) ltac:(discriminate)).
      replace ((s64 (w64 y) / 2 ^ 64 - y / 2 ^ 64) * 2 ^ 32 * 2 ^ 32) with (2 ^ 64 * (s64 (w64 y) / 2 ^ 64) - 2 ^ 64 * (y / 2 ^ 64)) by (change (2 ^ 64) with (2 ^ 32 * 2 ^ 32); ring). lia. }
    destruct Q as [k ->]. now rewrite Z.add_assoc, Z.mod_add. }
  rewrite V. change (loc_of (OReg (Reg32 0)) x) with (LReg 0). unfold write. cbn [Z.eqb]. change (32 =? 16) with false. cbv iota zeta.
  try (rewrite Z.mod_mod by discriminate). reflexivity.
Qed.

Theorem add_runs s0 s a y x : built s0 (add_prog y) s a -> loaded s x -> exists z,
  msteps (addr64 (c_top (g_code s)), x) (addr64 (load (mm x) (rg x RSP) 8), z) /\ rg z 0 = (rg x 7 + y) mod 2 ^ 32
  /\ mm z = mm x /\ fl z = fl x /\ rg z RSP = addr64 (rg x RSP + 8) /\ forall r, r <> RSP -> r <> 0 -> rg z r = rg x r.
Proof.
  intros B Hl. set (x1 := set_reg x 0 ((rg x 7 + y) mod 2 ^ 32)). exists (set_reg x1 RSP (addr64 (rg x1 RSP + 8))). split.
  - rewrite <- (entry s0 _ s a B).
    change (msteps (mcfg s0 s (add_prog y) (At 0 x)) (mcfg s0 s (add_prog y) (Out (addr64 (load (mm x1) (rg x1 RSP) 8)) (set_reg x1 RSP (addr64 (rg x1 RSP + 8)))))).
    eapply b_runs; [exact B|]. eapply PR_one; [exact Hl|eapply P_ins; reflexivity|]. rewrite lea_ok. fold x1.
    eapply PR_one; [exact Hl|eapply P_leave; reflexivity|apply PR_none].
  - split; [reflexivity|]. split; [reflexivity|]. split; [reflexivity|]. split; [reflexivity|].
    intros r H1 H2. cbn. unfold SpecExec.upd. destruct (Z.eqb_spec r RSP); [contradiction|]. destruct (Z.eqb_spec r 0); [contradiction|reflexivity].
Qed.

(* test0.cpp:95-96, f: the address of atoi *)
Definition rax := OReg (Reg64 0).
Definition mov_f (f : Z) : stmt := SIns (mov_oi rax f) (e_mov 64 rax (f mod 2 ^ 64)).
Definition jmp_prog (f : Z) : program := [mov_f f; SJmpTo (jmp_op rax T_AUTO) (go_to rax)].
(* test0.cpp:68-69, 83 *)
Definition call_prog (f : Z) : program := [mov_f f; SCallTo (call_op rax T_AUTO) (go_to rax); SRet].
Lemma mov_wf f : insn (mov_oi rax f) (e_mov 64 rax (f mod 2 ^ 64)).
Proof. refine (I_mov rax f _). split; [left; apply gprb_ok; reflexivity|repeat split]. Qed.
Lemma go_rax : go_op rax.
Proof. split; [apply gprb_ok; reflexivity|right; reflexivity]. Qed.
Lemma jmp_wf f : well_formed (jmp_prog f).
Proof. constructor; [left; apply mov_wf|]. constructor; [|constructor]. refine (J_op rax T_AUTO go_rax _). discriminate. Qed.
Lemma call_wf f : well_formed (call_prog f).
Proof. constructor; [left; apply mov_wf|]. constructor; [|repeat constructor]. refine (K_op rax T_AUTO go_rax _). discriminate. Qed.
Lemma mov_ok f x : e_mov 64 rax (f mod 2 ^ 64) x = set_reg x 0 (f mod 2 ^ 64).
Proof. unfold e_mov. change (loc_of rax x) with (LReg 0). unfold write. change (64 =? 16) with false. cbv iota zeta. now rewrite Z.mod_mod by discriminate. Qed.
Lemma go_ok f x : addr64 (go_to rax (set_reg x 0 (f mod 2 ^ 64))) = addr64 f.
Proof. assert (H : go_to rax (set_reg x 0 (f mod 2 ^ 64)) = (f mod 2 ^ 64) mod 2 ^ 64) by reflexivity. rewrite H. unfold addr64. now rewrite !Z.mod_mod by discriminate. Qed.
Theorem jmp_runs s0 s a f x : built s0 (jmp_prog f) s a -> loaded s x ->
  msteps (addr64 (c_top (g_code s)), x) (addr64 f, set_reg x 0 (f mod 2 ^ 64)).
Proof.
  intros B Hl. rewrite <- (entry s0 _ s a B). rewrite <- (go_ok f x). set (x1 := set_reg x 0 (f mod 2 ^ 64)).
  change (msteps (mcfg s0 s (jmp_prog f) (At 0 x)) (mcfg s0 s (jmp_prog f) (Out (addr64 (go_to rax x1)) x1))).
  eapply b_runs; [exact B|]. eapply PR_one; [exact Hl|eapply P_ins; reflexivity|]. rewrite mov_ok. fold x1.
  eapply PR_one; [exact Hl|eapply P_jmpout; reflexivity|apply PR_none].
Qed.
Theorem call_runs s0 s a f x : built s0 (call_prog f) s a -> loaded s x -> exists r,
  msteps (addr64 (c_top (g_code s)), x) (addr64 f, do_push 64 r (set_reg x 0 (f mod 2 ^ 64)))
  /\ forall z, loaded s z -> msteps (r, z) (addr64 (load (mm z) (rg z RSP) 8), set_reg z RSP (addr64 (rg z RSP + 8))).
Proof.
  intros B Hl. rewrite <- (entry s0 _ s a B). rewrite <- (go_ok f x). set (x1 := set_reg x 0 (f mod 2 ^ 64)). exists (adr s0 s (call_prog f) 2). split.
  - change (msteps (mcfg s0 s (call_prog f) (At 0 x)) (mcfg s0 s (call_prog f) (Out (addr64 (go_to rax x1)) (do_push 64 (adr s0 s (call_prog f) 2) x1)))).
    eapply b_runs; [exact B|]. eapply PR_one; [exact Hl|eapply P_ins; reflexivity|]. rewrite mov_ok. fold x1.
    eapply PR_one; [exact Hl|eapply P_callout; reflexivity|apply PR_none].
  - intros z Hz. change (msteps (mcfg s0 s (call_prog f) (At 2 z)) (mcfg s0 s (call_prog f) (Out (addr64 (load (mm z) (rg z RSP) 8)) (set_reg z RSP (addr64 (rg z RSP + 8)))))).
    eapply b_runs; [exact B|]. eapply PR_one; [exact Hz|eapply P_leave; reflexivity|apply PR_none].
Qed.
