(* Property theorems C52: code that was built with instructions, jumps, calls, labels and data and is then executed by a processor
   does what the program says statement by statement (SpecProg over SpecMach and SpecExec). *)
From Coq Require Import ZArith List Bool String Lia.
From Verif Require Import Base Types Emit EmitFacts Encode Mnemonic SpecX86 SpecLeg SpecCond SpecExec SpecMach Wf ArgCheck State Code Label Gen CodeFacts SpecLabel LabelHist LabelThms Grow LabelThms6 RunCheck SpecProg ProgInsn ProgMach RipThms ProgRef ProgHist ProgSim ProgSum ProgThms CondTables.
Import ListNotations.
Open Scope list_scope.
Open Scope Z_scope.

(* calling getCode() starts the first statement *)
Theorem C52_entry : forall s0 p s a, built s0 p s a -> adr s0 s p 0 = addr64 (c_top (g_code s)).
Proof. exact entry. Qed.
Print Assumptions C52_entry.
(* a step of the program is one instruction of the processor, at the address of the statement; statements without code
   (labels, scopes, settings) are at the address of their successor *)
Theorem C52_step : forall s0 p s a i x c, built s0 p s a -> loaded s x -> pstep p (adr s0 s p) (At i x) c ->
  mstep (adr s0 s p i) x = Some (mcfg s0 s p c) \/ mcfg s0 s p c = (adr s0 s p i, x) /\ exists q, nth_error p i = Some q /\ no_code q = true.
Proof. exact b_step. Qed.
Print Assumptions C52_step.
(* so are whole runs, of any length, as long as the program does not overwrite its own code *)
Theorem C52_run : forall s0 p s a c c', built s0 p s a -> pruns s0 s p c c' -> msteps (mcfg s0 s p c) (mcfg s0 s p c').
Proof. exact b_runs. Qed.
Print Assumptions C52_run.
(* conversely, if hasUndefinedLabel() says no, every step of the processor at an instruction is one of the program *)
Theorem C52_processor_follows : forall s0 p s a i x q r, built s0 p s a -> hasUndefinedLabel s = false -> loaded s x ->
  nth_error p i = Some q -> no_code q = false -> is_data q = false -> mstep (adr s0 s p i) x = Some r -> exists c, pstep p (adr s0 s p) (At i x) c /\ r = mcfg s0 s p c.
Proof. exact b_back. Qed.
Print Assumptions C52_processor_follows.
(* then every jump, call and reference names a label that some statement defines, and no statement but data is stuck *)
Theorem C52_labels_defined : forall s0 p s a i q l, built s0 p s a -> hasUndefinedLabel s = false -> nth_error p i = Some q -> names_label q = Some l -> exists j, leads_to p i l j.
Proof. exact b_labels. Qed.
Print Assumptions C52_labels_defined.
Theorem C52_progress : forall s0 p s a i x q, built s0 p s a -> hasUndefinedLabel s = false -> nth_error p i = Some q -> is_data q = false -> exists c, pstep p (adr s0 s p) (At i x) c.
Proof. exact b_goes. Qed.
Print Assumptions C52_progress.
(* the data of db, dw, dd, dq is in memory at the address of its statement, the next statement follows it *)
Theorem C52_data : forall s0 p s a i bs x, built s0 p s a -> loaded s x -> nth_error p i = Some (SData bs) ->
  (forall k b, nth_error bs k = Some b -> mm x (addr64 (adr s0 s p i + Z.of_nat k)) = b mod 256) /\ adr s0 s p (S i) = addr64 (adr s0 s p i + Z.of_nat (List.length bs)).
Proof. exact b_data. Qed.
Print Assumptions C52_data.
(* putL(l0); putL(l1); ...: a table of the addresses of the labels *)
Theorem C52_table : forall s0 p s a x ls, built s0 p s a -> loaded s x -> forall i,
  (forall k l, nth_error ls k = Some l -> nth_error p (i + k) = Some (SPutL l) /\ exists j, leads_to p (i + k) l j) ->
  forall k l j, nth_error ls k = Some l -> leads_to p (i + k) l j -> load (mm x) (addr64 (adr s0 s p i + 8 * Z.of_nat k)) 8 = adr s0 s p j.
Proof. exact b_table. Qed.
Print Assumptions C52_table.
(* the jump methods jo .. jg: the method with suffix n jumps under the condition that n abbreviates *)
Theorem C52_conditional_jumps : Forall (fun m => exists k, encodes (fst m) k /\ forall l ty s, fst (snd m) l ty s = exec (op_of (SJcc k l ty)) s) jcc_methods.
Proof. exact jcc_stmt. Qed.
Print Assumptions C52_conditional_jumps.
(* mov(eax, 0); L("lp"); add(eax, ecx); sub(ecx, 1); jnz("lp"); ret(); ready(); called with ecx = n > 0 returns n(n+1)/2 in eax,
   for every n, wherever the buffer is and however it grows *)
Theorem C52_sum : forall s0 s a n x, new_gen s0 -> shist_ok s0 spec0 (map op_of sum_prog) s a -> loaded s x -> rg x 1 mod 2 ^ 32 = n -> 1 <= n -> exists x',
  msteps (addr64 (c_top (g_code s)), x) (addr64 (load (mm x) (rg x RSP) 8), x') /\ mm x' = mm x /\ rg x' RSP = addr64 (rg x RSP + 8)
  /\ rg x' 0 mod 2 ^ 32 = (n * (n + 1) / 2) mod 2 ^ 32.
Proof. exact b_sum. Qed.
Print Assumptions C52_sum.

(* ---- instances ---- *)
Definition done_st (n : Z) (u : UserPtr) (p : program) : St := stOf (fin (runb (gen0 n u) spec0 (map op_of p))).
Definition done_sp (n : Z) (u : UserPtr) (p : program) : Spec := spOf (fin (runb (gen0 n u) spec0 (map op_of p))).
Lemma built_by n u p : genok n u = true -> okb (runb (gen0 n u) spec0 (map op_of p)) = true -> well_formed p ->
  (if isAutoGrowC (g_code (done_st n u p)) then sp_ready (done_sp n u p) else true) = true -> built (gen0 n u) p (done_st n u p) (done_sp n u p).
Proof.
  intros H1 H2 H3 H4. split; auto; [now apply gen0_ok|now apply run_ok_fin|]. intros Ha. rewrite Ha in H4. exact H4.
Qed.
(* a processor with the code of s in its memory, the return address 0x1000 on the stack *)
Definition cpu (s : St) (r : Z -> Z) : st :=
  SpecExec.mkSt (fun i => if i =? RSP then 0x7000 else r i)
       (fun z => let k := z - c_top (g_code s) in if (0 <=? k) && (k <? c_size (g_code s)) then c_mem (g_code s) k else if z =? 0x7001 then 0x10 else 0)
       (mkFlags false false false false false) (fun _ => false) (mkV (fun _ => 0) (fun _ => 0) (fun _ _ _ _ => 0)).
(* at most n instructions, until the return to 0x1000 *)
Fixpoint mrun (n : nat) (c : Z * st) : Z * st :=
  match n with O => c | S n => if fst c =? 0x1000 then c else match mstep (fst c) (snd c) with Some c' => mrun n c' | None => c end end.
Lemma cpu_loaded s r : 0 <= c_top (g_code s) -> c_top (g_code s) + c_size (g_code s) <= 2 ^ 64 -> loaded s (cpu s r).
Proof.
  intros H1 H2 k Hk. unfold cpu. cbn [mm]. unfold addr64. rewrite Z.mod_small by lia. replace (c_top (g_code s) + k - c_top (g_code s)) with k by ring.
  now replace ((0 <=? k) && (k <? c_size (g_code s))) with true by (symmetry; apply andb_true_iff; lia).
Qed.
(* a buffer of 100 bytes; AutoGrow from one byte, moved several times *)
Example C52_hypotheses :
  built (gen0 100 UNull) sum_prog (done_st 100 UNull sum_prog) (done_sp 100 UNull sum_prog)
  /\ built (gen0 1 UAutoGrow) sum_prog (done_st 1 UAutoGrow sum_prog) (done_sp 1 UAutoGrow sum_prog)
  /\ hasUndefinedLabel (done_st 1 UAutoGrow sum_prog) = false
  /\ (forall r, loaded (done_st 1 UAutoGrow sum_prog) (cpu (done_st 1 UAutoGrow sum_prog) r))
  /\ map (c_mem (g_code (done_st 1 UAutoGrow sum_prog))) (map Z.of_nat (seq 0 13)) = [0xB8; 0; 0; 0; 0; 0x01; 0xC8; 0x83; 0xE9; 0x01; 0x75; 0xF9; 0xC3]
  /\ (let r := mrun 40 (addr64 (c_top (g_code (done_st 1 UAutoGrow sum_prog))), cpu (done_st 1 UAutoGrow sum_prog) (fun i => if i =? 1 then 10 else 0)) in
      fst r = 0x1000 /\ rg (snd r) 0 = 55).
Proof.
  split; [apply built_by; [reflexivity|vm_compute; reflexivity|exact sum_wf|vm_compute; reflexivity]|].
  split; [apply built_by; [reflexivity|vm_compute; reflexivity|exact sum_wf|vm_compute; reflexivity]|].
  split; [vm_compute; reflexivity|]. split; [intros r; apply cpu_loaded; vm_compute; discriminate|].
  split; [vm_compute; reflexivity|]. split; vm_compute; reflexivity.
Qed.
(* forward and backward jumps, "@@" labels, a local scope, a Label object, a call: triple the number in eax if it is below 100, else 7 *)
Definition call_prog : program :=
  [SNewLabel 0%nat; SIn;
   SIns (i_cmp_oi eax 100) (e_alu 7 32 eax 100);
   SJcc 3 (LStr ".big") T_NEAR;
   SCall (LObj 0%nat); SRet;
   SLabel (LStr ".big"); SJmp (LStr "@f") T_AUTO;
   SLabel (LStr "@@"); SIns (mov_oi eax 7) (e_mov 32 eax 7); SRet; SOut;
   SLabel (LObj 0%nat);
   SIns (mov_oo ecx eax) (e_mov2 32 ecx eax); SIns (i_add_oo eax ecx) (e_alu2 0 32 eax ecx); SIns (i_add_oo eax ecx) (e_alu2 0 32 eax ecx); SRet;
   SReady].
Lemma call_wf : well_formed call_prog.
Proof.
  unfold call_prog, well_formed. repeat apply Forall_cons; try exact Logic.I; try lia; try apply Forall_nil.
  - left; refine (I_alu 7 i_cmp_oi i_cmp_oo eax 100 _ _); [cbn; tauto|]. split; [left; apply gprb_ok; reflexivity|repeat split].
  - left; refine (I_mov eax 7 _). split; [left; apply gprb_ok; reflexivity|repeat split].
  - left; refine (I_mov2 ecx eax _ _ _ _); [|repeat split|repeat split|reflexivity].
    split; [left; apply gprb_ok; reflexivity|]. split; [apply gprb_ok; reflexivity|]. intros _. constructor; [discriminate|]. constructor; [discriminate|constructor].
  - left; refine (I_alu2 0 i_add_oi i_add_oo eax ecx _ _ _); [now left| |reflexivity].
    split; [left; apply gprb_ok; reflexivity|]. split; [apply gprb_ok; reflexivity|]. intros _. constructor; [discriminate|]. constructor; [discriminate|constructor].
  - left; refine (I_alu2 0 i_add_oi i_add_oo eax ecx _ _ _); [now left| |reflexivity].
    split; [left; apply gprb_ok; reflexivity|]. split; [apply gprb_ok; reflexivity|]. intros _. constructor; [discriminate|]. constructor; [discriminate|constructor].
Qed.
Example C52_call :
  let s := done_st 1 UAutoGrow call_prog in
  built (gen0 1 UAutoGrow) call_prog s (done_sp 1 UAutoGrow call_prog) /\ hasUndefinedLabel s = false
  /\ map (fun v => let r := mrun 32 (addr64 (c_top (g_code s)), cpu s (fun i => if i =? 0 then v else 0)) in (fst r, rg (snd r) 0, rg (snd r) RSP)) [5; 99; 100; 0xFFFFFFFF]
     = [(0x1000, 15, 0x7008); (0x1000, 297, 0x7008); (0x1000, 7, 0x7008); (0x1000, 7, 0x7008)].
Proof.
  split; [apply built_by; [reflexivity|vm_compute; reflexivity|exact call_wf|vm_compute; reflexivity]|].
  split; vm_compute; reflexivity.
Qed.
(* a switch: mov(rdx, "tbl"); jmp(ptr [rdx + rcx * 8]); the cases; L("tbl"); putL(case 0); putL(case 1); putL(case 2) *)
Definition rcase (v : Z) : list stmt := [SIns (mov_oi eax v) (e_mov 32 eax v); SRet].
Definition tbl_mem : Operand := OMem (address0 0 false (mkRegExp (Reg64 2) (Reg64 1) 8 0)).
Definition switch_prog : program :=
  [SRef (mov_label (Reg64 2) (LStr "tbl")) (LStr "tbl") (e_movl (Reg64 2));
   SJmpTo (jmp_op tbl_mem T_AUTO) (go_to tbl_mem);
   SLabel (LStr "c0")] ++ rcase 10 ++ [SLabel (LStr "c1")] ++ rcase 21 ++ [SLabel (LStr "c2")] ++ rcase 32
  ++ [SLabel (LStr "tbl"); SPutL (LStr "c0"); SPutL (LStr "c1"); SPutL (LStr "c2"); SReady].
Lemma switch_wf : well_formed switch_prog.
Proof.
  unfold switch_prog, rcase, well_formed. cbn [app]. repeat apply Forall_cons; try exact Logic.I; try lia; try apply Forall_nil.
  - apply R_mov; [apply gprb_ok; reflexivity|reflexivity].
  - apply J_op; [split; [apply mem_okb_ok; reflexivity|discriminate]|discriminate].
  - left; refine (I_mov eax 10 _). split; [left; apply gprb_ok; reflexivity|repeat split].
  - left; refine (I_mov eax 21 _). split; [left; apply gprb_ok; reflexivity|repeat split].
  - left; refine (I_mov eax 32 _). split; [left; apply gprb_ok; reflexivity|repeat split].
Qed.
Example C52_switch :
  let s := done_st 1 UAutoGrow switch_prog in
  built (gen0 1 UAutoGrow) switch_prog s (done_sp 1 UAutoGrow switch_prog) /\ hasUndefinedLabel s = false
  /\ leads_to switch_prog 12 (LStr "c0") 2 /\ nth_error switch_prog 12 = Some (SPutL (LStr "c0"))
  /\ map (fun v => let r := mrun 32 (addr64 (c_top (g_code s)), cpu s (fun i => if i =? 1 then v else 0)) in (fst r, rg (snd r) 0, rg (snd r) RSP)) [0; 1; 2]
     = [(0x1000, 10, 0x7008); (0x1000, 21, 0x7008); (0x1000, 32, 0x7008)].
Proof.
  split; [apply built_by; [reflexivity|vm_compute; reflexivity|exact switch_wf|vm_compute; reflexivity]|].
  split; [vm_compute; reflexivity|]. split; [exists (TGlobal "c0"), (LStr "c0"); repeat split|]. split; [reflexivity|vm_compute; reflexivity].
Qed.
(* Label f, d; mov(rax, ptr [rip + d + 8]); lea(rdx, ptr [rip + f]); call(rdx); ret(); L(f); add(eax, ecx); ret(); L(d); dq(1); dq(1000) *)
Definition rip_at (h : LabelH) (n : Z) : Address := addressRip 0 false (mkRip n (Some h) false).
Definition rip_prog : program :=
  [SNewLabel 0%nat; SNewLabel 1%nat;
   SRef (mov_oo (OReg (Reg64 0)) (OMem (rip_at 1%nat 8))) (LObj 1%nat) (e_load_label (Reg64 0) (rip_at 1%nat 8));
   SRef (i_lea (Reg64 2) (rip_at 0%nat 0)) (LObj 0%nat) (e_lea_label (Reg64 2) (rip_at 0%nat 0));
   SCallTo (call_op (OReg (Reg64 2)) T_AUTO) (go_to (OReg (Reg64 2))); SRet;
   SLabel (LObj 0%nat); SIns (i_add_oo eax ecx) (e_alu2 0 32 eax ecx); SRet;
   SLabel (LObj 1%nat); SData [1; 0; 0; 0; 0; 0; 0; 0]; SData [0xE8; 3; 0; 0; 0; 0; 0; 0]; SReady].
Lemma rip_wf : well_formed rip_prog.
Proof.
  assert (forall h n, rip_label (rip_at h n) h) as HR.
  { intros h n. split; [apply rip_label_operand|split; reflexivity]. }
  unfold rip_prog, well_formed. repeat apply Forall_cons; try exact Logic.I; try lia; try apply Forall_nil.
  - apply R_load; [apply HR|apply gprb_ok; reflexivity|discriminate].
  - apply R_lea; [apply HR|apply gprb_ok; reflexivity|discriminate].
  - apply K_op; [split; [apply gprb_ok; reflexivity|now right]|discriminate].
  - left; refine (I_alu2 0 i_add_oi i_add_oo eax ecx _ _ _); [now left| |reflexivity].
    split; [left; apply gprb_ok; reflexivity|]. split; [apply gprb_ok; reflexivity|]. intros _. constructor; [discriminate|]. constructor; [discriminate|constructor].
Qed.
Example C52_rip :
  let s := done_st 1 UAutoGrow rip_prog in
  built (gen0 1 UAutoGrow) rip_prog s (done_sp 1 UAutoGrow rip_prog) /\ hasUndefinedLabel s = false
  /\ (let r := mrun 32 (addr64 (c_top (g_code s)), cpu s (fun i => if i =? 1 then 23 else 0)) in fst r = 0x1000 /\ rg (snd r) 0 = 1023 /\ rg (snd r) RSP = 0x7008).
Proof.
  split; [apply built_by; [reflexivity|vm_compute; reflexivity|exact rip_wf|vm_compute; reflexivity]|].
  split; [vm_compute; reflexivity|]. repeat split; vm_compute; reflexivity.
Qed.
