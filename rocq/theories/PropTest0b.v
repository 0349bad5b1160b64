(* Property theorems C61, continued: the other functions of sample/test0.cpp. *)
From Coq Require Import ZArith List Bool String Lia.
From Verif Require Import Base Types Emit EmitFacts Encode Mnemonic SpecX86 SpecLeg SpecCond SpecExec SpecMach Wf ArgCheck State Code Label Gen CodeFacts SpecLabel LabelHist LabelThms Grow LabelThms6 RunCheck SpecProg ProgInsn ProgMach RipThms ProgRef ProgHist ProgSim ProgSum ProgThms PropProg Test0b Test0c.
Import ListNotations.
Open Scope list_scope.
Open Scope Z_scope.

(* AddFunc(y): ptr[edi + y] is the operand of lea *)
Theorem C61_add_operand : forall y env pos,
  Emit.bind (regExpReg (Reg32 7) 1) (fun r => Emit.bind (regExpAdd r (regExpDisp y)) (frameAt 0 false)) env pos = Emit.ret (edi_plus y) env pos.
Proof. exact edi_plus_ok. Qed.
Print Assumptions C61_add_operand.
(* all calls are instructions of C52 with their meaning *)
Theorem C61_other_calls : (forall y, well_formed (add_prog y)) /\ (forall f, well_formed (jmp_prog f)) /\ (forall f, well_formed (Test0b.call_prog f)) /\ (forall v, well_formed (init_prog v)).
Proof. exact (conj add_wf (conj jmp_wf (conj Test0b.call_wf (fun v => body_wf (adds v) v)))). Qed.
Print Assumptions C61_other_calls.
(* AddFunc(y) returns edi + y in eax; nothing else changes but the stack pointer, as a return does *)
Theorem C61_add : forall s0 s a y x, built s0 (add_prog y) s a -> loaded s x -> exists z,
  msteps (addr64 (c_top (g_code s)), x) (addr64 (load (mm x) (rg x RSP) 8), z) /\ rg z 0 = (rg x 7 + y) mod 2 ^ 32
  /\ mm z = mm x /\ fl z = fl x /\ rg z RSP = addr64 (rg x RSP + 8) /\ forall r, r <> RSP -> r <> 0 -> rg z r = rg x r.
Proof. exact add_runs. Qed.
Print Assumptions C61_add.
(* JmpAtoi goes to the function f with the arguments and the stack of its own call, only rax is changed: f returns to the caller *)
Theorem C61_jmp : forall s0 s a f x, built s0 (jmp_prog f) s a -> loaded s x ->
  msteps (addr64 (c_top (g_code s)), x) (addr64 f, set_reg x 0 (f mod 2 ^ 64)).
Proof. exact jmp_runs. Qed.
Print Assumptions C61_jmp.
(* CallAtoi goes to f with a return address r pushed; from r on, with whatever registers and memory f leaves, it returns *)
Theorem C61_call : forall s0 s a f x, built s0 (Test0b.call_prog f) s a -> loaded s x -> exists r,
  msteps (addr64 (c_top (g_code s)), x) (addr64 f, do_push 64 r (set_reg x 0 (f mod 2 ^ 64)))
  /\ forall z, loaded s z -> msteps (r, z) (addr64 (load (mm z) (rg z RSP) 8), set_reg z RSP (addr64 (rg z RSP + 8))).
Proof. exact call_runs. Qed.
Print Assumptions C61_call.
(* Reset::init(v) builds a function that returns (10 - v) times the sum 1 + .. + v (0 for v > 10) *)
Theorem C61_reset : forall s0 s a v x, let n := v mod 2 ^ 32 in built s0 (init_prog v) s a -> loaded s x -> exists y,
  msteps (addr64 (c_top (g_code s)), x) (addr64 (load (mm x) (rg x RSP) 8), y) /\ mm y = mm x /\ rg y RSP = addr64 (rg x RSP + 8)
  /\ rg y 0 mod 2 ^ 32 = (Z.max 0 (10 - v) * (n * (n + 1) / 2)) mod 2 ^ 32.
Proof. exact init_runs. Qed.
Print Assumptions C61_reset.

(* ---- instances ---- *)
Definition code_of (p : program) (n : nat) : list Z := map (c_mem (g_code (done_st 4096 UNull p))) (map Z.of_nat (seq 0 n)).
Definition call_it (p : program) (v : Z) : Z * Z :=
  let s := done_st 4096 UNull p in let r := mrun 200 (addr64 (c_top (g_code s)), cpu s (fun i => if i =? 7 then v else 0)) in (fst r, rg (snd r) 0).
Lemma ex_built p : okb (runb (gen0 4096 UNull) spec0 (map op_of p)) = true -> well_formed p ->
  (if isAutoGrowC (g_code (done_st 4096 UNull p)) then sp_ready (done_sp 4096 UNull p) else true) = true -> built (gen0 4096 UNull) p (done_st 4096 UNull p) (done_sp 4096 UNull p).
Proof. intros H1 H2 H3. apply built_by; [reflexivity|exact H1|exact H2|exact H3]. Qed.
Example C61_add_instance : built (gen0 4096 UNull) (add_prog 5) (done_st 4096 UNull (add_prog 5)) (done_sp 4096 UNull (add_prog 5))
  /\ code_of (add_prog 5) 5 = [0x67; 0x8D; 0x47; 0x05; 0xC3] /\ call_it (add_prog 5) 3 = (0x1000, 8) /\ call_it (add_prog (-5)) 3 = (0x1000, 0xFFFFFFFE).
Proof. split; [apply ex_built; [vm_compute; reflexivity|apply add_wf|vm_compute; reflexivity]|]. split; [vm_compute; reflexivity|]. split; vm_compute; reflexivity. Qed.
Example C61_jmp_instance : built (gen0 4096 UNull) (jmp_prog 0x7F0000001000) (done_st 4096 UNull (jmp_prog 0x7F0000001000)) (done_sp 4096 UNull (jmp_prog 0x7F0000001000))
  /\ code_of (jmp_prog 0x7F0000001000) 12 = [0x48; 0xB8; 0x00; 0x10; 0x00; 0x00; 0x00; 0x7F; 0x00; 0x00; 0xFF; 0xE0].
Proof. split; [apply ex_built; [vm_compute; reflexivity|apply jmp_wf|vm_compute; reflexivity]|]. vm_compute; reflexivity. Qed.
Example C61_call_instance : built (gen0 4096 UNull) (Test0b.call_prog 0x1234) (done_st 4096 UNull (Test0b.call_prog 0x1234)) (done_sp 4096 UNull (Test0b.call_prog 0x1234))
  /\ code_of (Test0b.call_prog 0x1234) 8 = [0xB8; 0x34; 0x12; 0x00; 0x00; 0xFF; 0xD0; 0xC3].
Proof. split; [apply ex_built; [vm_compute; reflexivity|apply Test0b.call_wf|vm_compute; reflexivity]|]. vm_compute; reflexivity. Qed.
Example C61_reset_instance : built (gen0 4096 UNull) (init_prog 3) (done_st 4096 UNull (init_prog 3)) (done_sp 4096 UNull (init_prog 3))
  /\ (forall r, loaded (done_st 4096 UNull (init_prog 3)) (cpu (done_st 4096 UNull (init_prog 3)) r))
  /\ map (fun v => call_it (init_prog v) 0) [0; 1; 3; 9; 11] = [(0x1000, 0); (0x1000, 9); (0x1000, 42); (0x1000, 45); (0x1000, 0)].
Proof.
  split; [apply ex_built; [vm_compute; reflexivity|apply body_wf|vm_compute; reflexivity]|]. split; [intros r; apply cpu_loaded; vm_compute; discriminate|]. vm_compute; reflexivity.
Qed.
