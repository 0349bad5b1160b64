(* Property theorems C61: the function that sample/test0.cpp (class Sample) builds returns the sum of the numbers up to its argument. *)
From Coq Require Import ZArith List Bool String Lia.
From Verif Require Import Base Types Emit EmitFacts Encode Mnemonic SpecX86 SpecLeg SpecCond SpecExec SpecMach Wf ArgCheck State Code Label Gen CodeFacts SpecLabel LabelHist LabelThms Grow LabelThms6 RunCheck SpecProg ProgInsn ProgMach RipThms ProgRef ProgHist ProgSim ProgSum ProgThms Test0 PropProg.
Import ListNotations.
Open Scope list_scope.
Open Scope Z_scope.

(* the calls of the constructor are instructions of C52 with their meaning *)
Theorem C61_calls : well_formed sample_prog.
Proof. exact sample_wf. Qed.
Print Assumptions C61_calls.
(* called with edi = n it returns 0 + 1 + .. + n in eax, writes no memory and leaves the stack as a return does *)
Theorem C61_sum : forall s0 s a x n, built s0 sample_prog s a -> loaded s x -> rg x 7 mod 2 ^ 32 = n -> n < 2 ^ 32 - 1 -> exists y,
  msteps (addr64 (c_top (g_code s)), x) (addr64 (load (mm x) (rg x RSP) 8), y) /\ mm y = mm x /\ rg y RSP = addr64 (rg x RSP + 8)
  /\ rg y 0 mod 2 ^ 32 = (n * (n + 1) / 2) mod 2 ^ 32.
Proof. exact sample_runs. Qed.
Print Assumptions C61_sum.
(* sample/test0.cpp:33-34: the loop goes on while edx <= ecx; for n = 2^32 - 1 (Sample called with -1) that always holds: the
   function enters the loop, and whatever number of instructions it executes then, it is at one of the four instructions of the loop
   and can go on; it never returns *)
Theorem C61_endless_refuted : forall s0 s a x, built s0 sample_prog s a -> loaded s x -> rg x 7 mod 2 ^ 32 = 2 ^ 32 - 1 -> exists c,
  msteps (addr64 (c_top (g_code s)), x) c /\ forall c', msteps c c' -> inside s0 s c' /\ exists c2, mstep (fst c') (snd c') = Some c2.
Proof. exact sample_endless. Qed.
Print Assumptions C61_endless_refuted.

(* ---- instances ---- *)
Example C61_hypotheses : let s := done_st 4096 UNull sample_prog in
  built (gen0 4096 UNull) sample_prog s (done_sp 4096 UNull sample_prog) /\ hasUndefinedLabel s = false /\ (forall r, loaded s (cpu s r))
  /\ map (c_mem (g_code s)) (map Z.of_nat (seq 0 19)) = [0x89; 0xF9; 0x31; 0xC0; 0x85; 0xC9; 0x74; 0x0A; 0x31; 0xD2; 0x01; 0xD0; 0xFF; 0xC2; 0x39; 0xCA; 0x76; 0xF8; 0xC3]
  /\ map (fun v => let r := mrun 60 (addr64 (c_top (g_code s)), cpu s (fun i => if i =? 7 then v else 0)) in (fst r, rg (snd r) 0)) [0; 1; 2; 10] = [(0x1000, 0); (0x1000, 1); (0x1000, 3); (0x1000, 55)].
Proof.
  cbv zeta. split; [apply built_by; [reflexivity|vm_compute; reflexivity|exact sample_wf|vm_compute; reflexivity]|].
  split; [vm_compute; reflexivity|]. split; [intros r; apply cpu_loaded; vm_compute; discriminate|]. split; vm_compute; reflexivity.
Qed.
