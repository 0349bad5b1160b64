(* Property theorems C58: sample/bf.cpp compiles Brainfuck correctly: the code that its calls generate, executed by the processor,
   does what the Brainfuck program means (SpecBf), with the same input and output. *)
From Coq Require Import ZArith List Bool String Ascii Lia.
From Verif Require Import Base Types Emit EmitFacts Encode Mnemonic SpecX86 SpecLeg SpecCond SpecExec SpecMach State Code Label Gen SpecLabel LabelThms Grow LabelThms6 RunCheck SpecProg ProgInsn ProgMach ProgHist ProgSim ProgSum ProgThms PropProg SpecBf SpecBfRun Bf BfRun BfMore.
Import ListNotations.
Open Scope list_scope.
Open Scope Z_scope.

(* a text with matching brackets never takes from an empty stack; its calls are those of its structure, all with a known meaning *)
Theorem C58_calls : forall t b, parse t = Some b -> bf_prog t = Some (whole b) /\ well_formed (whole b).
Proof. exact (fun t b H => conj (bf_prog_comp t b H) (whole_wf b)). Qed.
Print Assumptions C58_calls.
(* whatever the Brainfuck program has done after any number of commands, the processor does: same input read, same output, same
   cells; for every buffer, every C library that follows the ABI, every tape of at most 2^31 bytes *)
Theorem C58_run : forall b s0 s a lib x N, built s0 (whole b) s a -> putchar lib = addr64 (rg x 7) -> getchar lib = addr64 (rg x 6) ->
  apart lib s (rg x 2) N (rg x RSP) -> conforms lib (callers s (rg x 2) N (rg x RSP)) -> forall m, loaded s x ->
  (forall i, 0 <= i < N -> mm x (addr64 (rg x 2 + i)) = m i /\ 0 <= m i < 256) ->
  forall inp c, bsteps N (mkB b [] m 0 inp []) c -> exists ip y, io lib (addr64 (c_top (g_code s)), x, inp, []) (ip, y, input c, output c)
    /\ rg y 12 = addr64 (rg x 2 + here c) /\ forall i, 0 <= i < N -> mm y (addr64 (rg x 2 + i)) = cells c i.
Proof. exact run_state. Qed.
Print Assumptions C58_run.
(* a program that ends returns to its caller, with the stack and rbx, rbp, r12 as they were *)
Theorem C58_returns : forall b s0 s a lib x N, built s0 (whole b) s a -> putchar lib = addr64 (rg x 7) -> getchar lib = addr64 (rg x 6) ->
  apart lib s (rg x 2) N (rg x RSP) -> conforms lib (callers s (rg x 2) N (rg x RSP)) -> forall m, loaded s x ->
  (forall i, 0 <= i < N -> mm x (addr64 (rg x 2 + i)) = m i /\ 0 <= m i < 256) ->
  forall inp c, bsteps N (mkB b [] m 0 inp []) c -> all_done c -> exists y, io lib (addr64 (c_top (g_code s)), x, inp, []) (ret_addr x, y, input c, output c)
    /\ rg y RSP = addr64 (rg x RSP + 8) /\ rg y 3 = addr64 (rg x 3) /\ rg y 5 = addr64 (rg x 5) /\ rg y 12 = addr64 (rg x 12)
    /\ forall i, 0 <= i < N -> mm y (addr64 (rg x 2 + i)) = cells c i.
Proof. exact run_done. Qed.
Print Assumptions C58_returns.
(* there is one run only: of two runs from the same state one continues the other *)
Theorem C58_one_run : forall lib d e, io lib d e -> forall f, io lib d f -> io lib e f \/ io lib f e.
Proof. exact io_one. Qed.
Print Assumptions C58_one_run.

(* ---- instances ---- *)
Definition text (s : string) : list ascii := list_ascii_of_string s.
(* reads a and b, prints a + b, then doubles it; comments are skipped *)
Definition sum_text := text ",>,[<+>-]<.  [>++<-] double >.".
Definition sum_bf : bf := match parse (filter (fun c => negb (Ascii.eqb c " ")) sum_text) with Some b => b | None => End end.
Definition sum_code : program := whole sum_bf.
Definition bf_st := done_st 100000 UNull sum_code.
Definition bf_cpu (s : St) : st :=
  SpecExec.mkSt (fun i => if i =? RSP then 0x7000 else if i =? 7 then 0x500 else if i =? 6 then 0x600 else if i =? 2 then 0x8000 else 77)
       (fun z => let k := z - c_top (g_code s) in if (0 <=? k) && (k <? c_size (g_code s)) then c_mem (g_code s) k else if z =? 0x7001 then 0x10 else 0)
       (mkFlags false false false false false) (fun _ => false) (mkV (fun _ => 0) (fun _ => 0) (fun _ _ _ _ => 0)).
Example C58_hypotheses :
  bf_prog (filter (fun c => negb (Ascii.eqb c " ")) sum_text) = Some sum_code
  /\ built (gen0 100000 UNull) sum_code bf_st (done_sp 100000 UNull sum_code) /\ hasUndefinedLabel bf_st = false
  /\ apart (lib0 0x500 0x600) bf_st 0x8000 1000 0x7000 /\ (forall mine, conforms (lib0 0x500 0x600) mine) /\ loaded bf_st (bf_cpu bf_st)
  /\ (forall i, 0 <= i < 1000 -> mm (bf_cpu bf_st) (addr64 (0x8000 + i)) = 0).
Proof.
  assert (T : c_top (g_code bf_st) = 0x10000000) by (vm_compute; reflexivity). assert (Z : c_size (g_code bf_st) = 119) by (vm_compute; reflexivity).
  split; [apply bf_prog_comp; vm_compute; reflexivity|]. split; [apply built_by; [reflexivity|vm_compute; reflexivity|apply whole_wf|vm_compute; reflexivity]|].
  split; [vm_compute; reflexivity|]. split; [apply apart_small; rewrite ?T, ?Z; lia|]. split; [intros; apply lib0_conforms; discriminate|]. split.
  - intros k Hk. rewrite T, Z in *. unfold bf_cpu. cbn [mm]. rewrite T, Z. unfold addr64. rewrite Z.mod_small by lia. replace (0x10000000 + k - 0x10000000) with k by ring.
    now replace ((0 <=? k) && (k <? 119)) with true by (symmetry; apply andb_true_iff; lia).
  - intros i Hi. unfold bf_cpu. cbn [mm]. rewrite T, Z. unfold addr64. rewrite Z.mod_small by lia.
    replace ((0 <=? 0x8000 + i - 0x10000000) && (0x8000 + i - 0x10000000 <? 119)) with false by (symmetry; apply andb_false_iff; lia).
    destruct (Z.eqb_spec (0x8000 + i) 0x7001); [lia|reflexivity].
Qed.
(* the Brainfuck program and the processor, for the input 3, 2 *)
Example C58_sum :
  (let c := brun 200 (mkB sum_bf [] (fun _ => 0) 0 [3; 2] []) in all_done c /\ output c = [5; 10])
  /\ (let '(ip, x, i, o) := iorun (lib0 0x500 0x600) 400 (addr64 (c_top (g_code bf_st)), bf_cpu bf_st, [3; 2], []) in (ip, i, o, rg x RSP, rg x 3))
     = (0x1000, [], [5; 10], 0x7008, 77).
Proof. split; [repeat split; vm_compute; reflexivity|vm_compute; reflexivity]. Qed.

(* ---- what goes wrong ---- *)
(* sample/bf.cpp:112-131: an unmatched "[" is not reported: all calls succeed and the jump out of the loop, whose label is never
   defined, is 0F 84 00 00 00 00 (a jump to the next instruction); an unmatched "]" takes from an empty std::stack *)
Theorem C58_unmatched_refuted :
  (exists p, bf_prog (text "[") = Some p /\ let s := done_st 100000 UNull p in
     okb (runb (gen0 100000 UNull) spec0 (map op_of p)) = true /\ hasUndefinedLabel s = true
     /\ map (c_mem (g_code s)) (map (fun i => 20 + Z.of_nat i) (seq 0 6)) = [0x0F; 0x84; 0; 0; 0; 0])
  /\ bf_prog (text "]") = None.
Proof. split; [eexists; split; [reflexivity|]; repeat split; vm_compute; reflexivity|reflexivity]. Qed.
Print Assumptions C58_unmatched_refuted.
