(* Property theorems C55: what SSE methods emit, executed by a processor, is the operation of their name on the lanes of the
   operands as written; the first operand is destination and source, and the upper part of its register keeps its value
   (SpecSse, SpecSseRun; the instructions: SseIsa). *)
From Coq Require Import ZArith List Bool String Lia.
From Verif Require Import Base Types Emit EmitFacts Encode Mnemonic SpecX86 SpecAddr SpecIsa SpecInsn SpecLeg SpecMix SpecCond SpecExec SpecVec SpecSse SpecSseRun SseIsa SpecMach Wf ArgCheck State Code Label Gen CodeFacts SpecLabel LabelHist LabelThms RunCheck SpecProg LegTables MixTables VecFacts SseMean SseRun ProgInsn ProgMach SseInsn ProgRef ProgHist ProgSim ProgSum ProgThms ProgVec ProgSse PropProg.
Import ListNotations.
Open Scope list_scope.
Open Scope Z_scope.

(* the methods of the table of C20 whose name is an instruction of SseIsa *)
Theorem C55_methods : forall e q, In e legacy_table -> sse_named (le_name e) = Some q -> sse_method sse_proc e q.
Proof. exact sse_methods. Qed.
Print Assumptions C55_methods.
(* and the stores *)
Theorem C55_stores : forall e q, In e mix_table -> sse_named (me_name e) = Some q -> sse_store sse_proc e q.
Proof. exact sse_stores. Qed.
Print Assumptions C55_stores.
(* every instruction of SseIsa is a method of these tables *)
Theorem C55_covered : forall t, In t sse_isa -> (exists e, In e legacy_table /\ le_name e = fst t) \/ (exists e, In e mix_table /\ me_name e = fst t).
Proof. exact sse_covered. Qed.
Print Assumptions C55_covered.
(* lane i of the destination: the operation on lanes i of the destination and the source (or of the source alone) *)
Theorem C55_lane : forall q imm r src s, opmask r = false -> is_one (q_m q) = false -> forall o es i, q_m q = MLane o es -> 0 < es -> 0 <= i < 128 / es ->
  lane es i (vx (smeans q imm [OReg r; src] s) (regno r)) =
  apply (fpu (vu s)) o es 0 (if q_imm q then imm else 0) (lane es i (vx s (regno r)))
    (map (fun l => lane es i (source (MLane o es) 128 false s l)) (match q_form q with Two => [XReg (regno r); where_ s src] | _ => [where_ s src] end)) mod 2 ^ es.
Proof. exact smeans_lane. Qed.
Print Assumptions C55_lane.
(* bits 128 and up of the destination do not change *)
Theorem C55_upper : forall q imm r src s, opmask r = false -> is_one (q_m q) = false ->
  vx (smeans q imm [OReg r; src] s) (regno r) / low128 = vx s (regno r) / low128.
Proof. exact smeans_upper. Qed.
Print Assumptions C55_upper.
(* nothing else changes *)
Theorem C55_rest : forall q imm r src s, opmask r = false -> is_one (q_m q) = false -> let s' := smeans q imm [OReg r; src] s in
  rg s' = rg s /\ mm s' = mm s /\ fl s' = fl s /\ vk s' = vk s /\ forall n, n <> regno r -> vx s' n = vx s n.
Proof. exact smeans_rest. Qed.
Print Assumptions C55_rest.
(* SSE calls are statements of the programs of C52 *)
Theorem C55_statement : forall m f, sinsn m f -> encoded m f.
Proof. exact sinsn_encoded. Qed.
Print Assumptions C55_statement.
(* L("lp"); movups(xmm0, ptr [rsi]); movups(xmm1, ptr [rdx]); addps(xmm0, xmm1); movups(ptr [rdi], xmm0); add(rsi, 16);
   add(rdx, 16); add(rdi, 16); sub(ecx, 1); jnz("lp"); ret(); called with ecx = n > 0 writes to rdi the 4n sums of the floats
   at rsi and rdx and nothing else, for every n and all arrays, if the destination does not overlap the arrays, the code
   and the return address *)
Theorem C55_array_sum : forall s0 s a, built s0 add_prog s a -> forall n x, loaded s x -> bytes64 (mm x) -> rg x 1 mod 2 ^ 32 = n -> 1 <= n ->
  apart s x (16 * n) -> (forall j, 0 <= j < 8 -> out (rg x 7) (16 * n) (rg x RSP + j)) -> exists x',
  msteps (addr64 (c_top (g_code s)), x) (addr64 (load (mm x) (rg x RSP) 8), x') /\ rg x' RSP = addr64 (rg x RSP + 8)
  /\ (forall z, out (rg x 7) (16 * n) z -> mm x' (addr64 z) = mm x (addr64 z)) /\ sums x (mm x') (4 * n).
Proof. exact add_runs. Qed.
Print Assumptions C55_array_sum.

(* ---- instances ---- *)
Example C55_size : List.length sse_isa = 150%nat. Proof. reflexivity. Qed.
Definition sbytes (m : E unit) : list Z := render (fun _ _ _ => 0) (fst (m (mkEnv false 0 false false VexEncoding PreAVX10v2Encoding) 0)).
Definition sst : st := SpecExec.mkSt (fun i => if i =? 6 then 0x2000 else 0) (fun z => if z =? 0x2000 then 100 else 0) (mkFlags false false false false false) (fun _ => false)
  (mkV (fun i => if i =? 0 then 5 + 6 * 2 ^ 32 + 9 * 2 ^ 128 else if i =? 1 then 1 + 2 * 2 ^ 32 + 3 * 2 ^ 64 else 7) (fun _ => 0) (fun _ w r l => match l with [a; b] => a + b + r | _ => 0 end)).
(* addps(xmm0, xmm1): the upper part of the register is kept; movups(xmm0, ptr [rsi]) *)
Example C55_hypotheses :
  sinsn (i_addps (Xmm 0) (OReg (Xmm 1))) (smeans q_addps 0 [OReg (Xmm 0); OReg (Xmm 1)]) /\ sbytes (i_addps (Xmm 0) (OReg (Xmm 1))) = [0x0F; 0x58; 0xC1]
  /\ option_map (fun r => (fst r, vx (snd r) 0)) (xexec 0 (sbytes (i_addps (Xmm 0) (OReg (Xmm 1))) ++ [0xC3]) sst) = Some ([0xC3], 6 + 8 * 2 ^ 32 + 3 * 2 ^ 64 + 9 * 2 ^ 128)
  /\ sbytes (i_movups_xo (Xmm 0) (at64 6)) = [0x0F; 0x10; 0x06]
  /\ option_map (fun r => (fst r, vx (snd r) 0)) (xexec 0 (sbytes (i_movups_xo (Xmm 0) (at64 6)) ++ [0xC3]) sst) = Some ([0xC3], 100 + 9 * 2 ^ 128).
Proof. split; [exact add_sinsn|]. repeat split; vm_compute; reflexivity. Qed.
(* two rounds: 32 bytes 1 at 0x2000, 32 bytes 2 at 0x3000, destination 0x4000 *)
Definition scpu (s : St) : st :=
  SpecExec.mkSt (fun i => if i =? RSP then 0x7000 else if i =? 6 then 0x2000 else if i =? 2 then 0x3000 else if i =? 7 then 0x4000 else if i =? 1 then 2 else 0)
       (fun z => let k := z - c_top (g_code s) in if (0 <=? k) && (k <? c_size (g_code s)) then c_mem (g_code s) k else if z =? 0x7001 then 0x10
                 else if (0x2000 <=? z) && (z <? 0x2020) then 1 else if (0x3000 <=? z) && (z <? 0x3020) then 2 else 0)
       (mkFlags false false false false false) (fun _ => false) (mkV (fun _ => 99) (fun _ => 0) (fun _ _ _ l => match l with [a; b] => a + b | _ => 0 end)).
Example C55_sum_hypotheses : let s := done_st 100 UNull add_prog in
  built (gen0 100 UNull) add_prog s (done_sp 100 UNull add_prog) /\ loaded s (scpu s) /\ bytes64 (mm (scpu s)) /\ apart s (scpu s) 32
  /\ (forall j, 0 <= j < 8 -> out (rg (scpu s) 7) 32 (rg (scpu s) RSP + j))
  /\ map (c_mem (g_code s)) (map Z.of_nat (seq 0 30)) =
     [0x0F; 0x10; 0x06; 0x0F; 0x10; 0x0A; 0x0F; 0x58; 0xC1; 0x0F; 0x11; 0x07; 0x48; 0x83; 0xC6; 0x10; 0x48; 0x83; 0xC2; 0x10; 0x48; 0x83; 0xC7; 0x10; 0x83; 0xE9; 0x01; 0x75; 0xE3; 0xC3]
  /\ (let r := mrun 40 (addr64 (c_top (g_code s)), scpu s) in fst r = 0x1000 /\ map (mm (snd r)) [0x3fff; 0x4000; 0x401f; 0x4020] = [0; 3; 3; 0]).
Proof.
  cbv zeta. split; [apply built_by; [reflexivity|vm_compute; reflexivity|exact add_wf|vm_compute; reflexivity]|].
  set (s := done_st 100 UNull add_prog). assert (0 <= c_top (g_code s)) as T0 by (vm_compute; discriminate). assert (c_top (g_code s) + c_size (g_code s) <= 2 ^ 64) as T1 by (vm_compute; discriminate).
  split; [|split; [|split; [|split; [|split; [vm_compute; reflexivity|split; vm_compute; reflexivity]]]]].
  - intros k Hk. unfold scpu. cbn [mm]. unfold addr64. rewrite Z.mod_small by lia. replace (c_top (g_code s) + k - c_top (g_code s)) with k by ring.
    now replace ((0 <=? k) && (k <? c_size (g_code s))) with true by (symmetry; apply andb_true_iff; lia).
  - assert (forallb (fun k => (0 <=? c_mem (g_code s) k) && (c_mem (g_code s) k <? 256)) (map Z.of_nat (seq 0 (Z.to_nat (c_size (g_code s))))) = true) as B by (vm_compute; reflexivity).
    rewrite forallb_forall in B. intros z0. set (z := addr64 z0). unfold scpu. cbn [mm].
    destruct ((0 <=? z - c_top (g_code s)) && (z - c_top (g_code s) <? c_size (g_code s))) eqn:Ez.
    + apply andb_prop in Ez as [E1 E2]. specialize (B (z - c_top (g_code s))). assert (In (z - c_top (g_code s)) (map Z.of_nat (seq 0 (Z.to_nat (c_size (g_code s)))))) as Hin.
      { apply in_map_iff. exists (Z.to_nat (z - c_top (g_code s))). split; [lia|]. apply in_seq. lia. }
      specialize (B Hin). cbv beta in B. lia.
    + destruct (z =? 0x7001); [lia|]. destruct ((0x2000 <=? z) && (z <? 0x2020)); [lia|]. destruct ((0x3000 <=? z) && (z <? 0x3020)); lia.
  - assert (forall b k, (b = 0x2000 \/ b = 0x3000) -> 0 <= k < 32 -> out 0x4000 32 (b + k)) as O.
    { intros b k Hb Hk. unfold out, addr64. rewrite Zminus_mod_idemp_l. replace (b + k - 0x4000) with ((b + k - 0x4000 + 2 ^ 64) + -1 * 2 ^ 64) by ring. rewrite Z.mod_add by discriminate. rewrite Z.mod_small; lia. }
    split; [|split]; [intros j Hj; apply O; auto|intros j Hj; apply O; auto|].
    assert (forallb (fun k => 32 <=? (addr64 (c_top (g_code s) + k) - 0x4000) mod 2 ^ 64) (map Z.of_nat (seq 0 (Z.to_nat (c_size (g_code s))))) = true) as B by (vm_compute; reflexivity).
    rewrite forallb_forall in B. intros c Hc. specialize (B c). apply Z.leb_le, B. apply in_map_iff. exists (Z.to_nat c). split; [lia|]. apply in_seq. lia.
  - intros j Hj. unfold out, addr64. change (rg (scpu s) 7) with 0x4000. change (rg (scpu s) RSP) with 0x7000. rewrite Zminus_mod_idemp_l, Z.mod_small; lia.
Qed.
