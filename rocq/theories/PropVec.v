(* Property theorems C54: what vector methods emit, executed by a processor, is the operation of their name on the lanes of
   the operands as written, with mask, zeroing, broadcast and rounding (SpecVec, SpecVecRun; the instructions: VecIsa). *)
From Coq Require Import ZArith List Bool String Lia.
From Verif Require Import Base Types Emit EmitFacts Encode Mnemonic SpecX86 SpecAddr SpecIsa SpecInsn SpecLeg SpecCond SpecExec SpecVec IsaRows VecIsa SpecVecRun SpecMach Wf ArgCheck State Code Label Gen CodeFacts SpecLabel LabelHist LabelThms RunCheck SpecProg VexTables VecFacts VecExec VecRun ProgInsn ProgMach VecInsn ProgRef ProgHist ProgSim ProgSum ProgThms ProgVec PropProg.
Import ListNotations.
Open Scope list_scope.
Open Scope Z_scope.

(* the methods of the table of C18 whose name is an instruction of VecIsa *)
Theorem C54_methods : forall enc e row m, In e (vex_table enc) -> vec_named (en_name e) = Some (row, m) -> executes true vec_proc e m.
Proof. exact table_executes. Qed.
Print Assumptions C54_methods.
(* and those of the table without rounding modifiers *)
Theorem C54_methods_no_rounding : forall enc e row m, In e (vex_table_norc enc) -> vec_named (en_name e) = Some (row, m) -> executes false vec_proc e m.
Proof. exact table_norc_executes. Qed.
Print Assumptions C54_methods_no_rounding.
(* every instruction of VecIsa is a method of these tables *)
Theorem C54_covered : forall enc t, In t vec_isa -> exists e, In e (vex_table enc ++ vex_table_norc enc) /\ en_name e = fst (fst t).
Proof. exact proc_covered. Qed.
Print Assumptions C54_covered.
(* lane i of the destination: the operation on lanes i of the sources where the mask allows, else zero or unchanged *)
Theorem C54_lane : forall o es vl imm r src s i, opmask r = false -> 0 < es -> 0 <= i < vl / es ->
  let ops := OReg r :: src in let k := pick (map omask ops) in
  lane es i (vx (means (MLane o es) vl imm ops s) (regno r)) =
  if (k =? 0) || Z.testbit (vk s k) i
  then apply (fpu (vu s)) o es (pick (map ornd ops)) imm (lane es i (vx s (regno r))) (map (fun q => lane es i (source (MLane o es) vl (existsb bcast ops) s (where_ s q))) src) mod 2 ^ es
  else if existsb ozero ops then 0 else lane es i (vx s (regno r)).
Proof. exact means_lane. Qed.
Print Assumptions C54_lane.
(* the lanes above the vector length become zero *)
Theorem C54_above : forall o es vl imm r src s i, opmask r = false -> 0 < es -> 0 <= vl -> vl / es <= i ->
  lane es i (vx (means (MLane o es) vl imm (OReg r :: src) s) (regno r)) = 0.
Proof. exact means_above. Qed.
Print Assumptions C54_above.
(* nothing else changes *)
Theorem C54_rest : forall o es vl imm r src s, opmask r = false -> let s' := means (MLane o es) vl imm (OReg r :: src) s in
  rg s' = rg s /\ mm s' = mm s /\ fl s' = fl s /\ vk s' = vk s /\ forall n, n <> regno r -> vx s' n = vx s n.
Proof. exact means_rest. Qed.
Print Assumptions C54_rest.
(* lane i of a vector in memory is the number at its own address *)
Theorem C54_memory_lane : forall m a n w i, bytes_mem m -> 0 <= i -> Z.of_nat w * i + Z.of_nat w <= Z.of_nat n ->
  lane (8 * Z.of_nat w) i (load m a n) = load m (a + Z.of_nat w * i) w.
Proof. exact lane_load. Qed.
Print Assumptions C54_memory_lane.
(* vector calls are statements of the programs of C52 *)
Theorem C54_statement : forall m f, vinsn m f -> encoded m f.
Proof. exact vinsn_encoded. Qed.
Print Assumptions C54_statement.
(* vpxor(ymm0, ymm0, ymm0); L("lp"); vpaddd(ymm0, ymm0, ptr [rsi]); add(rsi, 32); sub(ecx, 1); jnz("lp"); ret(); called with
   ecx = n > 0 returns in ymm0 the sums of the eight columns of the table of n rows at rsi, for every n and every table *)
Theorem C54_vector_sum : forall s0 s a, built s0 vsum_prog s a -> forall n x, loaded s x -> bytes_mem (mm x) -> rg x 1 mod 2 ^ 32 = n -> 1 <= n -> exists x',
  msteps (addr64 (c_top (g_code s)), x) (addr64 (load (mm x) (rg x RSP) 8), x') /\ mm x' = mm x /\ rg x' RSP = addr64 (rg x RSP + 8)
  /\ forall i, 0 <= i < 8 -> lane 32 i (vx x' 0) = col (mm x) (rg x 6 + 4 * i) (Z.to_nat n) mod 2 ^ 32.
Proof. exact vsum_runs. Qed.
Print Assumptions C54_vector_sum.

(* ---- instances ---- *)
Example C54_size : List.length vec_isa = 427%nat. Proof. reflexivity. Qed.
Definition vbytes (m : E unit) : list Z := render (fun _ _ _ => 0) (fst (m (mkEnv false 0 false false VexEncoding PreAVX10v2Encoding) 0)).
(* vpaddd(zmm1|k1|T_z, zmm2, ptr_b [rsi]) *)
Definition bc_ops : list Operand := [OReg (setZero (set_mask (Zmm 1) 1)); OReg (Zmm 2); OMem (address0 0 true (mkRegExp (Reg64 6) noReg 0 0))].
Definition bc_act : E unit := i_vpaddd_xxo (setZero (set_mask (Zmm 1) 1)) (Zmm 2) (OMem (address0 0 true (mkRegExp (Reg64 6) noReg 0 0))).
(* vaddps(zmm1|k1, zmm2, zmm3|T_ru_sae) *)
Definition rn_ops : list Operand := [OReg (set_mask (Zmm 1) 1); OReg (Zmm 2); OReg (set_rounding (Zmm 3) 3)].
Definition rn_act : E unit := i_vaddps (set_mask (Zmm 1) 1) (OReg (Zmm 2)) (OReg (set_rounding (Zmm 3) 3)).
Definition vst : st := SpecExec.mkSt (fun i => if i =? 6 then 0x2000 else 0) (fun z => if z =? 0x2000 then 100 else 0) (mkFlags false false false false false) (fun _ => false)
  (mkV (fun i => if i =? 1 then 5 + 6 * 2 ^ 32 else if i =? 2 then 1 + 2 * 2 ^ 32 + 3 * 2 ^ 64 else 7) (fun i => if i =? 1 then 5 else 0) (fun _ w r l => match l with [a; b] => a + b + r | _ => 0 end)).
Example C54_hypotheses :
  vinsn bc_act (means (MLane Add 32) 512 0 bc_ops) /\ vbytes bc_act = [0x62; 0xF1; 0x6D; 0xD9; 0xFE; 0x0E]
  /\ map (fun i => lane 32 i (vx (means (MLane Add 32) 512 0 bc_ops vst) 1)) [0; 1; 2; 3] = [101; 0; 103; 0]
  /\ option_map (fun r => (fst r, vx (snd r) 1)) (xexec 0 (vbytes bc_act ++ [0xC3]) vst) = Some ([0xC3], 101 + 103 * 2 ^ 64)
  /\ vinsn rn_act (means (MLane (Fp FAdd) 32) 512 0 rn_ops) /\ vbytes rn_act = [0x62; 0xF1; 0x6C; 0x59; 0x58; 0xCB]
  /\ map (fun i => lane 32 i (vx (means (MLane (Fp FAdd) 32) 512 0 rn_ops vst) 1)) [0; 1; 2] = [1 + 7 + 3; 6; 3 + 0 + 3].
Proof.
  split; [exact (vinsn_by true e_vpaddd r_vpaddd_xxo (MLane Add 32) bc_ops 0 _ 202 eq_refl eq_refl eq_refl eq_refl)|].
  split; [vm_compute; reflexivity|]. split; [vm_compute; reflexivity|]. split; [vm_compute; reflexivity|].
  split; [exact (vinsn_by true (mkEntry "vaddps/xoo" [cX; cX; cO] (roo i_vaddps) r_vaddps_xoo VlRegs) r_vaddps_xoo (MLane (Fp FAdd) 32) rn_ops 0 _ 0 eq_refl eq_refl eq_refl eq_refl)|].
  split; vm_compute; reflexivity.
Qed.
(* three rows at 0x2000: the bytes of row k are k + 1 *)
Definition vcpu (s : St) : st :=
  SpecExec.mkSt (fun i => if i =? RSP then 0x7000 else if i =? 6 then 0x2000 else if i =? 1 then 3 else 0)
       (fun z => let k := z - c_top (g_code s) in if (0 <=? k) && (k <? c_size (g_code s)) then c_mem (g_code s) k else if z =? 0x7001 then 0x10
                 else if (0x2000 <=? z) && (z <? 0x2060) then (z - 0x2000) / 32 + 1 else 0)
       (mkFlags false false false false false) (fun _ => false) (mkV (fun _ => 99) (fun _ => 0) (fun _ _ _ _ => 0)).
Example C54_sum_hypotheses : let s := done_st 100 UNull vsum_prog in
  built (gen0 100 UNull) vsum_prog s (done_sp 100 UNull vsum_prog) /\ loaded s (vcpu s) /\ bytes_mem (mm (vcpu s))
  /\ map (c_mem (g_code s)) (map Z.of_nat (seq 0 18)) = [0xC5; 0xFD; 0xEF; 0xC0; 0xC5; 0xFD; 0xFE; 0x06; 0x48; 0x83; 0xC6; 0x20; 0x83; 0xE9; 0x01; 0x75; 0xF3; 0xC3]
  /\ (let r := mrun 40 (addr64 (c_top (g_code s)), vcpu s) in fst r = 0x1000 /\ map (fun i => lane 32 i (vx (snd r) 0)) [0; 7; 8] = [0x06060606; 0x06060606; 0]).
Proof.
  cbv zeta. split; [apply built_by; [reflexivity|vm_compute; reflexivity|exact vsum_wf|vm_compute; reflexivity]|].
  split; [|split; [|split; [vm_compute; reflexivity|split; vm_compute; reflexivity]]].
  - set (s := done_st 100 UNull vsum_prog). assert (0 <= c_top (g_code s)) by (vm_compute; discriminate). assert (c_top (g_code s) + c_size (g_code s) <= 2 ^ 64) by (vm_compute; discriminate).
    intros k Hk. unfold vcpu. cbn [mm]. unfold addr64. rewrite Z.mod_small by lia. replace (c_top (g_code s) + k - c_top (g_code s)) with k by ring.
    now replace ((0 <=? k) && (k <? c_size (g_code s))) with true by (symmetry; apply andb_true_iff; lia).
  - set (s := done_st 100 UNull vsum_prog).
    assert (forallb (fun k => (0 <=? c_mem (g_code s) k) && (c_mem (g_code s) k <? 256)) (map Z.of_nat (seq 0 (Z.to_nat (c_size (g_code s))))) = true) as B by (vm_compute; reflexivity).
    rewrite forallb_forall in B. intros z. unfold vcpu. cbn [mm].
    destruct ((0 <=? z - c_top (g_code s)) && (z - c_top (g_code s) <? c_size (g_code s))) eqn:Ez.
    + apply andb_prop in Ez as [E1 E2]. specialize (B (z - c_top (g_code s))). assert (In (z - c_top (g_code s)) (map Z.of_nat (seq 0 (Z.to_nat (c_size (g_code s)))))) as Hin.
      { apply in_map_iff. exists (Z.to_nat (z - c_top (g_code s))). split; [lia|]. apply in_seq. lia. }
      specialize (B Hin). cbv beta in B. lia.
    + destruct (z =? 0x7001); [lia|]. destruct ((0x2000 <=? z) && (z <? 0x2060)) eqn:E2; [|lia]. apply andb_prop in E2 as [E2 E3].
      assert (0 <= (z - 0x2000) / 32 < 3); [|lia]. split; [apply Z.div_pos; lia|apply Z.div_lt_upper_bound; lia].
Qed.
