(* Property theorems C59: sample/calc.cpp compiles arithmetic expressions correctly. *)
From Coq Require Import ZArith List Bool String Lia.
From Verif Require Import Base Types Emit EmitFacts Encode Mnemonic SpecX86 SpecLeg SpecCond SpecExec SpecVec SpecMach State Code Label Gen SpecLabel LabelThms Grow LabelThms6 RunCheck SpecProg ProgInsn ProgMach ProgHist ProgSim ProgSum ProgThms PropProg SpecCalc Calc CalcRun.
Import ListNotations.
Open Scope list_scope.
Open Scope Z_scope.

(* exactly the expressions that need at most 8 registers, have at most 32 numbers and known variables are compiled *)
Theorem C59_accepted : forall names tbl e, (exists r, calc names tbl e = Fine r) <-> accepted names e.
Proof. exact calc_accepted. Qed.
Print Assumptions C59_accepted.
(* all calls made are instructions with a known meaning; the table of constants holds the numbers of the expression *)
Theorem C59_calls : forall names tbl e p cs, calc names tbl e = Fine (p, cs) -> well_formed p /\ cs = nums e.
Proof. exact calc_calls. Qed.
Print Assumptions C59_calls.
(* the function generated returns the value of the expression in xmm0, for all values of the variables (double *rdi), whatever the
   floating-point operations compute; memory and all registers but rsi, rsp and vector registers are as before *)
Theorem C59_value : forall names tbl e p cs s0 s a x env, calc names tbl e = Fine (p, cs) -> built s0 p s a -> loaded s x ->
  (forall j v, nth_error cs j = Some v -> load (mm x) (tbl + 8 * Z.of_nat j) 8 mod 2 ^ 64 = v mod 2 ^ 64) ->
  (forall j v, nth_error names j = Some v -> load (mm x) (rg x 7 + 8 * Z.of_nat j) 8 mod 2 ^ 64 = env v mod 2 ^ 64) ->
  exists y, msteps (addr64 (c_top (g_code s)), x) (addr64 (load (mm x) (rg x RSP) 8), y) /\ low y 0 = eval (fp x) env e
    /\ mm y = mm x /\ fl y = fl x /\ rg y RSP = addr64 (rg x RSP + 8) /\ forall r, r <> RSP -> r <> 6 -> rg y r = rg x r.
Proof. exact calc_runs. Qed.
Print Assumptions C59_value.

(* ---- instances ---- *)
(* (x * y + 3) / (x - 2) with x = 6, y = 7; operations of the example: those of the integers *)
Definition ex : expr := Bin Over (Bin Plus (Bin Times (Var "x") (Var "y")) (Num 3)) (Bin Minus (Var "x") (Num 2)).
Definition ex_prog : program := whole ["x"; "y"]%string 0x9000 ex.
Definition ex_st := done_st 1000 UNull ex_prog.
Definition ex_cpu (s : St) : st :=
  SpecExec.mkSt (fun i => if i =? RSP then 0x7000 else if i =? 7 then 0x8000 else 5)
       (fun z => let k := z - c_top (g_code s) in if (0 <=? k) && (k <? c_size (g_code s)) then c_mem (g_code s) k else if z =? 0x7001 then 0x10
                 else if z =? 0x8000 then 6 else if z =? 0x8008 then 7 else if z =? 0x9000 then 3 else if z =? 0x9008 then 2 else 0)
       (mkFlags false false false false false) (fun _ => false)
       (mkV (fun _ => 99) (fun _ => 0) (fun o _ _ l => match o, l with FAdd, [a; b] => a + b | FSub, [a; b] => a - b | FMul, [a; b] => a * b | FDiv, [a; b] => a / b | _, _ => 0 end)).
Definition ex_env (v : string) : Z := if String.eqb v "x" then 6 else 7.
Example C59_hypotheses :
  calc ["x"; "y"]%string 0x9000 ex = Fine (ex_prog, [3; 2]) /\ built (gen0 1000 UNull) ex_prog ex_st (done_sp 1000 UNull ex_prog) /\ loaded ex_st (ex_cpu ex_st)
  /\ (forall j v, nth_error [3; 2] j = Some v -> load (mm (ex_cpu ex_st)) (0x9000 + 8 * Z.of_nat j) 8 mod 2 ^ 64 = v mod 2 ^ 64)
  /\ (forall j v, nth_error ["x"; "y"]%string j = Some v -> load (mm (ex_cpu ex_st)) (rg (ex_cpu ex_st) 7 + 8 * Z.of_nat j) 8 mod 2 ^ 64 = ex_env v mod 2 ^ 64)
  /\ eval (fp (ex_cpu ex_st)) ex_env ex = 11
  /\ (let r := mrun 20 (addr64 (c_top (g_code ex_st)), ex_cpu ex_st) in (fst r, low (snd r) 0, rg (snd r) RSP) = (0x1000, 11, 0x7008)).
Proof.
  assert (T : c_top (g_code ex_st) = 0x10000000) by (vm_compute; reflexivity). assert (Z : c_size (g_code ex_st) = 44) by (vm_compute; reflexivity).
  split; [apply calc_fine; split; [|split; reflexivity]; repeat split; [vm_compute; discriminate|vm_compute; lia|repeat constructor; cbn; tauto]|]. split; [apply built_by; [reflexivity|vm_compute; reflexivity|apply whole_wf; vm_compute; discriminate|vm_compute; reflexivity]|]. split.
  - intros k Hk. rewrite T, Z in *. unfold ex_cpu. cbn [mm]. rewrite T, Z. unfold addr64. rewrite Z.mod_small by lia. replace (0x10000000 + k - 0x10000000) with k by ring.
    now replace ((0 <=? k) && (k <? 44)) with true by (symmetry; apply andb_true_iff; lia).
  - split; [|split; [|split; vm_compute; reflexivity]].
    + intros [|[|[|j]]] v H; cbn in H; try discriminate H; injection H as <-; vm_compute; reflexivity.
    + intros [|[|[|j]]] v H; cbn in H; try discriminate H; injection H as <-; vm_compute; reflexivity.
Qed.

(* ---- what goes wrong ---- *)
(* sample/calc.cpp:85, 87, 96: an expression that needs a ninth register, or a 33rd number, is not reported: "throw;" outside of a
   handler calls std::terminate.  x+(x+(x+(x+(x+(x+(x+(x+x))))))) is such an expression, x+x+x+x+x+x+x+x+x is not *)
Theorem C59_deep_refuted :
  let x := Var "x" in let l := repeat x 8 in
  calc ["x"]%string 0 (fold_right (Bin Plus) x l) = Terminates
  /\ (exists r, calc ["x"]%string 0 (fold_left (Bin Plus) l x) = Fine r)
  /\ calc ["x"]%string 0 (fold_left (Bin Plus) (repeat (Num 1) 33) x) = Terminates.
Proof.
  cbv zeta. split; [vm_compute; reflexivity|]. split; [|vm_compute; reflexivity].
  apply C59_accepted. repeat split; [vm_compute; discriminate|vm_compute; lia|repeat constructor].
Qed.
Print Assumptions C59_deep_refuted.
