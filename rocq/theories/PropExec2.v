(* Property theorems C51: what the processor does with the bytes of test, inc, dec, neg, not, the shifts, lea, movzx, movsx,
   movsxd, setcc, cmovcc, imul, xchg and bswap, according to the execution of SpecExec; and C44 for four methods of
   xbyak.h that are not in the generated tables. *)
From Coq Require Import ZArith List Bool String Lia.
From Verif Require Import Base Types Emit EmitFacts Encode Mnemonic SpecX86 SpecAddr SpecIsa SpecInsn SpecLeg SpecCond SpecExec Wf LegShapes LegGpr2 LegGpr3 LegGpr4 LegGpr5 CondTables ExecFacts ExecMore ArgCheck.
Import ListNotations.
Open Scope list_scope.
Open Scope Z_scope.

(* test op, imm: A8 ib / A9 id with the accumulator or F6 /0, F7 /0 *)
Theorem C44_test_immediate : limplements (mkLE "test"%string [tOp [0; 8; 16; 32; 64]] (f_oi test_imm) test_rows).
Proof. exact (testi_entry _ _ (fun _ _ => eq_refl)). Qed.
Print Assumptions C44_test_immediate.
(* imul reg, op, imm: 6B /r ib or 69 /r iw/id.  PARTIAL: registers numbered below 16, wider than a byte *)
Theorem C44_imul_immediate_partial : limplements (mkLE "imul"%string [tGl; tOl all_sizes] (LegGpr5.f_roi (fun r op imm => imul_imm r op (s32 imm))) imuli_rows).
Proof. exact (imuli_entry _ _ (fun _ _ _ => eq_refl)). Qed.
Print Assumptions C44_imul_immediate_partial.
(* xchg of operands of the same size: 86, 87 or 90+r with the accumulator, the latter never as 90 with 32 bits, which is nop *)
Theorem C44_xchg : forall o1 o2 imm env pos its s u rest,
  larg_ok tE o1 -> larg_ok tE o2 -> same_size o1 o2 -> high_ok [o1; o2] -> emits (xchg o1 o2) env pos its u ->
  Exists (fun row => lsays row [o1; o2] imm (render s its) rest /\ real_xchg row o1 o2) xchg_rows.
Proof. exact xchg_says. Qed.
Print Assumptions C44_xchg.
Theorem C44_bswap : limplements (mkLE "bswap"%string [tRe] (fun ops _ => match ops with [OReg r] => Some (bswap r) | _ => None end) [bswap_row]).
Proof. exact (bswap_entry _ _ (fun _ => eq_refl)). Qed.
Print Assumptions C44_bswap.

Definition env_x := mkEnv false 0x400000 false false VexEncoding PreAVX10v2Encoding.
Definition bytes (m : E unit) : list Z := render (fun _ _ _ => 0) (fst (m env_x 0)).
Definition m_x := mkSt (fun r => 0x1122334455667788 + r) (fun a => a mod 256) (mkFlags true false false true false) (fun _ => false) (mkV (fun _ => 0) (fun _ => 0) (fun _ _ _ _ => 0)).
Definition mem_ (w : Z) := OMem (address0 w false (mkRegExp (Reg64 0) (Reg64 3) 4 8)).
Definition after (m : E unit) (r : Z) : option Z := option_map (fun p => rg (snd p) r) (exec 0 (bytes m) m_x).
(* test r9w, 0x8000 ; imul rcx, [rax+rbx*4+8], 127 ; xchg eax, eax ; xchg rax, rax ; xchg ch, bl ; bswap r31 *)
Example C44_instances4 :
  bytes (test_imm (OReg (Reg16 9)) 0x8000) = [0x66; 0x41; 0xF7; 0xC1; 0; 0x80]
  /\ bytes (imul_imm (Reg64 1) (mem_ 64) 127) = [0x48; 0x6B; 0x4C; 0x98; 8; 127]
  /\ bytes (xchg (OReg (Reg32 0)) (OReg (Reg32 0))) = [0x87; 0xC0] /\ bytes (xchg (OReg (Reg64 0)) (OReg (Reg64 0))) = [0x48; 0x90]
  /\ bytes (xchg (OReg (Reg8 5)) (OReg (Reg8 3))) = [0x86; 0xDD] /\ bytes (bswap (Reg64 31)) = [0xD5; 0x99; 0xCF].
Proof. repeat split. Qed.
(* Refuted for registers of different sizes: xchg(ax, ecx) is accepted and is xchg eax, ecx; xchg(rax, cx) is xchg rax, rcx *)
Theorem C44_xchg_sizes_refuted :
  bytes (xchg (OReg (Reg16 0)) (OReg (Reg32 1))) = bytes (xchg (OReg (Reg32 0)) (OReg (Reg32 1)))
  /\ snd (xchg (OReg (Reg16 0)) (OReg (Reg32 1)) env_x 0) = Ok tt
  /\ bytes (xchg (OReg (Reg64 0)) (OReg (Reg16 1))) = bytes (xchg (OReg (Reg64 0)) (OReg (Reg64 1)))
  /\ snd (xchg (OReg (Reg64 0)) (OReg (Reg16 1)) env_x 0) = Ok tt.
Proof. repeat split. Qed.
Print Assumptions C44_xchg_sizes_refuted.

(* ---- execution ---- *)
Theorem C51_test : forall env pos its u s rest rip m op r, larg_ok tO op -> gpr r -> lbare op -> bare r -> high_ok [op; OReg r] ->
  emits (test_ op r) env pos its u -> exec rip (render s its ++ rest) m = Some (rest, e_test (bit_ r) op (OReg r) m).
Proof. exact @test_exec. Qed.
Print Assumptions C51_test.
Theorem C51_test_immediate : forall env pos its u s rest rip m op imm, larg_ok (tOp [0; 8; 16; 32; 64]) op -> lbare op ->
  emits (test_imm op imm) env pos its u ->
  exec rip (render s its ++ rest) m = Some (rest, e_testi (bit_ (ob op)) op (arg32 imm mod 2 ^ bit_ (ob op)) m).
Proof. exact @testi_exec. Qed.
Print Assumptions C51_test_immediate.
(* inc, dec, not, neg of registers numbered below 16 and memory *)
Theorem C51_unary_partial : forall env pos its u s rest rip m k f op, In (k, f) unaries -> unary_op op -> emits (f op) env pos its u ->
  exec rip (render s its ++ rest) m = Some (rest, e_unary k (bit_ (ob op)) op m).
Proof. exact @unary_exec. Qed.
Print Assumptions C51_unary_partial.
(* shl, shr, sar by an immediate and by cl *)
Theorem C51_shift_partial : forall env pos its u s rest rip m k f g op imm, In (k, f, g) shifts -> unary_op op -> 0 <= imm < 256 ->
  emits (f op imm) env pos its u -> exec rip (render s its ++ rest) m = Some (rest, e_shift k (bit_ (ob op)) op imm m).
Proof. exact @shift_exec. Qed.
Print Assumptions C51_shift_partial.
Theorem C51_shift_cl_partial : forall env pos its u s rest rip m k f g op r, In (k, f, g) shifts -> unary_op op -> gpr r -> bit_ r = 8 -> bare r ->
  high_ok [op; OReg r] -> emits (g op r) env pos its u ->
  exec rip (render s its ++ rest) m = Some (rest, e_shift k (bit_ (ob op)) op (read 8 (LByte (BLow 1)) m) m) /\ loc_of (OReg r) m = LByte (BLow 1).
Proof. exact @shiftcl_exec. Qed.
Print Assumptions C51_shift_cl_partial.
(* lea: the value of the address expression, modulo the width of its registers and of the destination *)
Theorem C51_lea : forall env pos its u s rest rip m r a, gpr r -> mem_ok a -> bare r -> lbare (OMem a) -> high_ok [OReg r; OMem a] ->
  emits (i_lea r a) env pos its u -> exec rip (render s its ++ rest) m = Some (rest, e_lea (bit_ r) (OReg r) a m).
Proof. exact @lea_exec. Qed.
Print Assumptions C51_lea.
Theorem C51_extend : forall env pos its u s rest rip m sg f r op, In (sg, f) extends -> gpr r -> larg_ok (tOp [8; 16]) op -> bare r -> lbare op ->
  high_ok [OReg r; op] -> emits (f r op) env pos its u ->
  exec rip (render s its ++ rest) m = Some (rest, e_extend sg (bit_ r) (bit_ (ob op)) (OReg r) op m).
Proof. exact @extend_exec. Qed.
Print Assumptions C51_extend.
Theorem C51_movsxd : forall env pos its u s rest rip m r op, gpr r -> bit_ r = 64 -> larg_ok tE op -> bare r -> lbare op -> high_ok [OReg r; op] ->
  emits (i_movsxd r op) env pos its u -> exec rip (render s its ++ rest) m = Some (rest, e_extend true 64 32 (OReg r) op m).
Proof. exact @movsxd_exec. Qed.
Print Assumptions C51_movsxd.
(* setcc, cmovcc: all suffixes; the condition is that of the suffix *)
Theorem C51_set_partial : forall env pos its u s rest rip m n f op, In (n, f) setcc_methods -> larg_ok (tOl [0; 8]) op -> lbare op ->
  emits (f op) env pos its u -> exists c, cond_of n = Some c /\ exec rip (render s its ++ rest) m = Some (rest, e_set c op m).
Proof. exact @set_exec. Qed.
Print Assumptions C51_set_partial.
Theorem C51_cmov : forall env pos its u s rest rip m n f r op, In (n, f) cmovcc_methods -> gpr r -> bit_ r <> 8 -> larg_ok tO op -> bare r -> lbare op ->
  high_ok [OReg r; op] -> emits (f r op) env pos its u ->
  exists c, cond_of n = Some c /\ exec rip (render s its ++ rest) m = Some (rest, e_cmov c (bit_ r) (OReg r) op m).
Proof. exact @cmov_exec. Qed.
Print Assumptions C51_cmov.
Theorem C51_imul_partial : forall env pos its u s rest rip m r op, larg_ok tGl (OReg r) -> larg_ok (tOl all_sizes) op -> bare r -> lbare op ->
  high_ok [OReg r; op] -> emits (i_imul_ro r op) env pos its u -> exec rip (render s its ++ rest) m = Some (rest, e_imul (bit_ r) (OReg r) op m).
Proof. exact @imul_exec. Qed.
Print Assumptions C51_imul_partial.
(* imul reg, op, imm: all 2^32 immediates *)
Theorem C51_imul_immediate_partial : forall env pos its u s rest rip m r op imm, larg_ok tGl (OReg r) -> larg_ok (tOl all_sizes) op -> bare r -> lbare op ->
  high_ok [OReg r; op] -> emits (imul_imm r op (s32 imm)) env pos its u ->
  exec rip (render s its ++ rest) m = Some (rest, e_imul3 (bit_ r) (OReg r) op (arg32 imm mod 2 ^ bit_ r) m).
Proof. exact @imuli_exec. Qed.
Print Assumptions C51_imul_immediate_partial.
Theorem C51_bswap : forall env pos its u s rest rip m r, gpr r -> bit_ r = 32 \/ bit_ r = 64 -> bare r -> emits (bswap r) env pos its u ->
  exec rip (render s its ++ rest) m = Some (rest, e_bswap (bit_ r) (OReg r) m).
Proof. exact @bswap_exec. Qed.
Print Assumptions C51_bswap.
Theorem C51_xchg : forall env pos its u s rest rip m o1 o2, larg_ok tE o1 -> larg_ok tE o2 -> same_size o1 o2 -> high_ok [o1; o2] ->
  emits (xchg o1 o2) env pos its u ->
  exists r, (o1 = OReg r \/ o2 = OReg r) /\ exec rip (render s its ++ rest) m = Some (rest, e_xchg (bit_ r) o1 o2 m).
Proof. exact @xchg_exec. Qed.
Print Assumptions C51_xchg.
(* shl cx, 4 ; sar rdi, cl ; neg dl ; lea r9d, [rax+rbx*4+8] ; movsx eax, ch ; cmovl rdx, rsi ; imul ecx, edx, -3 ; bswap esi ; xchg rbx, r9 *)
Example C51_instances :
  after (i_shl_oi (OReg (Reg16 1)) 4) 1 = Some 0x1122334455667890
  /\ after (i_sar_ob (OReg (Reg64 7)) (Reg8 1)) 7 = Some (0x112233445566778F / 2 ^ 9)
  /\ after (i_neg_o (OReg (Reg8 2))) 2 = Some 0x1122334455667776
  /\ after (i_lea (Reg32 9) (address0 0 false (mkRegExp (Reg64 0) (Reg64 3) 4 8))) 9 = Some ((0x55667788 * 5 + 20) mod 2 ^ 32)
  /\ after (i_movsx (Reg32 0) (OReg (Reg8 5))) 0 = Some 0x77
  /\ after (i_cmovl_ro (Reg64 2) (OReg (Reg64 6))) 2 = Some 0x112233445566778E
  /\ after (imul_imm (Reg32 1) (OReg (Reg32 2)) (-3)) 1 = Some ((0x5566778A * (2 ^ 32 - 3)) mod 2 ^ 32)
  /\ after (bswap (Reg32 6)) 6 = Some 0x8E776655
  /\ after (xchg (OReg (Reg64 3)) (OReg (Reg64 9))) 3 = Some 0x1122334455667791
  /\ unary_op (OReg (Reg16 1)) /\ larg_ok tGl (OReg (Reg32 1)) /\ larg_ok tE (OReg (Reg64 3)) /\ high_ok [OReg (Reg64 3); OReg (Reg64 9)].
Proof.
  do 9 (split; [vm_compute; reflexivity|]).
  split; [split; [split; [left; apply gprb_ok; reflexivity|vm_compute; intuition discriminate]|repeat split]|].
  split; [split; [apply gprb_ok; reflexivity|split; [discriminate|vm_compute; intuition discriminate]]|].
  split; [apply gprb_ok; reflexivity|]. intros Q. exfalso. inversion Q as [? ? Q1|? ? Q1]; [destruct Q1; discriminate|]. inversion Q1 as [? ? Q2|? ? Q2]; [destruct Q2; discriminate|inversion Q2].
Qed.
