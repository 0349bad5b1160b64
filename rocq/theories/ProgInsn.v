(* The instruction calls that programs are made of (SpecProg), with their meaning, and: each is encoded as at most 15 bytes,
   no label fields, that the processor executes as the meaning says. *)
From Coq Require Import ZArith List Bool String Lia.
From Verif Require Import Base Types Emit EmitFacts LegacyFacts Encode Mnemonic SpecX86 SpecAddr SpecLeg SpecCond SpecExec SpecMach ProgMach SpecLen Wf LegShapes LegGpr3 LegGpr4 LegGpr5 CondTables ExecFacts ExecProofs ExecMore LenFacts PlainFacts.
Import ListNotations.
Open Scope list_scope.
Open Scope Z_scope.

(* the operand size of an instruction with two operands *)
Definition size2 (o1 o2 : Operand) : Z := match o1 with OReg r => bit_ r | OMem _ => bit_ (ob o2) end.
Inductive insn : E unit -> (st -> st) -> Prop :=
| I_mov op imm : imm_op op -> insn (mov_oi op imm) (e_mov (bit_ (ob op)) op (imm mod 2 ^ bit_ (ob op)))
| I_mov2 o1 o2 : two_ops o1 o2 -> lbare o1 -> lbare o2 -> same_size o1 o2 -> insn (mov_oo o1 o2) (e_mov2 (size2 o1 o2) o1 o2)
| I_alu d f g op imm : In (d, f, g) alu_methods -> imm_op op ->
    insn (f op imm) (e_alu d (bit_ (ob op)) op (arg32 imm mod 2 ^ bit_ (ob op)))
| I_alu2 d f g o1 o2 : In (d, f, g) alu_methods -> two_ops o1 o2 -> same_size o1 o2 -> insn (g o1 o2) (e_alu2 d (size2 o1 o2) o1 o2)
| I_test op r : larg_ok tO op -> gpr r -> lbare op -> bare r -> high_ok [op; OReg r] -> insn (test_ op r) (e_test (bit_ r) op (OReg r))
| I_testi op imm : imm_op op -> insn (test_imm op imm) (e_testi (bit_ (ob op)) op (arg32 imm mod 2 ^ bit_ (ob op)))
| I_unary k f op : In (k, f) unaries -> unary_op op -> insn (f op) (e_unary k (bit_ (ob op)) op)
| I_shift k f g op imm : In (k, f, g) shifts -> unary_op op -> 0 <= imm < 256 -> insn (f op imm) (e_shift k (bit_ (ob op)) op imm)
| I_shiftcl k f g op r : In (k, f, g) shifts -> unary_op op -> gpr r -> bit_ r = 8 -> bare r -> high_ok [op; OReg r] ->
    insn (g op r) (fun s => e_shift k (bit_ (ob op)) op (read 8 (loc_of (OReg r) s) s) s)
| I_lea r a : gpr r -> mem_ok a -> bare r -> lbare (OMem a) -> high_ok [OReg r; OMem a] ->
    insn (i_lea r a) (SpecExec.e_lea (bit_ r) (OReg r) a)
| I_extend sg f r op : In (sg, f) extends -> gpr r -> larg_ok (tOp [8; 16]) op -> bare r -> lbare op -> high_ok [OReg r; op] ->
    insn (f r op) (e_extend sg (bit_ r) (bit_ (ob op)) (OReg r) op)
| I_movsxd r op : gpr r -> bit_ r = 64 -> larg_ok tE op -> bare r -> lbare op -> high_ok [OReg r; op] ->
    insn (i_movsxd r op) (e_extend true 64 32 (OReg r) op)
| I_set n f op c : In (n, f) setcc_methods -> cond_of n = Some c -> larg_ok (tOl [0; 8]) op -> lbare op -> insn (f op) (e_set c op)
| I_cmov n f r op c : In (n, f) cmovcc_methods -> cond_of n = Some c -> gpr r -> bit_ r <> 8 -> larg_ok tO op -> bare r -> lbare op ->
    high_ok [OReg r; op] -> insn (f r op) (e_cmov c (bit_ r) (OReg r) op)
| I_imul r op : larg_ok tGl (OReg r) -> larg_ok (tOl all_sizes) op -> bare r -> lbare op -> high_ok [OReg r; op] ->
    insn (i_imul_ro r op) (e_imul (bit_ r) (OReg r) op)
| I_imuli r op imm : larg_ok tGl (OReg r) -> larg_ok (tOl all_sizes) op -> bare r -> lbare op -> high_ok [OReg r; op] ->
    insn (imul_imm r op (s32 imm)) (e_imul3 (bit_ r) (OReg r) op (arg32 imm mod 2 ^ bit_ r))
| I_bswap r : gpr r -> bit_ r = 32 \/ bit_ r = 64 -> bare r -> insn (bswap r) (e_bswap (bit_ r) (OReg r))
| I_xchg o1 o2 : larg_ok tE o1 -> larg_ok tE o2 -> same_size o1 o2 -> high_ok [o1; o2] -> insn (xchg o1 o2) (e_xchg (size2 o1 o2) o1 o2)
| I_push op : stack_op op -> insn (push_op op) (e_push (bit_ (ob op)) op)
| I_pop op : stack_op op -> insn (pop_op op) (e_pop (bit_ (ob op)) op)
| I_pushi imm : insn (push_imm imm) (do_push 64 (arg32 imm)).

Definition encoded (m : E unit) (f : st -> st) : Prop := forall env pos its u, emits m env pos its u ->
  Forall is_byte its /\ items_size its <= 15 /\ forall s rest rip x, xexec rip (render s its ++ rest) x = Some (rest, f x).

Lemma mem_modrm a : mem_ok a -> modrm a.
Proof. intros [[H _ _ _] _ _ _ _ _ _]. exact H. Qed.
Lemma larg_modrm c o : larg_ok c o -> omodrm o.
Proof. destruct o as [r|a]; [intros; exact Logic.I|]. destruct c; cbn; intros H; try contradiction; apply mem_modrm; tauto. Qed.
#[global] Hint Resolve mem_modrm larg_modrm : np.
Lemma size2_ok o1 o2 r : same_size o1 o2 -> o1 = OReg r \/ o2 = OReg r -> bit_ r = size2 o1 o2.
Proof. unfold same_size, size2. intros H [-> | ->]; [reflexivity|]. destruct o1; [congruence|reflexivity]. Qed.
Lemma any_narrow o : larg_ok (tOp [0; 8; 16; 32; 64]) o -> narrow o.
Proof.
  destruct o as [r|a]; cbn [larg_ok]; unfold narrow; cbn [ob]; unfold isREG, is_, getBit.
  - intros H. destruct H as [[K H]|[[H _]|H]]; [intros _; lia| |].
    + destruct H as [[K _]|[[K _]|[K _]]]; rewrite K; discriminate.
    + unfold mmx_reg, opmask_reg, tmm_reg, bnd_reg, fpu_reg in H. destruct H as [[K _]|[[K _]|[[K _]|[[K _]|[K _]]]]]; rewrite K; discriminate.
  - intros [H _]. destruct H as [[_ _ _ K] _ _ _ _ _ _]. rewrite K. discriminate.
Qed.

Ltac eachm H := repeat match type of H with _ \/ _ => destruct H as [H|H] | False => destruct H end.
Ltac head_of t := match t with ?f _ => head_of f | ?f => f end.
Ltac unhead := match goal with |- within _ ?m => let f := head_of m in unfold f | |- NP ?m => let f := head_of m in unfold f end.
Ltac len_of := first [solve [row_len] | unhead; len_of].
Ltac np_of := first [solve [np] | unhead; np_of].
Lemma alu_plain d f g : In (d, f, g) alu_methods ->
  (forall op imm, within 15 (f op imm) /\ (omodrm op -> NP (f op imm))) /\ (forall o1 o2, within 15 (g o1 o2) /\ (omodrm o1 -> omodrm o2 -> NP (g o1 o2))).
Proof.
  intros H. unfold alu_methods in H. cbn [In] in H. eachm H; injection H as <- <- <-;
  (split; intros; (split; [len_of|intros; np_of])).
Qed.
Lemma unary_plain k f op : In (k, f) unaries -> within 15 (f op) /\ (omodrm op -> NP (f op)).
Proof. intros H. unfold unaries in H. cbn [In] in H. eachm H; injection H as <- <-; (split; [len_of|intros; np_of]). Qed.
Lemma shift_plain k f g op : In (k, f, g) shifts ->
  (forall imm, within 15 (f op imm) /\ (omodrm op -> NP (f op imm))) /\ (forall r, within 15 (g op r) /\ (omodrm op -> NP (g op r))).
Proof. intros H. unfold shifts in H. cbn [In] in H. eachm H; injection H as <- <- <-; (split; intros; (split; [len_of|intros; np_of])). Qed.
Lemma extend_plain sg f r op : In (sg, f) extends -> within 15 (f r op) /\ (omodrm op -> NP (f r op)).
Proof. intros H. unfold extends in H. cbn [In] in H. eachm H; injection H as <- <-; (split; [len_of|intros; np_of]). Qed.
Lemma set_plain n f op : In (n, f) setcc_methods -> within 15 (f op) /\ (omodrm op -> NP (f op)).
Proof. intros H. unfold setcc_methods in H. cbn [In] in H. eachm H; injection H as <- <-; (split; [len_of|intros; np_of]). Qed.
Lemma cmov_plain n f r op : In (n, f) cmovcc_methods -> within 15 (f r op) /\ (omodrm op -> NP (f r op)).
Proof. intros H. unfold cmovcc_methods in H. cbn [In] in H. eachm H; injection H as <- <-; (split; [len_of|intros; np_of]). Qed.

Lemma encoded_by m f : within 15 m -> NP m ->
  (forall env pos its u s rest rip x, emits m env pos its u -> SpecExec.exec rip (render s its ++ rest) x = Some (rest, f x)) -> encoded m f.
Proof. intros H1 H2 H3 env pos its u H. split; [eapply H2; eauto|]. split; [eapply H1; eauto|]. intros. apply exec_x. eapply H3; eauto. Qed.
Theorem insn_encoded m f : insn m f -> encoded m f.
Proof.
  intros H. destruct H.
  - apply encoded_by; [apply L_mov_oi, any_narrow, H|apply NP_mov_oi; destruct H; eauto with np|intros; eapply mov_exec; eauto].
  - destruct H as (A & B & C). apply encoded_by; [apply L_mov_oo|apply NP_mov_oo; eauto with np|intros].
    edestruct mov2_exec as (r & Hr & X); [|exact H0|exact H1|eassumption|]; [split; [|split]; eassumption|]. rewrite <- (size2_ok _ _ _ H2 Hr). exact X.
  - destruct (alu_plain _ _ _ H) as [P _]. destruct (P op imm) as [P1 P2]. apply encoded_by; [exact P1|apply P2; destruct H0; eauto with np|intros; eapply alu_exec; eauto].
  - destruct (alu_plain _ _ _ H) as [_ P]. destruct (P o1 o2) as [P1 P2]. destruct H0 as (A & B & C).
    apply encoded_by; [exact P1|apply P2; eauto with np|intros].
    edestruct alu2_exec as (r & Hr & X); [exact H| |eassumption|]; [split; [|split]; eassumption|]. rewrite <- (size2_ok _ _ _ H1 Hr). exact X.
  - apply encoded_by; [len_of|unhead; apply NP_opRO; eauto with np|intros; eapply test_exec; eauto].
  - apply encoded_by; [apply L_test_imm|apply NP_test_imm; destruct H; eauto with np|intros; destruct H; eapply testi_exec; eauto].
  - destruct (unary_plain _ _ op H) as [P1 P2]. apply encoded_by; [exact P1|apply P2; destruct H0; eauto with np|intros; eapply unary_exec; eauto].
  - destruct (shift_plain _ _ _ op H) as [P _]. destruct (P imm). apply encoded_by; [assumption|destruct H0; eauto with np|intros; eapply shift_exec; eauto].
  - destruct (shift_plain _ _ _ op H) as [_ P]. destruct (P r). apply encoded_by; [assumption|destruct H0; eauto with np|intros].
    destruct (shiftcl_exec (env:=env) (pos:=pos) (its:=its) (u:=u) s rest rip x k f g op r H H0 H1 H2 H3 H4 H7) as [X Y]. cbv beta. rewrite Y. exact X.
  - apply encoded_by; [len_of|np_of|intros; eapply lea_exec; eauto].
  - destruct (extend_plain _ _ r op H). apply encoded_by; [assumption|eauto with np|intros; eapply extend_exec; eauto].
  - apply encoded_by; [len_of|np_of|intros; eapply movsxd_exec; eauto].
  - destruct (set_plain _ _ op H). apply encoded_by; [assumption|eauto with np|intros].
    destruct (set_exec (env:=env) (pos:=pos) (its:=its) (u:=u) s rest rip x n f op H H1 H2 H5) as (c' & Hc & X). assert (c' = c) by congruence. subst c'. exact X.
  - destruct (cmov_plain _ _ r op H). apply encoded_by; [assumption|eauto with np|intros].
    destruct (cmov_exec (env:=env) (pos:=pos) (its:=its) (u:=u) s rest rip x n f r op H H1 H2 H3 H4 H5 H6 ltac:(assumption)) as (c' & Hc & X). assert (c' = c) by congruence. subst c'. exact X.
  - apply encoded_by; [len_of|np_of|intros; eapply imul_exec; eauto].
  - apply encoded_by; [apply L_imul_imm|apply NP_imul_imm; eauto with np|intros; eapply imuli_exec; eauto].
  - apply encoded_by; [apply L_bswap|apply NP_bswap|intros; eapply bswap_exec; eauto].
  - apply encoded_by; [apply L_xchg|apply NP_xchg; eauto with np|intros].
    destruct (xchg_exec (env:=env) (pos:=pos) (its:=its) (u:=u) s rest rip x o1 o2 H H0 H1 H2 H3) as (r & Hr & X). rewrite <- (size2_ok _ _ _ H1 Hr). exact X.
  - assert (omodrm op) by (destruct op; [exact Logic.I|now apply mem_modrm]).
    apply encoded_by; [apply L_opPushPop|now apply NP_opPushPop|intros; eapply push_exec; eauto].
  - assert (omodrm op) by (destruct op; [exact Logic.I|now apply mem_modrm]).
    apply encoded_by; [apply L_opPushPop|now apply NP_opPushPop|intros; eapply pop_exec; eauto].
  - apply encoded_by; [eapply L_le; [|apply L_push_imm]; lia|apply NP_push_imm|intros; eapply push_imm_exec; eauto].
Qed.
