(* Vector instruction calls as statements of programs (SpecProg). *)
From Coq Require Import ZArith List Bool String Lia.
From Verif Require Import Base Types Emit EmitFacts SpecX86 SpecAddr SpecIsa SpecInsn Wf SpecLeg SpecExec SpecVec VecIsa SpecVecRun SpecMach ArgCheck SpecLen LenFacts PlainFacts ProgMach ProgInsn VexTables VecExec VecRun VecPlain.
Import ListNotations.
Open Scope list_scope.
Open Scope Z_scope.

(* the call of a vector method, of a name in VecIsa, and its meaning.  Operands: those of its parameter types, no general
   registers, one mask, the {z} and rounding modifiers as in [executes]. *)
Inductive vinsn : E unit -> (st -> st) -> Prop :=
| V_call rc enc e row m ops imm act :
    In e (if rc : bool then vex_table enc else vex_table_norc enc) -> vec_named (en_name e) = Some (row, m) -> en_fun e ops imm = Some act ->
    Forall2 arg_ok (en_sig e) ops -> one_mask ops -> Forall (fun o => width o <= vl_of (en_vl e) (en_row e) ops) ops ->
    (forall r, In (OReg r) ops -> ~ gpr r) -> zero_ok ops -> (rc = false -> Forall (fun o => ornd o = 0) ops) ->
    (rounds ops -> vl_of (en_vl e) (en_row e) ops = 512 \/ one_lane m = true) -> 0 <= imm < 256 ->
    vinsn act (means m (vl_of (en_vl e) (en_row e) ops) (if has_imm (en_row e) then imm else 0) ops).

Lemma arg_modrm c o : arg_ok c o -> omodrm o.
Proof. destruct o as [r|a]; [intros; exact Logic.I|]. destruct c; cbn; intros H; try contradiction; apply mem_modrm; tauto. Qed.
Theorem vinsn_encoded m f : vinsn m f -> encoded m f.
Proof.
  intros H. destruct H as [rc enc e row m ops imm act Hin N Hf Ha Ho Hw Hg Hz Hrc Hrn Hi]. intros env pos its u He.
  assert (In e (vex_table enc ++ vex_table_norc enc)) as Hin2 by (apply in_or_app; destruct rc; auto).
  assert (Forall omodrm ops) as Hm. { clear - Ha. induction Ha; constructor; eauto using arg_modrm. }
  destruct (table_plain enc e Hin2 ltac:(now rewrite N) ops imm act Hf Hm) as [H15 Hnp].
  split; [eapply Hnp; exact He|]. split; [eapply H15; exact He|]. intros s rest rip x. apply vexec_x.
  assert (executes rc vec_proc e m) as X. { destruct rc; [eapply table_executes|eapply table_norc_executes]; eassumption. }
  apply (X s ops imm act env pos its rest u rip x); auto.
Qed.

(* the conditions as one check *)
Definition call_okb (rc : bool) (e : entry) (m : meaning) (ops : list Operand) (imm : Z) : bool :=
  let vl := vl_of (en_vl e) (en_row e) ops in
  args_okb (en_sig e) ops && forallb (fun o => match o with OMem a => mask_ (a_op a) =? 0 | _ => true end) ops && forallb (fun o => width o <=? vl) ops
  && forallb (fun o => match o with OReg r => negb (kind_ r =? REG) | _ => true end) ops
  && (negb (existsb ozero ops) || match ops with OReg r :: _ => negb (opmask r) | _ => false end)
  && (forallb (fun o => ornd o =? 0) ops || rc && ((vl =? 512) || one_lane m)) && (0 <=? imm) && (imm <? 256).
Lemma vinsn_by rc e row m ops imm act n : nth_error (if rc : bool then vex_table DefaultEncoding else vex_table_norc DefaultEncoding) n = Some e ->
  vec_named (en_name e) = Some (row, m) -> en_fun e ops imm = Some act -> call_okb rc e m ops imm = true ->
  vinsn act (means m (vl_of (en_vl e) (en_row e) ops) (if has_imm (en_row e) then imm else 0) ops).
Proof.
  intros Hn N Hf H. unfold call_okb in H. do 7 apply andb_prop in H as [H ?].
  match goal with Q : _ || _ && _ = true |- _ => rename Q into HR end. match goal with Q : negb _ || _ = true |- _ => rename Q into HZ end.
  eapply (V_call rc DefaultEncoding); eauto; try lia.
  - apply (nth_error_In _ n). exact Hn.
  - now apply args_okb_ok.
  - now apply one_mask_none.
  - apply Forall_forall. intros o Ho. match goal with Q : forallb (fun o => width o <=? _) _ = true |- _ => rewrite forallb_forall in Q; specialize (Q _ Ho) end. lia.
  - intros r Hr [K _]. match goal with Q : forallb (fun o => match o with OReg r => negb _ | _ => _ end) _ = true |- _ => rewrite forallb_forall in Q; specialize (Q _ Hr); cbn in Q end. lia.
  - intros Z1. rewrite Z1 in HZ. cbn in HZ. destruct ops as [|[r|a] l]; try discriminate. now apply negb_true_iff.
  - intros ->. cbn [andb] in HR. rewrite orb_false_r in HR. apply Forall_forall. intros o Ho. rewrite forallb_forall in HR. specialize (HR _ Ho). lia.
  - intros R. apply orb_prop in HR as [HR|HR].
    + exfalso. apply R. apply Forall_forall. intros o Ho. rewrite forallb_forall in HR. specialize (HR _ Ho). lia.
    + apply andb_prop in HR as [_ HR]. apply orb_prop in HR as [HR|HR]; [left; lia|now right].
Qed.
