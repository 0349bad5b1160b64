(* Property theorems C04, C05, C07-C16: labels and jumps.

   [run s a]: s is reached from a newly constructed generator by a history of calls whose label table
   is a (SpecLabel.v).  [shistory s a os s' a']: the calls os lead from s to s'; each may succeed or
   report an error.  [branch_target c pos n]: where the n-byte displacement at pos leads.
   [finished s a]: the buffer is fixed, or ready() has been called. *)
From Coq Require Import ZArith List Bool String Arith Lia.
From Verif Require Import Base Types Emit Encode State Code Label Gen Wp CodeFacts Append LabelFacts LabelInv LabelEmit SpecMem SpecLabel LabelHist LabelThms LabelThms2 LabelThms3 LabelThms4 Stable LabelThms5 Grow LabelThms6 LabelThms7 LabelThms8 RunCheck.
Import ListNotations.
Open Scope Z_scope.

(* ---- C04: relative references ---- *)
Theorem C04_forward_jump : forall s a l ty sc lc lp s1 a1 os s2 a2 l' s3 a3 os' s4 a4 t,
  run s a -> exec (OpJmp l ty sc lc lp) s = Done s1 tt -> shistory s a [OpJmp l ty sc lc lp] s1 a1 -> tid_of a l = Some t ->
  shistory s1 a1 os s2 a2 -> no_reset os ->
  exec (OpL l') s2 = Done s3 tt -> shistory s2 a2 [OpL l'] s3 a3 -> ltid a2 l' = Some t ->
  shistory s3 a3 os' s4 a4 -> no_reset os' -> finished s4 a4 ->
  let n := jsize (c_size (g_code s)) (c_size (g_code s1)) in
  branch_target (g_code s4) (c_size (g_code s1) - n) n = w64 (c_top (g_code s4) + c_size (g_code s2)).
Proof. exact forward_jump. Qed.
Print Assumptions C04_forward_jump.
Theorem C04_backward_jump : forall s a l' s1 a1 os s2 a2 l ty sc lc lp s3 a3 os' s4 a4 t,
  run s a -> exec (OpL l') s = Done s1 tt -> shistory s a [OpL l'] s1 a1 -> ltid a l' = Some t ->
  shistory s1 a1 os s2 a2 -> no_reset os ->
  exec (OpJmp l ty sc lc lp) s2 = Done s3 tt -> shistory s2 a2 [OpJmp l ty sc lc lp] s3 a3 -> tid_of a2 l = Some t ->
  shistory s3 a3 os' s4 a4 -> no_reset os' -> finished s4 a4 ->
  let n := jsize (c_size (g_code s2)) (c_size (g_code s3)) in
  branch_target (g_code s4) (c_size (g_code s3) - n) n = w64 (c_top (g_code s4) + c_size (g_code s)).
Proof. exact backward_jump. Qed.
Print Assumptions C04_backward_jump.
(* the general form: wherever the label is defined at some later moment *)
Theorem C04_jump_lands : forall s a l ty sc lc lp s1 a1 os s2 a2 t o os' s3 a3,
  run s a -> exec (OpJmp l ty sc lc lp) s = Done s1 tt -> shistory s a [OpJmp l ty sc lc lp] s1 a1 -> tid_of a l = Some t ->
  shistory s1 a1 os s2 a2 -> no_reset os -> sp_defs a2 t = Some o ->
  shistory s2 a2 os' s3 a3 -> no_reset os' -> finished s3 a3 ->
  let n := jsize (c_size (g_code s)) (c_size (g_code s1)) in
  branch_target (g_code s3) (c_size (g_code s1) - n) n = w64 (c_top (g_code s3) + o).
Proof. exact jump_lands. Qed.
Print Assumptions C04_jump_lands.

(* ---- C05: the address of a label, in the code (putL, mov(reg64, label)); the field may follow any
   bytes pre of the same instruction.  With rel the field is a displacement, plus an addend d ---- *)
Theorem C05_label_field : forall s a m s1 a1 pre l (rel : bool) d post r os s2 a2 t o os' s3 a3,
  run s a -> exec (OpEmit m) s = Done s1 tt -> shistory s a [OpEmit m] s1 a1 ->
  m (env_of s) (c_size (g_code s)) = (map IDb pre ++ IPutL l rel d :: post, r) -> tid_of a l = Some t ->
  shistory s1 a1 os s2 a2 -> no_reset os -> sp_defs a2 t = Some o ->
  shistory s2 a2 os' s3 a3 -> no_reset os' -> finished s3 a3 ->
  let p := c_size (g_code s) + Z.of_nat (List.length pre) in
  if rel then branch_target (g_code s3) p 4 = w64 (c_top (g_code s3) + o + d)
  else read_u64 (g_code s3) p = w64 (c_top (g_code s3) + o).
Proof. exact field_lands. Qed.
Print Assumptions C05_label_field.
Theorem C05_putL : forall s a l s1 a1 os s2 a2 t o os' s3 a3,
  run s a -> exec (putLO l) s = Done s1 tt -> shistory s a [putLO l] s1 a1 -> tid_of a l = Some t ->
  shistory s1 a1 os s2 a2 -> no_reset os -> sp_defs a2 t = Some o ->
  shistory s2 a2 os' s3 a3 -> no_reset os' -> finished s3 a3 ->
  read_u64 (g_code s3) (c_size (g_code s)) = w64 (c_top (g_code s3) + o).
Proof.
  intros s a l s1 a1 os s2 a2 t o os' s3 a3 H1 H2 H3 H4 H5 H6 H7 H8 H9 H10.
  pose proof (field_lands s a _ s1 a1 [] l false 0 [] (Ok tt) os s2 a2 t o os' s3 a3 H1 H2 H3 eq_refl H4 H5 H6 H7 H8 H9 H10) as T. cbn in T. now rewrite Z.add_0_r in T.
Qed.
Print Assumptions C05_putL.

(* A run in which all of this happens, in a growing buffer that starts with one byte.
   ph: the phases of the run *)
Definition ph (x : St * Spec * list outcome) (os : list op) := fin (runb (stOf x) (spOf x) os).
Lemma ph_hist x os y : y = ph x os -> isSome (runb (stOf x) (spOf x) os) = true -> shistory (stOf x) (spOf x) os (stOf y) (spOf y).
Proof. intros ->. apply runb_fin. Qed.
Lemma ph_run x os y : y = ph x os -> run (stOf x) (spOf x) -> isSome (runb (stOf x) (spOf x) os) = true -> run (stOf y) (spOf y).
Proof. intros E H1 H2. eapply run_more; eauto. eapply ph_hist; eauto. Qed.
Lemma ph_done x o y : y = ph x [o] -> okb (runb (stOf x) (spOf x) [o]) = true -> exec o (stOf x) = Done (stOf y) tt.
Proof.
  intros -> H. apply run_ok_fin in H. unfold ph. inversion H as [|? ? ? s1 a1 ? ? ? L1 L2 L3 L4 L5]; subst. inversion L5; subst. exact L3.
Qed.
Ltac vmr := vm_compute; reflexivity.
Ltac hist := match goal with |- shistory (stOf ?x) _ ?os (stOf ?y) _ => apply (ph_hist x os y); [reflexivity|vmr] end.
Ltac done := match goal with |- exec ?o (stOf ?x) = Done (stOf ?y) tt => apply (ph_done x o y); [reflexivity|vmr] end.
Definition X : LabelRef := LObj 5%nat.
Definition start (m : Z) (u : UserPtr) := fin (runb (gen0 m u) spec0 []).
Lemma start_run m u : genok m u = true -> run (stOf (start m u)) (spOf (start m u)).
Proof. intros H. apply (run_fin m u []); auto. Qed.
Ltac grun := match goal with
  | |- run (stOf (start ?m ?u)) _ => apply (start_run m u); vmr
  | |- run (stOf ?y) _ => let d := eval unfold y in y in
      match d with
      | ph ?x ?os => apply (ph_run x os y); [reflexivity|grun|vmr]
      | start ?m ?u => apply (start_run m u); vmr
      end
  end.
Definition e0 := ph (start 1 UAutoGrow) [OpNewLabel 5%nat; dbO 0x90].
Definition e1 := ph e0 [jmpN X].
Definition e2 := ph e1 [putLO X; dbO 0xC3].
Definition e3 := ph e2 [OpL X].
Definition e4 := ph e3 [dbO 0x90].
Definition e5 := ph e4 [jmpL X].
Definition e6 := ph e5 [putLO X; OpDestroy 5%nat; OpReady].
Lemma e0_run : run (stOf e0) (spOf e0).
Proof. grun. Qed.
Example C04_hypotheses :
  run (stOf e0) (spOf e0)
  /\ exec (jmpN X) (stOf e0) = Done (stOf e1) tt /\ shistory (stOf e0) (spOf e0) [jmpN X] (stOf e1) (spOf e1)
  /\ tid_of (spOf e0) X = Some (TObj (Fresh 0))
  /\ shistory (stOf e1) (spOf e1) [putLO X; dbO 0xC3] (stOf e2) (spOf e2)
  /\ exec (OpL X) (stOf e2) = Done (stOf e3) tt /\ shistory (stOf e2) (spOf e2) [OpL X] (stOf e3) (spOf e3)
  /\ ltid (spOf e2) X = Some (TObj (Fresh 0)) /\ sp_defs (spOf e3) (TObj (Fresh 0)) = Some 15
  /\ shistory (stOf e3) (spOf e3) [dbO 0x90] (stOf e4) (spOf e4)
  /\ exec (jmpL X) (stOf e4) = Done (stOf e5) tt /\ shistory (stOf e4) (spOf e4) [jmpL X] (stOf e5) (spOf e5)
  /\ tid_of (spOf e4) X = Some (TObj (Fresh 0))
  /\ shistory (stOf e5) (spOf e5) [putLO X; OpDestroy 5%nat; OpReady] (stOf e6) (spOf e6) /\ finished (stOf e6) (spOf e6)
  /\ mem_is 0 [0x90; 0xE9; 9; 0; 0; 0] (stOf e6) = true /\ c_top (g_code (stOf e6)) <> c_top (g_code (stOf e0)).
Proof.
  split; [apply e0_run|].
  split; [done|]. split; [hist|]. split; [vmr|].
  split; [hist|].
  split; [done|]. split; [hist|]. split; [vmr|]. split; [vmr|].
  split; [hist|].
  split; [done|]. split; [hist|]. split; [vmr|].
  split; [hist|]. split; [intros _; vmr|]. split; [vmr|]. vm_compute. discriminate.
Qed.

(* ---- C07: short and near branches ---- *)
(* the bytes of a branch: [jmp_pat]: opcode, prefix and number of field bytes, by [takes_short] *)
Theorem C07_branch_bytes : forall l ty sc lc lp s a t s1,
  run s a -> isAutoGrowC (g_code s) && sp_ready a = false -> alive_ref a l -> lm_nextId (g_lm s) < 2147483647 ->
  tid_of a l = Some t -> c_size (g_code s) <= maxCode ->
  exec (OpJmp l ty sc lc lp) s = Done s1 tt ->
  let short := takes_short (sp_defs a t) (g_jmpNear s) ty (c_size (g_code s)) in
  c_size (g_code s1) = c_size (g_code s) + (if short then 2 else if lp =? 0 then 5 else 6)
  /\ mem_has (c_mem (g_code s1)) (c_size (g_code s)) (if short then [w8 sc] else if lp =? 0 then [w8 lc] else [w8 lp; w8 lc]).
Proof. exact branch_bytes. Qed.
Print Assumptions C07_branch_bytes.
Theorem C07_branch_outcome : forall l ty sc lc lp s a t,
  run s a -> isAutoGrowC (g_code s) && sp_ready a = false -> alive_ref a l -> lm_nextId (g_lm s) < 2147483647 ->
  tid_of a l = Some t -> c_size (g_code s) <= maxCode -> ty <> T_FAR ->
  match exec (OpJmp l ty sc lc lp) s with
  | Done _ _ => ~ (ty = T_SHORT /\ out_of_short (sp_defs a t) (c_size (g_code s)) = true)
  | Thrown _ e => bufErr e \/ e = ERR_LABEL_IS_TOO_FAR /\ ty = T_SHORT /\ out_of_short (sp_defs a t) (c_size (g_code s)) = true
  | UB => False
  end.
Proof. intros l ty sc lc lp s a t H. apply opJmp_outcome. now apply run_inv. Qed.
Print Assumptions C07_branch_outcome.
Theorem C07_far_not_supported : forall l sc lc lp s a, run s a -> exec (OpJmp l T_FAR sc lc lp) s = Thrown s ERR_NOT_SUPPORTED.
Proof. intros l sc lc lp s a H. apply opJmp_far. destruct (run_inv _ _ H) as ((Hn & _) & _). exact Hn. Qed.
Print Assumptions C07_far_not_supported.
Example C07_hypotheses : run (stOf e4) (spOf e4) /\ isAutoGrowC (g_code (stOf e4)) && sp_ready (spOf e4) = false /\ alive_ref (spOf e4) X
  /\ lm_nextId (g_lm (stOf e4)) < 2147483647 /\ tid_of (spOf e4) X = Some (TObj (Fresh 0)) /\ c_size (g_code (stOf e4)) <= maxCode
  /\ exec (jmpL X) (stOf e4) = Done (stOf e5) tt
  /\ takes_short (sp_defs (spOf e4) (TObj (Fresh 0))) (g_jmpNear (stOf e4)) T_AUTO (c_size (g_code (stOf e4))) = true.
Proof.
  split; [grun|].
  split; [vmr|]. split; [vm_compute; discriminate|]. split; [vmr|]. split; [vmr|].
  split; [vm_compute; discriminate|]. split; [done|vmr].
Qed.

(* ---- C08: one definition ---- *)
Theorem C08_redefined_string : forall s a k t o, run s a -> k <> "@@"%string -> k <> "@b"%string -> k <> "@f"%string ->
  tid_of a (LStr k) = Some t -> sp_defs a t = Some o -> exec (OpL (LStr k)) s = Thrown s ERR_LABEL_IS_REDEFINED.
Proof. intros s a k t o H. apply L_redef_str. now apply run_inv. Qed.
Print Assumptions C08_redefined_string.
Theorem C08_redefined_object : forall s a h i o, run s a -> labOf a h = Some i -> sp_defs a (TObj i) = Some o ->
  exec (OpL (LObj h)) s = Thrown s ERR_LABEL_IS_REDEFINED.
Proof. intros s a h i o H. apply L_redef_obj. now apply run_inv. Qed.
Print Assumptions C08_redefined_object.
Theorem C08_reserved_names : forall s a k, run s a -> k = "@b"%string \/ k = "@f"%string -> exec (OpL (LStr k)) s = Thrown s ERR_BAD_LABEL_STR.
Proof. exact L_reserved. Qed.
Print Assumptions C08_reserved_names.
(* a definition binds the label to the current position; later calls never move it (it can only
   disappear with the last Label object) *)
Theorem C08_definition_stays : forall s a l s1 a1 t os s2 a2, run s a -> exec (OpL l) s = Done s1 tt -> shistory s a [OpL l] s1 a1 -> ltid a l = Some t ->
  shistory s1 a1 os s2 a2 -> no_reset os ->
  sp_defs a2 t = Some (c_size (g_code s)) \/ (exists h, l = LObj h) /\ gone a2 t.
Proof. exact def_stays. Qed.
Print Assumptions C08_definition_stays.
Example C08_hypotheses : run (stOf e3) (spOf e3) /\ labOf (spOf e3) 5%nat = Some (Fresh 0) /\ sp_defs (spOf e3) (TObj (Fresh 0)) = Some 15.
Proof.
  split; [grun|].
  split; vmr.
Qed.

(* ---- C09: undefined labels ---- *)
Theorem C09_hasUndefinedLabel : forall s a, run s a -> hasUndefinedLabel s = existsb unresolved (sp_refs a).
Proof. intros s a H. apply hasUndefined_iff. now apply run_inv. Qed.
Print Assumptions C09_hasUndefinedLabel.
Theorem C09_ready_refuses : forall s a, run s a -> existsb unresolved (sp_refs a) = true -> exec OpReady s = Thrown s ERR_LABEL_IS_NOT_FOUND.
Proof. intros s a H. apply ready_undefined. now apply run_inv. Qed.
Print Assumptions C09_ready_refuses.
Theorem C09_ready_accepts : forall s a e s', run s a -> existsb unresolved (sp_refs a) = false -> exec OpReady s = Thrown s' e -> e <> ERR_LABEL_IS_NOT_FOUND.
Proof. intros s a e s' H. apply ready_defined. now apply run_inv. Qed.
Print Assumptions C09_ready_accepts.
(* an entry of the table is unresolved exactly while its label has no definition *)
Theorem C09_unresolved_means_undefined : forall s a r t, run s a -> In r (sp_refs a) -> r_tid r = Some t ->
  r_val r = sp_defs a t \/ gone a t.
Proof. intros s a r t H. apply (run_SI _ _ H). Qed.
Print Assumptions C09_unresolved_means_undefined.
Example C09_hypotheses : run (stOf e2) (spOf e2) /\ existsb unresolved (sp_refs (spOf e2)) = true
  /\ run (stOf e3) (spOf e3) /\ existsb unresolved (sp_refs (spOf e3)) = false.
Proof.
  split; [grun|].
  split; [vmr|]. split; [grun|vmr].
Qed.

(* ---- C10: "@@", "@f", "@b" ---- *)
Theorem C10_at_f : forall s a ty sc lc lp s1 a1 os s2 a2 s3 a3 os' s4 a4,
  run s a -> exec (OpJmp (LStr "@f"%string) ty sc lc lp) s = Done s1 tt -> shistory s a [OpJmp (LStr "@f"%string) ty sc lc lp] s1 a1 ->
  shistory s1 a1 os s2 a2 -> no_reset os -> no_at os ->
  exec (OpL AT) s2 = Done s3 tt -> shistory s2 a2 [OpL AT] s3 a3 ->
  shistory s3 a3 os' s4 a4 -> no_reset os' -> finished s4 a4 ->
  let n := jsize (c_size (g_code s)) (c_size (g_code s1)) in
  branch_target (g_code s4) (c_size (g_code s1) - n) n = w64 (c_top (g_code s4) + c_size (g_code s2)).
Proof. exact jump_f. Qed.
Print Assumptions C10_at_f.
Theorem C10_at_b : forall s a s1 a1 os s2 a2 ty sc lc lp s3 a3 os' s4 a4,
  run s a -> exec (OpL AT) s = Done s1 tt -> shistory s a [OpL AT] s1 a1 ->
  shistory s1 a1 os s2 a2 -> no_reset os -> no_at os ->
  exec (OpJmp (LStr "@b"%string) ty sc lc lp) s2 = Done s3 tt -> shistory s2 a2 [OpJmp (LStr "@b"%string) ty sc lc lp] s3 a3 ->
  shistory s3 a3 os' s4 a4 -> no_reset os' -> finished s4 a4 ->
  let n := jsize (c_size (g_code s2)) (c_size (g_code s3)) in
  branch_target (g_code s4) (c_size (g_code s3) - n) n = w64 (c_top (g_code s4) + c_size (g_code s)).
Proof. exact jump_b. Qed.
Print Assumptions C10_at_b.
Theorem C10_at_b_without_at : forall s a ty sc lc lp, run s a -> isAutoGrowC (g_code s) && sp_ready a = false -> sp_anon a = O -> ty <> T_FAR ->
  match exec (OpJmp (LStr "@b"%string) ty sc lc lp) s with
  | Done _ _ => False | Thrown s1 e => (bufErr e \/ e = ERR_LABEL_IS_NOT_FOUND) /\ c_size (g_code s1) = c_size (g_code s) | UB => False end.
Proof. exact jump_b_none. Qed.
Print Assumptions C10_at_b_without_at.
Definition at_f := LStr "@f"%string.
Definition at_b := LStr "@b"%string.
Definition f0 := ph (start 100 UNull) [jmpL at_f; dbO 1; OpL AT; dbO 2; OpL AT; dbO 3].
Definition f1 := ph f0 [jmpL at_f].
Definition f2 := ph f1 [jmpL at_b; dbO 4].
Definition f3 := ph f2 [OpL AT].
Definition f4 := ph f3 [dbO 5].
Definition f5 := ph f4 [jmpL at_b].
Definition f6 := ph f5 [OpL AT].
Lemma f0_run : run (stOf f0) (spOf f0).
Proof. grun. Qed.
Ltac not_in := unfold no_reset, no_at; cbn; intros H; repeat (destruct H as [H|H]; [discriminate H|]); exact H.
Example C10_hypotheses :
  run (stOf f0) (spOf f0) /\ exec (jmpL at_f) (stOf f0) = Done (stOf f1) tt /\ shistory (stOf f0) (spOf f0) [jmpL at_f] (stOf f1) (spOf f1)
  /\ shistory (stOf f1) (spOf f1) [jmpL at_b; dbO 4] (stOf f2) (spOf f2) /\ no_reset [jmpL at_b; dbO 4] /\ no_at [jmpL at_b; dbO 4]
  /\ exec (OpL AT) (stOf f2) = Done (stOf f3) tt /\ shistory (stOf f2) (spOf f2) [OpL AT] (stOf f3) (spOf f3)
  /\ shistory (stOf f3) (spOf f3) [dbO 5] (stOf f4) (spOf f4) /\ no_reset [dbO 5] /\ no_at [dbO 5]
  /\ exec (jmpL at_b) (stOf f4) = Done (stOf f5) tt /\ shistory (stOf f4) (spOf f4) [jmpL at_b] (stOf f5) (spOf f5)
  /\ shistory (stOf f5) (spOf f5) [OpL AT] (stOf f6) (spOf f6) /\ finished (stOf f6) (spOf f6)
  /\ mem_is 0 [0xEB; 1; 1; 2; 3; 0xEB; 3; 0xEB; 251; 4; 5; 0xEB; 253] (stOf f6) = true
  /\ run (stOf (start 100 UNull)) (spOf (start 100 UNull)) /\ sp_anon (spOf (start 100 UNull)) = 0%nat.
Proof.
  split; [apply f0_run|].
  split; [done|]. split; [hist|].
  split; [hist|]. split; [not_in|]. split; [not_in|].
  split; [done|]. split; [hist|].
  split; [hist|]. split; [not_in|]. split; [not_in|].
  split; [done|]. split; [hist|].
  split; [hist|]. split; [intros H; vm_compute in H; discriminate H|]. split; [vmr|].
  split; [grun|reflexivity].
Qed.

(* ---- C11: local labels ---- *)
(* a name starting with '.' denotes the label of that name in the innermost open scope; C04 then says
   where jumps to it land *)
Theorem C11_name_in_scope : forall a k, isLocalStr k = true -> tid_of a (LStr k) = Some (TLocal (hd O (sp_scopes a)) k).
Proof. exact local_name. Qed.
Print Assumptions C11_name_in_scope.
Theorem C11_other_names_are_global : forall a k, isLocalStr k = false -> k <> "@b"%string -> k <> "@f"%string -> tid_of a (LStr k) = Some (TGlobal k).
Proof. exact global_name. Qed.
Print Assumptions C11_other_names_are_global.
(* inLocalLabel() opens a scope that differs from all earlier ones, in which nothing is defined *)
Theorem C11_inLocal_opens_fresh_scope : forall s a s1 a1, run s a -> exec OpInLocal s = Done s1 tt -> shistory s a [OpInLocal] s1 a1 ->
  exists j, sp_scopes a1 = j :: sp_scopes a /\ ~ In j (sp_scopes a) /\ forall k, sp_defs a1 (TLocal j k) = None.
Proof. exact inLocal_fresh. Qed.
Print Assumptions C11_inLocal_opens_fresh_scope.
Theorem C11_outLocal_without_inLocal : forall s a j, run s a -> sp_scopes a = [j] -> exec OpOutLocal s = Thrown s ERR_UNDER_LOCAL_LABEL.
Proof. intros s a j H. apply leave_under. now apply run_inv. Qed.
Print Assumptions C11_outLocal_without_inLocal.
Theorem C11_outLocal_unresolved : forall s a j j' js, run s a -> sp_scopes a = j :: j' :: js -> existsb (waits_local j) (sp_refs a) = true ->
  exec OpOutLocal s = Thrown s ERR_LABEL_IS_NOT_FOUND.
Proof. intros s a j j' js H. apply leave_waits. now apply run_inv. Qed.
Print Assumptions C11_outLocal_unresolved.
Theorem C11_outLocal_resolved : forall s a j j' js, run s a -> sp_scopes a = j :: j' :: js -> existsb (waits_local j) (sp_refs a) = false ->
  exists s', exec OpOutLocal s = Done s' tt /\ g_code s' = g_code s /\ Inv s' (set_scopes a (j' :: js) (sp_nscope a)).
Proof. intros s a j j' js H. apply leave_ok. now apply run_inv. Qed.
Print Assumptions C11_outLocal_resolved.
Definition dotx := LStr ".x"%string.
Definition l0 := ph (start 100 UNull) [OpL dotx; dbO 1; OpInLocal; jmpL dotx].
Definition l1 := ph l0 [dbO 2; OpL dotx; jmpL dotx].
Definition l2 := ph l1 [OpOutLocal; jmpL dotx].
Example C11_hypotheses : run (stOf l0) (spOf l0) /\ sp_scopes (spOf l0) = [1%nat; 0%nat] /\ existsb (waits_local 1) (sp_refs (spOf l0)) = true
  /\ run (stOf l1) (spOf l1) /\ existsb (waits_local 1) (sp_refs (spOf l1)) = false
  /\ run (stOf l2) (spOf l2) /\ sp_scopes (spOf l2) = [0%nat]
  /\ mem_is 0 [1; 0xEB; 1; 2; 0xEB; 254; 0xEB; 248] (stOf l2) = true.
Proof.
  assert (run (stOf l0) (spOf l0)) as R0 by (grun).
  assert (run (stOf l1) (spOf l1)) as R1 by (grun).
  split; [exact R0|]. split; [vmr|]. split; [vmr|]. split; [exact R1|]. split; [vmr|].
  split; [grun|]. split; vmr.
Qed.

(* ---- C12: assignL ---- *)
(* pending references to dst reach src.  Partial: SpecLabel.v covers assignL only when dst has been
   referenced by relative fields (fixed buffer) before; see C12_*_refuted for the other cases *)
Theorem C12_earlier_jumps_partial : forall s a l ty sc lc lp s1 a1 os s2 a2 d s0 i j o s3 a3 os' s4 a4,
  run s a -> exec (OpJmp l ty sc lc lp) s = Done s1 tt -> shistory s a [OpJmp l ty sc lc lp] s1 a1 -> tid_of a l = Some (TObj i) ->
  shistory s1 a1 os s2 a2 -> no_reset os ->
  exec (OpAssign d s0) s2 = Done s3 tt -> shistory s2 a2 [OpAssign d s0] s3 a3 ->
  labOf a2 d = Some i -> labOf a2 s0 = Some j -> sp_defs a2 (TObj j) = Some o ->
  shistory s3 a3 os' s4 a4 -> no_reset os' -> finished s4 a4 ->
  let n := jsize (c_size (g_code s)) (c_size (g_code s1)) in
  branch_target (g_code s4) (c_size (g_code s1) - n) n = w64 (c_top (g_code s4) + o).
Proof. exact assigned_jump. Qed.
Print Assumptions C12_earlier_jumps_partial.
(* later references: dst has the position of src from now on, and C04_jump_lands applies *)
Theorem C12_same_position_partial : forall s a d s0 s1 a1 i j o, run s a -> exec (OpAssign d s0) s = Done s1 tt -> shistory s a [OpAssign d s0] s1 a1 ->
  labOf a d = Some i -> labOf a s0 = Some j -> sp_defs a (TObj j) = Some o -> sp_defs a1 (TObj i) = Some o.
Proof. intros s a d s0 s1 a1 i j o _. apply assign_defines. Qed.
Print Assumptions C12_same_position_partial.
Theorem C12_redefined : forall s a d s0 i j o o', run s a -> labOf a d = Some i -> labOf a s0 = Some j ->
  sp_defs a (TObj j) = Some o -> sp_defs a (TObj i) = Some o' -> exec (OpAssign d s0) s = Thrown s ERR_LABEL_IS_REDEFINED.
Proof. intros s a d s0 i j o o' H. apply assign_redef. now apply run_inv. Qed.
Print Assumptions C12_redefined.
Theorem C12_undefined_source : forall s a d s0 j, run s a -> labOf a s0 = Some j -> sp_defs a (TObj j) = None ->
  exec (OpAssign d s0) s = Thrown s ERR_LABEL_ISNOT_SET_BY_L.
Proof. intros s a d s0 j H. apply assign_undef. now apply run_inv. Qed.
Print Assumptions C12_undefined_source.
Definition a0 := ph (start 100 UNull) [OpNewLabel 1%nat; OpNewLabel 2%nat; OpL (LObj 1%nat); dbO 0x90].
Definition a1 := ph a0 [jmpL (LObj 2%nat)].
Definition a2 := ph a1 [OpAssign 2%nat 1%nat].
Definition a3 := ph a2 [jmpL (LObj 2%nat)].
Example C12_hypotheses : run (stOf a0) (spOf a0)
  /\ exec (jmpL (LObj 2%nat)) (stOf a0) = Done (stOf a1) tt /\ shistory (stOf a0) (spOf a0) [jmpL (LObj 2%nat)] (stOf a1) (spOf a1)
  /\ tid_of (spOf a0) (LObj 2%nat) = Some (TObj (Fresh 1))
  /\ exec (OpAssign 2%nat 1%nat) (stOf a1) = Done (stOf a2) tt /\ shistory (stOf a1) (spOf a1) [OpAssign 2%nat 1%nat] (stOf a2) (spOf a2)
  /\ labOf (spOf a1) 2%nat = Some (Fresh 1) /\ labOf (spOf a1) 1%nat = Some (Fresh 0) /\ sp_defs (spOf a1) (TObj (Fresh 0)) = Some 0
  /\ shistory (stOf a2) (spOf a2) [jmpL (LObj 2%nat)] (stOf a3) (spOf a3) /\ finished (stOf a3) (spOf a3)
  /\ mem_is 0 [0x90; 0xEB; 253; 0xEB; 251] (stOf a3) = true.
Proof.
  split; [grun|].
  split; [done|]. split; [hist|]. split; [vmr|].
  split; [done|]. split; [hist|].
  split; [vmr|]. split; [vmr|]. split; [vmr|].
  split; [hist|]. split; [intros H; vm_compute in H; discriminate H|]. vmr.
Qed.

(* ---- C13: copies ---- *)
(* Partial: copies of labels already defined; copies made before L() are refuted below (C13_*_refuted) *)
Theorem C13_copy_same_label_partial : forall s a d s0 s1 a1, run s a -> exec (OpCopy d s0) s = Done s1 tt -> shistory s a [OpCopy d s0] s1 a1 ->
  tid_of a1 (LObj d) = tid_of a (LObj s0) /\ tid_of a1 (LObj s0) = tid_of a (LObj s0) /\ sp_defs a1 = sp_defs a
  /\ exists v, getAddress d s1 = Done s1 v /\ getAddress s0 s1 = Done s1 v.
Proof. exact copy_same. Qed.
Print Assumptions C13_copy_same_label_partial.
Theorem C13_copy_assign_same_label_partial : forall s a d s0 s1 a1, run s a -> exec (OpCopyAssign d s0) s = Done s1 tt -> shistory s a [OpCopyAssign d s0] s1 a1 -> d <> s0 ->
  tid_of a1 (LObj d) = tid_of a (LObj s0) /\ tid_of a1 (LObj s0) = tid_of a (LObj s0) /\ sp_defs a1 = sp_defs a
  /\ exists v, getAddress d s1 = Done s1 v /\ getAddress s0 s1 = Done s1 v.
Proof. exact copyAssign_same. Qed.
Print Assumptions C13_copy_assign_same_label_partial.
Theorem C13_destroy_one_of_several : forall s a h h' i s1 a1, run s a -> exec (OpDestroy h) s = Done s1 tt -> shistory s a [OpDestroy h] s1 a1 ->
  labOf a h = Some i -> h' <> h -> labOf a h' = Some i -> sp_defs a1 = sp_defs a /\ labOf a1 h' = Some i
  /\ getAddress h' s1 = Done s1 (match sp_defs a (TObj i) with
                           | Some o => if isAutoGrowC (g_code s1) && negb (sp_ready a) then 0 else w64 (c_top (g_code s1) + o)
                           | None => 0 end).
Proof. exact destroy_one. Qed.
Print Assumptions C13_destroy_one_of_several.
Theorem C13_destroy_last : forall s a h i s1 a1, run s a -> exec (OpDestroy h) s = Done s1 tt -> shistory s a [OpDestroy h] s1 a1 ->
  labOf a h = Some i -> (forall h', h' <> h -> labOf a h' <> Some i) -> sp_defs a1 (TObj i) = None.
Proof. exact destroy_last. Qed.
Print Assumptions C13_destroy_last.
Definition c0 := ph (start 100 UNull) [dbO 1; OpNewLabel 1%nat; OpNewLabel 3%nat; OpL (LObj 1%nat); dbO 0x90].
Definition c1 := ph c0 [OpCopy 2%nat 1%nat].
Definition c2 := ph c1 [OpCopyAssign 3%nat 2%nat].
Definition c3 := ph c2 [OpDestroy 1%nat].
Definition c4 := ph c3 [OpDestroy 2%nat; jmpL (LObj 3%nat)].
Definition c5 := ph c4 [OpDestroy 3%nat].
Example C13_hypotheses : run (stOf c0) (spOf c0)
  /\ exec (OpCopy 2%nat 1%nat) (stOf c0) = Done (stOf c1) tt /\ shistory (stOf c0) (spOf c0) [OpCopy 2%nat 1%nat] (stOf c1) (spOf c1)
  /\ exec (OpCopyAssign 3%nat 2%nat) (stOf c1) = Done (stOf c2) tt /\ shistory (stOf c1) (spOf c1) [OpCopyAssign 3%nat 2%nat] (stOf c2) (spOf c2)
  /\ exec (OpDestroy 1%nat) (stOf c2) = Done (stOf c3) tt /\ shistory (stOf c2) (spOf c2) [OpDestroy 1%nat] (stOf c3) (spOf c3)
  /\ labOf (spOf c2) 1%nat = Some (Fresh 0) /\ labOf (spOf c2) 3%nat = Some (Fresh 0)
  /\ shistory (stOf c3) (spOf c3) [OpDestroy 2%nat; jmpL (LObj 3%nat)] (stOf c4) (spOf c4)
  /\ exec (OpDestroy 3%nat) (stOf c4) = Done (stOf c5) tt /\ shistory (stOf c4) (spOf c4) [OpDestroy 3%nat] (stOf c5) (spOf c5)
  /\ mem_is 0 [1; 0x90; 0xEB; 253] (stOf c5) = true.
Proof.
  split; [grun|].
  split; [done|]. split; [hist|].
  split; [done|]. split; [hist|].
  split; [done|]. split; [hist|].
  split; [vmr|]. split; [vmr|]. split; [hist|].
  split; [done|]. split; [hist|]. vmr.
Qed.

(* ---- C14: reset() and the end of the generator ---- *)
Theorem C14_reset : forall s a, run s a -> exists s', exec OpReset s = Done s' tt /\
  g_err s' = None /\ g_lm s' = freshLM /\
  c_size (g_code s') = 0 /\ c_infos (g_code s') = [] /\ c_called (g_code s') = false /\
  c_type (g_code s') = c_type (g_code s) /\ c_top (g_code s') = c_top (g_code s) /\ c_max (g_code s') = c_max (g_code s) /\ c_mem (g_code s') = c_mem (g_code s) /\
  (forall h, g_labels s' h = match labOf a h with Some i => if isDef a i then mkLab true false 0 else g_labels s h | None => g_labels s h end).
Proof. intros s a H. apply reset_exact. now apply run_inv. Qed.
Print Assumptions C14_reset.
(* ~LabelManager is resetLabelPtrList *)
Theorem C14_destruction : forall s a, run s a -> exists s', resetLabelPtrList s = Done s' tt /\
  forall h, l_alive (g_labels s h) = true -> l_mgr (g_labels s' h) = false /\ l_alive (g_labels s' h) = true.
Proof. intros s a H. apply (destruct_exact s a). now apply run_inv. Qed.
Print Assumptions C14_destruction.
Theorem C14_detached_label : forall s h, l_alive (g_labels s h) = true -> l_mgr (g_labels s h) = false ->
  getAddress h s = Done s 0 /\ exists s', destroyLabel h s = Done s' tt /\ g_code s' = g_code s /\ g_lm s' = g_lm s.
Proof. exact dead_mgr. Qed.
Print Assumptions C14_detached_label.
Example C14_hypotheses : run (stOf c2) (spOf c2) /\ isDef (spOf c2) (Fresh 0) = true /\ labOf (spOf c2) 1%nat = Some (Fresh 0).
Proof.
  split; [|split; vmr].
  grun.
Qed.

(* ---- C15: Label::getAddress ---- *)
Theorem C15_getAddress : forall s a h i, run s a -> labOf a h = Some i ->
  getAddress h s = Done s (match sp_defs a (TObj i) with
                           | Some o => if isAutoGrowC (g_code s) && negb (sp_ready a) then 0 else w64 (c_top (g_code s) + o)
                           | None => 0 end).
Proof. intros s a h i H. apply getAddress_exact. now apply run_inv. Qed.
Print Assumptions C15_getAddress.
Example C15_hypotheses : run (stOf e3) (spOf e3) /\ labOf (spOf e3) 5%nat = Some (Fresh 0).
Proof. split; [grun|vmr]. Qed.

(* ---- C16: jumps to absolute addresses ---- *)
Theorem C16_lands_partial : forall s a addr ty sc lc lp s1 a1 os s2 a2,
  run s a -> exec (OpJmpAbs addr ty sc lc lp) s = Done s1 tt -> shistory s a [OpJmpAbs addr ty sc lc lp] s1 a1 ->
  shistory s1 a1 os s2 a2 -> no_reset os -> finished s2 a2 ->
  (isAutoGrowC (g_code s) = false -> -2147483648 + 6 <= jdist s addr) ->      (* else C16_wrap_refuted *)
  let n := jsize (c_size (g_code s)) (c_size (g_code s1)) in
  branch_target (g_code s2) (c_size (g_code s1) - n) n = w64 addr.
Proof. intros s a addr ty sc lc lp s1 a1 os s2 a2 H. apply absjmp_lands. now apply run_inv. Qed.
Print Assumptions C16_lands_partial.
Theorem C16_outcome : forall s a addr ty sc lc lp, run s a -> isAutoGrowC (g_code s) = false -> ty <> T_FAR ->
  match exec (OpJmpAbs addr ty sc lc lp) s with
  | Done s1 _ => in32 (jdist s addr) = true /\
      c_size (g_code s1) - c_size (g_code s) =
        (if negb (LabelType_beq ty T_NEAR) && in8 (jdist s addr - 2) then 2 else if lp =? 0 then 5 else 6)
  | Thrown _ e => e = ERR_OFFSET_IS_TOO_BIG /\ in32 (jdist s addr) = false
      \/ in32 (jdist s addr) = true /\ (e = ERR_CODE_IS_TOO_BIG \/
          e = ERR_LABEL_IS_TOO_FAR /\ ty = T_SHORT /\ in8 (jdist s addr - 2) = false)
  | UB => False
  end.
Proof. intros s a addr ty sc lc lp H. apply absjmp_fixed. now apply (run_ok s a). Qed.
Print Assumptions C16_outcome.
Definition j0 := start 100 UNull.
Definition j1 := ph j0 [jmpA 0x12345678 T_AUTO].
Definition j2 := ph j1 [dbO 0x90].
Example C16_hypotheses : run (stOf j0) (spOf j0) /\ exec (jmpA 0x12345678 T_AUTO) (stOf j0) = Done (stOf j1) tt
  /\ shistory (stOf j0) (spOf j0) [jmpA 0x12345678 T_AUTO] (stOf j1) (spOf j1) /\ shistory (stOf j1) (spOf j1) [dbO 0x90] (stOf j2) (spOf j2)
  /\ finished (stOf j2) (spOf j2) /\ -2147483648 + 6 <= jdist (stOf j0) 0x12345678.
Proof.
  split; [grun|].
  split; [done|]. split; [hist|]. split; [hist|].
  split; [intros H; vm_compute in H; discriminate H|]. vm_compute; discriminate.
Qed.
