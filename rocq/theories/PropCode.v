(* Property theorems C01-C03, C30, C31: the code buffer, data, errors.

   [run s a]: s is a state reached from a newly constructed generator by any history of calls, a is
   the label table of that history (SpecLabel.v).  [exec o s]: the outcome of call o: Done, Thrown
   (an exception) or UB (a write outside the buffer, use of a dead object). *)
From Coq Require Import ZArith List Bool String Lia.
From Verif Require Import Base Types Emit Encode State Code Label Gen Wp CodeFacts LabelFacts LabelInv LabelEmit SpecMem SpecLabel LabelHist LabelThms LabelThms2 LabelThms3 LabelThms4 Stable LabelThms5 Grow LabelThms6 LabelThms7 CodeThms NoExc NoExcEnc DefsKept RunCheck.
Import ListNotations.
Open Scope Z_scope.

(* ---- C01: fixed buffers ---- *)
(* bytes are appended exactly, or ERR_CODE_IS_TOO_BIG exactly when they do not fit *)
Theorem C01_append_or_too_big : forall s a l, run s a -> isAutoGrowC (g_code s) = false ->
  let c := g_code s in let n := Z.of_nat (List.length l) in
  match dbsM l s with
  | Done s' _ =>
      c_size c + n <= c_max c /\ c_size (g_code s') = c_size c + n
      /\ mem_has (c_mem (g_code s')) (c_size c) (map w8 l)
      /\ (forall k, k < c_size c \/ c_size c + n <= k -> c_mem (g_code s') k = c_mem c k)
      /\ c_top (g_code s') = c_top c /\ c_max (g_code s') = c_max c
  | Thrown s' e =>
      e = ERR_CODE_IS_TOO_BIG /\ c_max c < c_size c + n
      /\ c_size c <= c_size (g_code s') <= c_max c
      /\ (forall k, k < c_size c \/ c_max c <= k -> c_mem (g_code s') k = c_mem c k)
      /\ c_top (g_code s') = c_top c /\ c_max (g_code s') = c_max c
  | UB => False
  end.
Proof. exact fixed_dbs. Qed.
Print Assumptions C01_append_or_too_big.

(* any instruction: its bytes are in place after the call, earlier bytes and the bytes outside the
   buffer are unchanged, and no write leaves the buffer (that would be UB) *)
Theorem C01_instruction : forall s a m, run s a -> legal a (OpEmit m) (env_of s) (c_size (g_code s)) -> ids_left s (OpEmit m) ->
  isAutoGrowC (g_code s) && sp_ready a = false ->
  match exec (OpEmit m) s with
  | Done s1 _ => let its := fst (m (env_of s) (c_size (g_code s))) in
      c_size (g_code s1) = c_size (g_code s) + items_len its /\ items_at (c_mem (g_code s1)) (c_size (g_code s)) its
      /\ (forall k, 0 <= k < c_size (g_code s) -> c_mem (g_code s1) k = c_mem (g_code s) k)
      /\ (isAutoGrowC (g_code s) = false -> fixed_same s s1)
  | Thrown s1 _ =>
      c_size (g_code s) <= c_size (g_code s1)
      /\ (forall k, 0 <= k < c_size (g_code s) -> c_mem (g_code s1) k = c_mem (g_code s) k)
      /\ (isAutoGrowC (g_code s) = false -> fixed_same s s1)
  | UB => False
  end.
Proof. exact instr_bytes. Qed.
Print Assumptions C01_instruction.

(* whole histories: the buffer stays where it is, getSize() <= maxSize, and no byte outside
   [getCode(), getCode()+maxSize) changes *)
Theorem C01_history : forall os s a s' a', run s a -> isAutoGrowC (g_code s) = false -> shistory s a os s' a' -> fixed_same s s'.
Proof. intros os s a s' a' H. apply history_fixed. now apply run_inv. Qed.
Print Assumptions C01_history.
Theorem C01_no_out_of_bounds : forall s a o, run s a -> legal a o (env_of s) (c_size (g_code s)) -> ids_left s o ->
  (emitting o = true -> isAutoGrowC (g_code s) && sp_ready a = false) -> exec o s <> UB.
Proof. exact no_ub. Qed.
Print Assumptions C01_no_out_of_bounds.

(* setSize moves the write position inside the buffer only *)
Theorem C01_set_size : forall s a n, run s a -> 0 <= n ->
  match setSize n s with
  | Done s1 _ => n <= c_max (g_code s) /\ s1 = set_code s (c_setsize (g_code s) n) /\ ok_st s1 /\ c_size (g_code s1) = n
                 /\ c_mem (g_code s1) = c_mem (g_code s)
  | Thrown s1 e => c_max (g_code s) < n /\ e = ERR_OFFSET_IS_TOO_BIG /\ s1 = s
  | UB => False
  end.
Proof. intros s a n H. apply set_size. exact (proj1 (run_inv _ _ H)). Qed.
Print Assumptions C01_set_size.

Definition ex_os : list op := [dbO 0x90; jmpN (LStr "x"%string); dbO 0xC3; OpL (LStr "x"%string)].
Definition ex_st : St := stOf (fin (runb (gen0 7 UNull) spec0 ex_os)).
Definition ex_sp : Spec := spOf (fin (runb (gen0 7 UNull) spec0 ex_os)).
(* a 7-byte buffer filled to the last byte: one more byte is refused *)
Example C01_hypotheses : run ex_st ex_sp /\ isAutoGrowC (g_code ex_st) = false /\ c_size (g_code ex_st) = 7 /\ c_max (g_code ex_st) = 7
  /\ (exists s', dbsM [1] ex_st = Thrown s' ERR_CODE_IS_TOO_BIG).
Proof.
  split; [apply run_fin; vm_compute; reflexivity|]. split; [vm_compute; reflexivity|]. split; [vm_compute; reflexivity|].
  split; [vm_compute; reflexivity|]. apply throws_ok. vm_compute. reflexivity.
Qed.

(* ---- C02: growing buffers ---- *)
(* two generators, of any buffer kinds and sizes, with any allocator answers, that run the same
   program successfully hold the same finished code *)
Theorem C02_growth_invisible : forall os s0 t0 s t a b,
  new_gen s0 -> new_gen t0 -> Forall portable os -> shist_ok s0 spec0 os s a -> shist_ok t0 spec0 os t b ->
  finished s a -> finished t a -> hasUndefinedLabel s = false -> b = a /\ same_code s t a.
Proof. exact growth_invisible. Qed.
Print Assumptions C02_growth_invisible.
Theorem C02_never_too_big : forall s a o, run s a -> isAutoGrowC (g_code s) = true -> Stable.emits o = true ->
  (forall m, o = OpEmit m -> forall env p, snd (m env p) <> Err ERR_CODE_IS_TOO_BIG) ->
  forall s1, exec o s <> Thrown s1 ERR_CODE_IS_TOO_BIG.
Proof. exact grow_never_full. Qed.
Print Assumptions C02_never_too_big.
(* emitted bytes survive every later call; [open_at]: inside a label field still to be filled in *)
Theorem C02_bytes_survive : forall os s a s' a', run s a -> shistory s a os s' a' -> no_reset os ->
  c_size (g_code s) <= c_size (g_code s') /\
  forall k, 0 <= k < c_size (g_code s) -> ~ open_at s a k -> c_mem (g_code s') k = c_mem (g_code s) k.
Proof. intros os s a s' a' H. apply history_keeps. now apply run_inv. Qed.
Print Assumptions C02_bytes_survive.

Definition ex2_os : list op :=
  [dbO 0x90; jmpN (LStr "x"%string); putLO (LStr "x"%string); dbO 0xC3; OpL (LStr "x"%string); jmpL (LStr "x"%string); putLO (LStr "x"%string); OpReady].
Definition ex2 (m : Z) (u : UserPtr) := fin (runb (gen0 m u) spec0 ex2_os).
(* a growing buffer that starts with one byte, and a fixed buffer of 1000 bytes *)
Lemma ex_db_portable b : portable (dbO b).
Proof. intros e e' p H. reflexivity. Qed.
Lemma ex_putL_portable l : portable (putLO l).
Proof. intros e e' p H. reflexivity. Qed.
Example C02_hypotheses :
  new_gen (gen0 1 UAutoGrow) /\ new_gen (gen0 1000 UNull) /\ Forall portable ex2_os
  /\ shist_ok (gen0 1 UAutoGrow) spec0 ex2_os (stOf (ex2 1 UAutoGrow)) (spOf (ex2 1 UAutoGrow))
  /\ shist_ok (gen0 1000 UNull) spec0 ex2_os (stOf (ex2 1000 UNull)) (spOf (ex2 1000 UNull))
  /\ finished (stOf (ex2 1 UAutoGrow)) (spOf (ex2 1 UAutoGrow)) /\ finished (stOf (ex2 1000 UNull)) (spOf (ex2 1 UAutoGrow))
  /\ hasUndefinedLabel (stOf (ex2 1 UAutoGrow)) = false
  /\ c_top (g_code (stOf (ex2 1 UAutoGrow))) <> c_top (g_code (gen0 1 UAutoGrow)).   (* it has moved *)
Proof.
  split; [apply gen0_ok; vm_compute; reflexivity|]. split; [apply gen0_ok; vm_compute; reflexivity|].
  split; [repeat constructor; auto using ex_db_portable, ex_putL_portable|].
  split; [apply run_ok_fin; vm_compute; reflexivity|]. split; [apply run_ok_fin; vm_compute; reflexivity|].
  split; [intros _; vm_compute; reflexivity|]. split; [intros _; vm_compute; reflexivity|]. split; [vm_compute; reflexivity|].
  vm_compute. discriminate.
Qed.

(* ---- C03: data ---- *)
(* db(v, n); dw, dd, dq are db(uint32_t(v), 2), db(uint32_t(v), 4), db(v, 8) *)
Theorem C03_data : forall s a v n, run s a -> 0 <= n <= 8 ->
  match exec (OpEmit (dbn v n)) s with
  | Done s1 _ => c_size (g_code s1) = c_size (g_code s) + n /\ le_read (c_mem (g_code s1)) (c_size (g_code s)) (Z.to_nat n) = v mod 2 ^ (8 * n)
      /\ all_kept s s1
  | Thrown s1 e => bufErr e /\ all_kept s s1
  | UB => False
  end.
Proof. exact data_bytes. Qed.
Print Assumptions C03_data.
Theorem C03_data_bad_size : forall s a v n, run s a -> 8 < n -> exec (OpEmit (dbn v n)) s = Thrown s ERR_BAD_PARAMETER.
Proof. intros s a v n H. apply dbn_bad. now apply (run_ok s a). Qed.
Print Assumptions C03_data_bad_size.
Theorem C03_rewrite : forall s a off v n, run s a -> n = 1 \/ n = 2 \/ n = 4 \/ n = 8 -> 0 <= off -> off + n <= c_size (g_code s) ->
  exists s1, rewrite off v n s = Done s1 tt
    /\ le_read (c_mem (g_code s1)) off (Z.to_nat n) = v mod 2 ^ (8 * n)
    /\ (forall k, k < off \/ off + n <= k -> c_mem (g_code s1) k = c_mem (g_code s) k)
    /\ c_size (g_code s1) = c_size (g_code s) /\ c_top (g_code s1) = c_top (g_code s).
Proof. exact rewrite_bytes. Qed.
Print Assumptions C03_rewrite.
Theorem C03_rewrite_bad_size : forall s a off v n, run s a -> n <> 1 -> n <> 2 -> n <> 4 -> n <> 8 ->
  rewrite off v n s = Thrown s ERR_BAD_PARAMETER.
Proof. intros s a off v n H. apply rewrite_bad. apply (run_ok s a H). Qed.
Print Assumptions C03_rewrite_bad_size.
Example C03_hypotheses : run ex_st ex_sp /\ 3 + 4 <= c_size (g_code ex_st)
  /\ (exists s1, rewrite 3 0x11223344 4 ex_st = Done s1 tt /\ mem_is 2 [1; 0x44; 0x33; 0x22; 0x11; 0xCC] s1 = true).
Proof.
  split; [apply C01_hypotheses|]. split; [vm_compute; discriminate|]. apply dones_unit. vm_compute. reflexivity.
Qed.

(* ---- C30: the build without exceptions ---- *)
(* [nx s] is s in the no-exception build with no error recorded; [encoder_fine]: the encoder of an
   instruction is built from the modelled encoders (NoExcEnc.v proves it for each) *)
Theorem C30_same_code_without_errors : forall o s s1, encoder_fine o -> g_noexc s = false -> exec o s = Done s1 tt -> exec o (nx s) = Done (nx s1) tt.
Proof. exact noexc_same. Qed.
Print Assumptions C30_same_code_without_errors.
Theorem C30_error_is_recorded : forall o s s1 e, encoder_fine o -> g_noexc s = false -> exec o s = Thrown s1 e ->
  match exec o (nx s) with Done s2 _ => g_err s2 <> None | Thrown _ _ => False | UB => True end.
Proof. exact noexc_reports. Qed.
Print Assumptions C30_error_is_recorded.
Theorem C30_first_error_is_kept : forall os s s' e, nhistory s os s' -> g_err s = Some e -> ~ In OpReset os -> g_err s' = Some e.
Proof. exact first_error. Qed.
Print Assumptions C30_first_error_is_kept.
Theorem C30_never_throws : forall o s s1 e, encoder_fine o -> g_noexc s = true -> exec o s <> Thrown s1 e.
Proof. exact never_throws. Qed.
Print Assumptions C30_never_throws.
(* mov(al, ecx): opRO_MR reports ERR_BAD_SIZE_OF_REGISTER; the next, good, call keeps it *)
Definition ex30 : op := OpEmit (opRO_MR (OReg (Reg8 0)) (OReg (Reg32 1)) 0x8A).
Example C30_hypotheses : encoder_fine ex30
  /\ (exists s1, exec ex30 (gen0 100 UNull) = Thrown s1 ERR_BAD_SIZE_OF_REGISTER)
  /\ (exists s1, exec ex30 (nx (gen0 100 UNull)) = Done s1 tt /\ negb (isSome (g_err s1)) = false /\ exists s2, nhistory s1 [dbO 0x90] s2).
Proof.
  split; [apply ef_opRO_MR|]. split; [apply throws_ok; vm_compute; reflexivity|].
  destruct (dones_unit (exec ex30 (nx (gen0 100 UNull))) (fun s => isSome (g_err s) && dones (exec (dbO 0x90) s) (fun _ => true))) as (s1 & E & H); [vm_compute; reflexivity|].
  apply andb_true_iff in H as [H1 H2]. apply dones_unit in H2 as (s2 & H2 & _).
  exists s1. split; [exact E|]. split; [now rewrite H1|]. exists s2. eapply NH_cons; [apply ef_db|exact H2|constructor].
Qed.

(* ---- C31: failing calls ---- *)
Theorem C31_failing_call_keeps_code : forall s a o s1 e, run s a -> o <> OpReset -> exec o s = Thrown s1 e ->
  c_size (g_code s) <= c_size (g_code s1)
  /\ (forall k, 0 <= k < c_size (g_code s) -> ~ open_at s a k -> c_mem (g_code s1) k = c_mem (g_code s) k).
Proof. intros s a o s1 e H Hn E. pose proof (exec_keeps o s a (run_inv _ _ H) Hn) as K. rewrite E in K. split; apply K. Qed.
Print Assumptions C31_failing_call_keeps_code.
(* after the failure the label table a1 is again the table of the history, and it keeps every
   definition and every resolved reference *)
Theorem C31_failing_call_keeps_labels : forall s a o s1 e a1, run s a -> o <> OpReset ->
  legal a o (env_of s) (c_size (g_code s)) -> ids_left s o ->
  exec o s = Thrown s1 e -> spec_step a o (Some e) (env_of s) (c_size (g_code s)) (c_size (g_code s1)) = Some a1 ->
  run s1 a1 /\ sp_defs a1 = sp_defs a /\ forall r, In r (sp_refs a) -> In r (sp_refs a1).
Proof. exact failed_labels. Qed.
Print Assumptions C31_failing_call_keeps_labels.
(* the cases in which the specification does not give a table (L() or assignL() failing because a
   pending reference is out of range, ready() failing): the definitions themselves are kept.
   [defs_kept]: every entry of every scope's table and of the table of Label ids *)
Theorem C31_failing_definition_keeps_definitions : forall o s s1 e,
  (exists l, o = OpL l /\ l <> LStr "@@"%string) \/ (exists d s0, o = OpAssign d s0) \/ o = OpReady ->
  exec o s = Thrown s1 e -> defs_kept s s1.
Proof.
  intros o s s1 e H E.
  assert (pres (exec o)) as P by (destruct H as [(l & -> & Hn)|[(d & s0 & ->)| ->]]; auto using pres_L, pres_assign, pres_ready).
  specialize (P s). now rewrite E in P.
Qed.
Print Assumptions C31_failing_definition_keeps_definitions.
Example C31_hypotheses : run ex_st ex_sp /\ (exists s1, exec (OpL (LStr "x"%string)) ex_st = Thrown s1 ERR_LABEL_IS_REDEFINED
  /\ spec_step ex_sp (OpL (LStr "x"%string)) (Some ERR_LABEL_IS_REDEFINED) (env_of ex_st) (c_size (g_code ex_st)) (c_size (g_code s1)) = Some ex_sp).
Proof.
  split; [apply C01_hypotheses|]. destruct (throws_ok (exec (OpL (LStr "x"%string)) ex_st) ERR_LABEL_IS_REDEFINED) as (s1 & E); [vm_compute; reflexivity|].
  exists s1. split; [exact E|]. reflexivity.
Qed.
