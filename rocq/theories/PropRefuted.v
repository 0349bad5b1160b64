(* Where the code (as modelled) does not do what the property says: concrete programs.

   Each theorem gives a program, run on a newly constructed generator, and an observable outcome that
   contradicts the property it is named after. *)
From Coq Require Import ZArith List Bool String Lia.
From Verif Require Import Base Types Emit Encode State Code Label Gen CodeFacts SpecMem SpecLabel LabelThms LabelThms3 LabelThms6 RunCheck.
Import ListNotations.
Open Scope Z_scope.
Open Scope M_scope.

Fixpoint execs (os : list op) : M unit :=
  match os with [] => mret tt | o :: os' => exec o ;;; execs os' end.
Definition isUB {A} (r : out A) : bool := match r with UB => true | _ => false end.
Lemma isUB_ok {A} (r : out A) : isUB r = true -> r = UB.
Proof. destruct r; try discriminate; auto. Qed.
Definition lab (n : nat) : LabelRef := LObj n.
Definition addrIs (h : LabelH) (v : Z) (s : St) : bool := match getAddress h s with Done _ x => x =? v | _ => false end.
Lemma addrIs_ok h v s : addrIs h v s = true -> exists s', getAddress h s = Done s' v.
Proof. unfold addrIs. destruct (getAddress h s) as [s' x| |]; try discriminate. intros H. apply Z.eqb_eq in H. subst. eauto. Qed.
Ltac vmr := vm_compute; reflexivity.
Definition G : St := gen0 100 UNull.
Lemma G_new : new_gen G.
Proof. apply gen0_ok. vmr. Qed.

(* ---- C12: assignL ---- *)
(* putL(dst); L(src); db; assignL(dst, src): the field holds the address where assignL was called,
   not the address of src, which is also what dst.getAddress() returns *)
Definition p12a : list op := [OpNewLabel 1%nat; OpNewLabel 2%nat; putLO (lab 2); OpL (lab 1); dbO 0x90; OpAssign 2%nat 1%nat].
Theorem C12_address_taken_refuted : exists s0 s1 v, new_gen s0 /\ execs p12a s0 = Done s1 tt
  /\ (exists s', getAddress 2%nat s1 = Done s' v) /\ (exists s', getAddress 1%nat s1 = Done s' v) /\ read_u64 (g_code s1) 0 = v + 1.
Proof.
  destruct (dones_unit (execs p12a G) (fun s => addrIs 2%nat 0x10000008 s && addrIs 1%nat 0x10000008 s && (read_u64 (g_code s) 0 =? 0x10000009))) as (s1 & E & H); [vmr|].
  apply andb_true_iff in H as [H H3]. apply andb_true_iff in H as [H1 H2]. apply Z.eqb_eq in H3.
  exists G, s1, 0x10000008. split; [apply G_new|]. split; [exact E|]. split; [now apply addrIs_ok|]. split; [now apply addrIs_ok|]. exact H3.
Qed.
Print Assumptions C12_address_taken_refuted.
(* L(src); assignL(dst, src) with a dst not used before; jmp(dst): the jump is never resolved *)
Definition p12b : list op := [OpNewLabel 1%nat; OpNewLabel 2%nat; OpL (lab 1); OpAssign 2%nat 1%nat; jmpN (lab 2)].
Theorem C12_later_jump_refuted : exists s0 s1, new_gen s0 /\ execs p12b s0 = Done s1 tt /\ hasUndefinedLabel s1 = true.
Proof. destruct (dones_unit (execs p12b G) hasUndefinedLabel) as (s1 & E & H); [vmr|]. exists G, s1. auto using G_new. Qed.
Print Assumptions C12_later_jump_refuted.
(* two such labels: the second assignL reports that its dst is already defined *)
Definition p12c : list op := [OpNewLabel 1%nat; OpNewLabel 2%nat; OpNewLabel 3%nat; OpL (lab 1); OpAssign 2%nat 1%nat; OpAssign 3%nat 1%nat].
Theorem C12_two_fresh_labels_refuted : exists s0 s1, new_gen s0 /\ execs p12c s0 = Thrown s1 ERR_LABEL_IS_REDEFINED.
Proof. destruct (throws_ok (execs p12c G) ERR_LABEL_IS_REDEFINED) as (s1 & E); [vmr|]. exists G, s1. auto using G_new. Qed.
Print Assumptions C12_two_fresh_labels_refuted.

(* ---- C13: copies ---- *)
(* jmp(a); Label b = a; L(a); ~a: b lives, but the definition is gone *)
Definition p13a : list op := [OpNewLabel 1%nat; dbO 0x90; jmpN (lab 1); OpCopy 2%nat 1%nat; OpL (lab 1); OpDestroy 1%nat].
Theorem C13_copy_before_definition_refuted : exists s0 s1, new_gen s0 /\ execs p13a s0 = Done s1 tt
  /\ (exists s', getAddress 2%nat s1 = Done s' 0)
  /\ (exists s2, exec (jmpN (lab 2)) s1 = Done s2 tt /\ hasUndefinedLabel s2 = true).
Proof.
  destruct (dones_unit (execs p13a G) (fun s => addrIs 2%nat 0 s && dones (exec (jmpN (lab 2)) s) hasUndefinedLabel)) as (s1 & E & H); [vmr|].
  apply andb_true_iff in H as [H1 H2]. exists G, s1. split; [apply G_new|]. split; [exact E|]. split; [now apply addrIs_ok|]. now apply dones_unit.
Qed.
Print Assumptions C13_copy_before_definition_refuted.

(* ---- C14: reset and destruction ---- *)
(* L(src); assignL(dst, src) with a dst not used before; ~dst; reset(): writes to the dead dst *)
Definition p14a : list op := [OpNewLabel 1%nat; OpNewLabel 2%nat; OpL (lab 1); OpAssign 2%nat 1%nat; OpDestroy 2%nat].
Theorem C14_dangling_label_refuted : exists s0 s1, new_gen s0 /\ execs p14a s0 = Done s1 tt /\ exec OpReset s1 = UB /\ resetLabelPtrList s1 = UB.
Proof.
  destruct (dones_unit (execs p14a G) (fun s => isUB (exec OpReset s) && isUB (resetLabelPtrList s))) as (s1 & E & H); [vmr|].
  apply andb_true_iff in H as [H1 H2]. exists G, s1. split; [apply G_new|]. split; [exact E|]. split; now apply isUB_ok.
Qed.
Print Assumptions C14_dangling_label_refuted.
(* jmp(a); reset(); L(b); jmp(a): a, never defined, is taken for b *)
Definition p14b : list op := [OpNewLabel 1%nat; jmpN (lab 1); OpReset; OpNewLabel 2%nat; OpL (lab 2); dbO 0x90; jmpN (lab 1)].
Theorem C14_stale_id_refuted : exists s0 s1, new_gen s0 /\ execs p14b s0 = Done s1 tt /\ hasUndefinedLabel s1 = false
  /\ branch_target (g_code s1) 2 4 = c_top (g_code s1) /\ exists s2, exec (OpL (lab 1)) s1 = Thrown s2 ERR_LABEL_IS_REDEFINED.
Proof.
  destruct (dones_unit (execs p14b G) (fun s => negb (hasUndefinedLabel s) && (branch_target (g_code s) 2 4 =? c_top (g_code s)) && throws (exec (OpL (lab 1)) s) ERR_LABEL_IS_REDEFINED)) as (s1 & E & H); [vmr|].
  apply andb_true_iff in H as [H H3]. apply andb_true_iff in H as [H1 H2]. apply negb_true_iff in H1. apply Z.eqb_eq in H2.
  exists G, s1. split; [apply G_new|]. split; [exact E|]. split; [exact H1|]. split; [exact H2|]. now apply throws_ok.
Qed.
Print Assumptions C14_stale_id_refuted.

(* ---- C05: code added after ready() in an AutoGrow buffer ---- *)
Definition x_ : LabelRef := LStr "x"%string.
Definition p05 : list op := [OpL x_; OpReady; putLO x_; OpReady].
Theorem C05_after_ready_refuted : exists s0 s1, new_gen s0 /\ execs p05 s0 = Done s1 tt /\ hasUndefinedLabel s1 = false
  /\ c_top (g_code s1) <> 0 /\ read_u64 (g_code s1) 0 = 0.
Proof.
  destruct (dones_unit (execs p05 (gen0 4096 UAutoGrow)) (fun s => negb (hasUndefinedLabel s) && negb (c_top (g_code s) =? 0) && (read_u64 (g_code s) 0 =? 0))) as (s1 & E & H); [vmr|].
  apply andb_true_iff in H as [H H3]. apply andb_true_iff in H as [H1 H2]. apply negb_true_iff in H1, H2. apply Z.eqb_eq in H3. apply Z.eqb_neq in H2.
  exists (gen0 4096 UAutoGrow), s1. split; [apply gen0_ok; vmr|]. auto.
Qed.
Print Assumptions C05_after_ready_refuted.

(* ---- C09: a failed L() leaves its label defined and the reference pending for ever ---- *)
Definition p09 : list op := jmpL x_ :: List.repeat (dbO 0x90) 130.
Theorem C09_failed_definition_refuted : exists s0 s1 s2 s3, new_gen s0 /\ execs p09 s0 = Done s1 tt
  /\ exec (OpL x_) s1 = Thrown s2 ERR_LABEL_IS_TOO_FAR                       (* the short jump cannot reach *)
  /\ hasUndefinedLabel s2 = true /\ exec (OpL x_) s2 = Thrown s3 ERR_LABEL_IS_REDEFINED.
Proof.
  destruct (dones_unit (execs p09 (gen0 1000 UNull)) (fun s => throws (exec (OpL x_) s) ERR_LABEL_IS_TOO_FAR &&
     match exec (OpL x_) s with Thrown s2 _ => hasUndefinedLabel s2 && throws (exec (OpL x_) s2) ERR_LABEL_IS_REDEFINED | _ => false end)) as (s1 & E & H); [vmr|].
  apply andb_true_iff in H as [H1 H2]. apply throws_ok in H1 as (s2 & H1). rewrite H1 in H2. apply andb_true_iff in H2 as [H2 H3]. apply throws_ok in H3 as (s3 & H3).
  exists (gen0 1000 UNull), s1, s2, s3. split; [apply gen0_ok; vmr|]. auto.
Qed.
Print Assumptions C09_failed_definition_refuted.

(* ---- C16: a distance of exactly -2^31 wraps around in a fixed buffer ---- *)
Definition UB16 := UPtr 0x7F0000000000 (fun _ => 0).
Theorem C16_wrap_refuted : exists s0 s1, new_gen s0 /\ exec (jmpA (0x7F0000000000 - 2147483648) T_NEAR) s0 = Done s1 tt
  /\ branch_target (g_code s1) 1 4 = 0x7F0000000000 - 2147483648 + 4294967296.
Proof.
  destruct (dones_unit (exec (jmpA (0x7F0000000000 - 2147483648) T_NEAR) (gen0 100 UB16)) (fun s => branch_target (g_code s) 1 4 =? 0x7F0000000000 - 2147483648 + 4294967296)) as (s1 & E & H); [vmr|].
  apply Z.eqb_eq in H. exists (gen0 100 UB16), s1. split; [apply gen0_ok; vmr|]. auto.
Qed.
Print Assumptions C16_wrap_refuted.

(* ---- C30: without exceptions, going on after an error writes outside the buffer ---- *)
Definition gen0n (m : Z) (u : UserPtr) (or : Oracle) : out unit := init m u or true.
(* a 3-byte buffer: jmp(T_NEAR, x) is cut short; L(x) patches its displacement before the buffer *)
Theorem C30_write_before_buffer_refuted : exists s0 s1, init 3 UNull or0 true = Done s0 tt /\ g_err s0 = None
  /\ exec (jmpN x_) s0 = Done s1 tt /\ g_err s1 = Some ERR_CODE_IS_TOO_BIG /\ exec (OpL x_) s1 = UB.
Proof.
  destruct (dones_unit (init 3 UNull or0 true) (fun s => negb (isSome (g_err s)) && dones (exec (jmpN x_) s) (fun s1 => match g_err s1 with Some e => xerr_beq ERR_CODE_IS_TOO_BIG e | None => false end && isUB (exec (OpL x_) s1)))) as (s0 & E & H); [vmr|].
  apply andb_true_iff in H as [H1 H2]. apply dones_unit in H2 as (s1 & E1 & H2). apply andb_true_iff in H2 as [H2 H3].
  exists s0, s1. split; [exact E|]. split; [now apply none_ok|]. split; [exact E1|]. split; [|now apply isUB_ok].
  destruct (g_err s1) as [e|]; [|discriminate]. apply internal_xerr_dec_bl in H2. now subst.
Qed.
Print Assumptions C30_write_before_buffer_refuted.
(* AutoGrow and an allocator that refuses to grow: the next bytes are written past the buffer *)
Definition orFail : Oracle := mkOracle (fun n size => match n with O => Some (0x10000000, fun _ => 0xCC) | _ => None end) (fun _ => O) true true.
Theorem C30_write_after_failed_growth_refuted : exists s0, init 1 UAutoGrow orFail true = Done s0 tt /\ g_err s0 = None
  /\ execs [dbO 1; dbO 2] s0 = UB.
Proof.
  destruct (dones_unit (init 1 UAutoGrow orFail true) (fun s => negb (isSome (g_err s)) && isUB (execs [dbO 1; dbO 2] s))) as (s0 & E & H); [vmr|].
  apply andb_true_iff in H as [H1 H2]. exists s0. split; [exact E|]. split; [now apply none_ok|]. now apply isUB_ok.
Qed.
Print Assumptions C30_write_after_failed_growth_refuted.
