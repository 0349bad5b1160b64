(* Facts about the methods of FixedTables.v. *)
From Coq Require Import ZArith List Bool String Lia.
From Verif Require Import Base Types Emit Encode Mnemonic SpecX86 SpecAddr Wf EmitFacts BitFacts MemFacts LegacyFacts CodeThms SpecFixed FixedTables.
Import ListNotations.
Open Scope Z_scope.

Fixpoint assoc (name : string) (l : list (string * list Z)) : option (list Z) :=
  match l with [] => None | (n, bs) :: l' => if String.eqb n name then Some bs else assoc name l' end.
Lemma assoc_in name l bs : assoc name l = Some bs -> In (name, bs) l.
Proof.
  induction l as [|[n b] l IH]; cbn; [discriminate|]. destruct (String.eqb n name) eqn:Q; [|auto].
  apply String.eqb_eq in Q. intros H. injection H as ->. left. congruence.
Qed.
Lemma fixed_ok name f bs : assoc name sdm_fixed = Some bs -> emits_bytes f bs -> is_fixed (name, f).
Proof. intros A H. exists bs. split; auto. apply assoc_in; auto. Qed.
Lemma fixed_all : Forall is_fixed fixed_methods.
Proof.
  unfold fixed_methods.
  repeat (apply Forall_cons; [eapply fixed_ok; [vm_compute; reflexivity|intros s env pos; eexists; split; reflexivity]|]).
  apply Forall_nil.
Qed.

(* ---- x87 ---- *)
Definition ff (n1 n2 c1 c2 : Z) : option (list Z) :=
  let code := if n1 =? 0 then c1 else if n2 =? 0 then c2 else 0 in
  if code =? 0 then None else Some [w8 (code >>> 8); w8 (code ||| (n1 ||| n2))].
Lemma getIdx_fpu r : fpu_reg r -> getIdx r = regno r.
Proof. intros (_ & _ & I). rewrite regno_getIdx. reflexivity. Qed.
Lemma fpu_range r : fpu_reg r -> In (regno r) [0; 1; 2; 3; 4; 5; 6; 7].
Proof. intros (_ & _ & I). unfold regno. rewrite Z.mod_small by lia. cbn. lia. Qed.
Lemma opFpuFpu_is r1 r2 c1 c2 :
  match ff (getIdx r1) (getIdx r2) c1 c2 with
  | Some bs => emits_bytes (opFpuFpu r1 r2 c1 c2) bs
  | None => rejects (opFpuFpu r1 r2 c1 c2) ERR_BAD_ST_COMBINATION
  end.
Proof.
  unfold ff. cbv zeta. match goal with |- match (if ?c then _ else _) with _ => _ end => destruct c eqn:Q end.
  - intros env pos N. unfold opFpuFpu, fn. rewrite Q. cbn. now rewrite N.
  - intros s env pos. unfold opFpuFpu, fn. rewrite Q. eexists. split; reflexivity.
Qed.
Lemma opFpu_is r b1 b2 : emits_bytes (opFpu r b1 b2) [w8 b1; w8 (b2 ||| getIdx r)].
Proof. intros s env pos. eexists. split; reflexivity. Qed.

Definition form_eqb (a b : xform) : bool := match a, b with X0i, X0i | Xi0, Xi0 | Xi, Xi => true | _, _ => false end.
Definition x87_isb (name : string) (ops bs : list Z) : bool :=
  existsb (fun '(n, form, b1, b2) => String.eqb n name &&
    match bs, form, ops with
    | [x; y], X0i, [0; i] => (x =? b1) && (y =? b2 + i)
    | [x; y], Xi0, [i; 0] => (x =? b1) && (y =? b2 + i)
    | [x; y], Xi, [i] => (x =? b1) && (y =? b2 + i)
    | _, _, _ => false end) sdm_x87.
Lemma x87_isb_ok name ops bs : x87_isb name ops bs = true -> x87_is name ops bs.
Proof.
  unfold x87_isb. intros H. apply existsb_exists in H as [[[[n form] b1] b2] [I H]]. apply andb_prop in H as [N H].
  apply String.eqb_eq in N. subst n. destruct bs as [|x [|y [|]]]; try discriminate H.
  destruct form; [| |]; repeat match type of H with context [match ?l with _ => _ end] => destruct l; try discriminate H end;
    apply andb_prop in H as [A B]; apply Z.eqb_eq in A, B; subst; do 4 eexists; eauto.
Qed.
Definition has_form (name : string) (ops : list Z) : bool :=
  existsb (fun '(n, form, b1, b2) => String.eqb n name &&
    match form, ops with X0i, [0; _] => true | Xi0, [_; 0] => true | Xi, [_] => true | _, _ => false end) sdm_x87.
Lemma has_form_no name ops : has_form name ops = false -> forall bs, ~ x87_is name ops bs.
Proof.
  intros H bs (form & b1 & b2 & i & I & _ & O). apply not_true_iff_false in H. apply H. unfold has_form.
  apply existsb_exists. exists (name, form, b1, b2). split; auto. rewrite String.eqb_refl, O. destruct form; reflexivity.
Qed.
Definition st_nums : list Z := [0; 1; 2; 3; 4; 5; 6; 7].
Definition two_chk (name : string) (c1 c2 : Z) : bool :=
  forallb (fun n1 => forallb (fun n2 =>
    match ff n1 n2 c1 c2 with
    | Some bs => x87_isb name [n1; n2] bs
    | None => ((n1 =? 0) && (n2 =? 0)) || negb (has_form name [n1; n2]) end) st_nums) st_nums.
Lemma two_ok name f c1 c2 : (forall r1 r2, f r1 r2 = opFpuFpu r1 r2 c1 c2) -> two_chk name c1 c2 = true -> two_x87 (name, f).
Proof.
  intros F C r1 r2 F1 F2. cbv zeta. cbn [fst snd]. rewrite F. unfold two_chk in C.
  rewrite forallb_forall in C. specialize (C _ (fpu_range _ F1)). cbv beta in C. rewrite forallb_forall in C. specialize (C _ (fpu_range _ F2)).
  cbv beta in C. pose proof (opFpuFpu_is r1 r2 c1 c2) as O. rewrite !getIdx_fpu in O by auto.
  destruct (ff _ _ _ _) as [bs|].
  - left. exists bs. split; auto. apply x87_isb_ok; auto.
  - right. split; auto. apply orb_prop in C as [C|C]; [left; lia|right]. apply has_form_no. now apply negb_true_iff in C.
Qed.
Lemma x87_two_all : Forall two_x87 x87_two.
Proof. unfold x87_two. repeat (apply Forall_cons; [eapply two_ok; [intros; reflexivity|vm_compute; reflexivity]|]). apply Forall_nil. Qed.

Definition to0_chk (name : string) (c1 c2 : Z) : bool :=
  forallb (fun n1 => forallb (fun n2 =>
    negb ((n1 =? 0) || negb (n2 =? 0)) ||
    match ff n1 n2 c1 c2 with
    | Some bs => x87_isb name [n1; n2] bs
    | None => negb (has_form name [n1; n2]) end) st_nums) st_nums.
Lemma to0_ok name f c1 c2 : (forall r1 r2, f r1 r2 = opFpuFpu r1 r2 c1 c2) -> to0_chk name c1 c2 = true -> to0_x87 (name, f).
Proof.
  intros F C r1 r2 F1 F2 P. cbv zeta. cbn [fst snd]. rewrite F. unfold to0_chk in C.
  rewrite forallb_forall in C. specialize (C _ (fpu_range _ F1)). cbv beta in C. rewrite forallb_forall in C. specialize (C _ (fpu_range _ F2)).
  cbv beta in C. pose proof (opFpuFpu_is r1 r2 c1 c2) as O. rewrite !getIdx_fpu in O by auto.
  apply orb_prop in C as [C|C]; [exfalso; lia|].
  destruct (ff _ _ _ _) as [bs|].
  - left. exists bs. split; auto. apply x87_isb_ok; auto.
  - right. split; auto. apply has_form_no. now apply negb_true_iff in C.
Qed.
Lemma x87_to0_all : Forall to0_x87 x87_to0.
Proof. unfold x87_to0. repeat (apply Forall_cons; [eapply to0_ok; [intros; reflexivity|vm_compute; reflexivity]|]). apply Forall_nil. Qed.

(* one parameter *)
Definition one_chk (name : string) (args : Z -> list Z) (g : Z -> option (list Z)) : bool :=
  forallb (fun n => match g n with Some bs => x87_isb name (args n) bs | None => false end) st_nums.
Lemma one_ok name args f c1 c2 : (forall r, f r = opFpuFpu (Fpu 0) r c1 c2) ->
  one_chk name args (fun n => ff 0 n c1 c2) = true -> one_x87 args (name, f).
Proof.
  intros F C r Fr. cbn [fst snd]. rewrite F. unfold one_chk in C.
  rewrite forallb_forall in C. specialize (C _ (fpu_range _ Fr)). cbv beta in C.
  pose proof (opFpuFpu_is (Fpu 0) r c1 c2) as O. rewrite (getIdx_fpu r) in O by auto. change (getIdx (Fpu 0)) with 0 in O.
  destruct (ff _ _ _ _) as [bs|]; [|discriminate C]. exists bs. split; auto. apply x87_isb_ok; auto.
Qed.
Lemma onep_ok name f c1 c2 : (forall r, f r = opFpuFpu r (Fpu 0) c1 c2) ->
  forallb (fun n => match ff n 0 c1 c2 with Some bs => negb (n =? 0) && x87_isb name [n; 0] bs | None => n =? 0 end) st_nums = true -> onep_x87 (name, f).
Proof.
  intros F C r Fr. cbn [fst snd]. rewrite F.
  rewrite forallb_forall in C. specialize (C _ (fpu_range _ Fr)). cbv beta in C.
  pose proof (opFpuFpu_is r (Fpu 0) c1 c2) as O. rewrite (getIdx_fpu r) in O by auto. change (getIdx (Fpu 0)) with 0 in O.
  destruct (ff _ _ _ _) as [bs|].
  - apply andb_prop in C as [C0 C]. apply negb_true_iff in C0. rewrite C0. exists bs. split; auto. apply x87_isb_ok; auto.
  - rewrite C. exact O.
Qed.
Lemma single_ok name f b1 b2 : (forall r, f r = opFpu r b1 b2) ->
  one_chk name (fun n => [n]) (fun n => Some [w8 b1; w8 (b2 ||| n)]) = true -> one_x87 (fun n => [n]) (name, f).
Proof.
  intros F C r Fr. cbn [fst snd]. rewrite F. unfold one_chk in C.
  rewrite forallb_forall in C. specialize (C _ (fpu_range _ Fr)). cbv beta iota in C.
  pose proof (opFpu_is r b1 b2) as O. rewrite (getIdx_fpu r) in O by auto.
  eexists. split; [exact O|]. apply x87_isb_ok; auto.
Qed.
Lemma x87_one_all : Forall (one_x87 (fun n => [0; n])) x87_one.
Proof. unfold x87_one. repeat (apply Forall_cons; [eapply one_ok; [intros; reflexivity|vm_compute; reflexivity]|]). apply Forall_nil. Qed.
Lemma x87_onep_all : Forall onep_x87 x87_onep.
Proof. unfold x87_onep. repeat (apply Forall_cons; [eapply onep_ok; [intros; reflexivity|vm_compute; reflexivity]|]). apply Forall_nil. Qed.
Lemma x87_single_all : Forall (one_x87 (fun n => [n])) x87_single.
Proof. unfold x87_single. repeat (apply Forall_cons; [eapply single_ok; [intros; reflexivity|vm_compute; reflexivity]|]). apply Forall_nil. Qed.

(* fcomi(st1, st0) and the like: the two bytes are an ADD instruction *)
Lemma x87_to0_wrong : Forall (fun p : string * (Reg -> Reg -> E unit) =>
    forall r1 r2, fpu_reg r1 -> fpu_reg r2 -> regno r1 <> 0 -> regno r2 = 0 ->
    exists c, emits_bytes (snd p r1 r2) [0x00; c] /\ (forall bs, ~ x87_is (fst p) [regno r1; regno r2] bs)
      /\ decode false 1 [0x00; c] = Some (leg_header pfx0 false 0 false 0 0 0 0x00, c / 8 mod 8, RReg (c mod 8) (c mod 8), [])) x87_to0.
Proof.
  assert (W : forall name f c1 c2, (forall r1 r2, f r1 r2 = opFpuFpu r1 r2 c1 c2) ->
    forallb (fun n => (n =? 0) || (negb (has_form name [n; 0]) && match ff n 0 c1 c2 with Some [0x00; c] => (192 <=? c) && (c <=? 255) | _ => false end)) st_nums = true ->
    forall r1 r2, fpu_reg r1 -> fpu_reg r2 -> regno r1 <> 0 -> regno r2 = 0 ->
    exists c, emits_bytes (f r1 r2) [0x00; c] /\ (forall bs, ~ x87_is name [regno r1; regno r2] bs)
      /\ decode false 1 [0x00; c] = Some (leg_header pfx0 false 0 false 0 0 0 0x00, c / 8 mod 8, RReg (c mod 8) (c mod 8), [])).
  { intros name f c1 c2 F C r1 r2 F1 F2 N1 N2. rewrite F. rewrite forallb_forall in C. specialize (C _ (fpu_range _ F1)). cbv beta in C.
    apply orb_prop in C as [C|C]; [exfalso; lia|]. apply andb_prop in C as [C0 C].
    pose proof (opFpuFpu_is r1 r2 c1 c2) as O. rewrite !getIdx_fpu in O by auto. rewrite N2 in *.
    destruct (ff _ _ _ _) as [bs|]; [|discriminate C]. destruct bs as [|[| |] [|c [|]]]; try discriminate C. exists c. split; auto. split.
    - apply has_form_no. now apply negb_true_iff in C0.
    - unfold decode, dec_header. cbn [scan_prefixes]. cbn -[Z.div Z.modulo Z.mul Z.add]. unfold dec_rm.
      replace (c / 64 =? 3) with true by (symmetry; apply Z.eqb_eq; symmetry; apply Z.div_unique with (r := c - 192); lia).
      reflexivity. }
  unfold x87_to0. repeat (apply Forall_cons; [cbn [fst snd]; eapply W; [intros; reflexivity|vm_compute; reflexivity]|]). apply Forall_nil.
Qed.

(* ---- immediates ---- *)
Lemma le_bytes_2 v : le_bytes v 2 = le2 v. Proof. reflexivity. Qed.
Lemma le_bytes_4 v : le_bytes v 4 = le4 v.
Proof. unfold le4, le2. cbn [le_bytes app]. unfold w8. rewrite !Z.div_div by lia. reflexivity. Qed.
Lemma le_bytes_8 v : le_bytes v 8 = le8 v.
Proof. unfold le8, le4, le2. cbn [le_bytes app]. unfold w8. rewrite !Z.div_div by lia. reflexivity. Qed.
Lemma emits_db b : emits_bytes (db b) [w8 b].
Proof. intros s env pos. eexists. split; reflexivity. Qed.
Lemma emits_dbn v n : n <= 8 -> emits_bytes (dbn v n) (le_bytes v (Z.to_nat n)).
Proof. intros N s env pos. rewrite dbn_items by auto. eexists. split; [reflexivity|]. apply render_IDb. Qed.
Lemma emits_seq f g bs bs' : emits_bytes f bs -> emits_bytes g bs' -> emits_bytes (f ;;; g) (bs ++ bs').
Proof.
  intros F G s env pos. unfold bind. destruct (F s env pos) as (i & -> & <-). destruct (G s env (pos + items_size i)) as (i' & -> & <-).
  eexists. split; [reflexivity|]. apply render_app.
Qed.
Lemma emits_dw v : 0 <= v < 2 ^ 16 -> emits_bytes (dw v) (le2 v).
Proof.
  intros R. unfold dw. replace (w32 v) with v by (unfold w32; rewrite Z.mod_small; lia).
  rewrite <- le_bytes_2. apply (emits_dbn v 2). lia.
Qed.
Lemma emits_dd v : 0 <= v < 2 ^ 32 -> emits_bytes (dd v) (le4 v).
Proof.
  intros R. unfold dd. replace (w32 v) with v by (unfold w32; rewrite Z.mod_small; lia).
  rewrite <- le_bytes_4. apply (emits_dbn v 4). lia.
Qed.
Lemma emits_dq v : emits_bytes (dq v) (le8 v).
Proof. rewrite <- le_bytes_8. apply (emits_dbn v 8). lia. Qed.
Lemma w8_id v : 0 <= v < 256 -> w8 v = v. Proof. intros. unfold w8. apply Z.mod_small. lia. Qed.
Lemma w16_id v : 0 <= v < 2 ^ 16 -> w16 v = v. Proof. intros. unfold w16. apply Z.mod_small. lia. Qed.
Lemma s32_id v : 0 <= v < 2 ^ 16 -> s32 v = v.
Proof. intros. unfold s32, w32. rewrite Z.mod_small by lia. destruct (_ <? _) eqn:Q; lia. Qed.
Lemma emits_db' v : 0 <= v < 256 -> emits_bytes (db v) [v].
Proof. intros. rewrite <- (w8_id v) at 2 by auto. apply emits_db. Qed.

Lemma int_bytes n : 0 <= n < 256 -> emits_bytes (i_int_ n) [0xCD; n].
Proof. intros R. unfold i_int_. rewrite w8_id by auto. apply (emits_seq _ _ [0xCD] [n]); [apply emits_db'; lia|apply emits_db'; lia]. Qed.
Lemma ret_bytes n : 0 <= n < 2 ^ 16 -> emits_bytes (i_ret n) (if n =? 0 then [0xC3] else 0xC2 :: le2 n).
Proof.
  intros R. unfold i_ret. rewrite s32_id by auto. cbv zeta. destruct (n =? 0); cbn [negb]; [apply emits_db'; lia|].
  apply (emits_seq _ _ [0xC2]); [apply emits_db'; lia|apply emits_dw; auto].
Qed.
Lemma retf_bytes n : 0 <= n < 2 ^ 16 -> emits_bytes (i_retf n) (if n =? 0 then [0xCB] else 0xCA :: le2 n).
Proof.
  intros R. unfold i_retf. rewrite s32_id by auto. cbv zeta. destruct (n =? 0); cbn [negb]; [apply emits_db'; lia|].
  apply (emits_seq _ _ [0xCA]); [apply emits_db'; lia|apply emits_dw; auto].
Qed.
Lemma enter_bytes x y : 0 <= x < 2 ^ 16 -> 0 <= y < 256 -> emits_bytes (i_enter x y) (0xC8 :: le2 x ++ [y]).
Proof.
  intros X Y. unfold i_enter. rewrite w8_id, w16_id by auto. cbv zeta.
  apply (emits_seq _ _ [0xC8]); [apply emits_db'; lia|]. apply emits_seq; [apply emits_dw; auto|apply emits_db'; auto].
Qed.
Lemma xabort_bytes n : 0 <= n < 256 -> emits_bytes (i_xabort n) [0xC6; 0xF8; n].
Proof.
  intros R. unfold i_xabort. rewrite w8_id by auto. cbv zeta. apply (emits_seq _ _ [0xC6]); [apply emits_db'; lia|].
  apply (emits_seq _ _ [0xF8] [n]); [apply emits_db'; lia|apply emits_db'; lia].
Qed.
Lemma xbegin_bytes rel : emits_bytes (i_xbegin rel) (0xC7 :: 0xF8 :: le4 (rel mod 2 ^ 32)).
Proof.
  unfold i_xbegin. cbv zeta. apply (emits_seq _ _ [0xC7]); [apply emits_db'; lia|].
  apply (emits_seq _ _ [0xF8]); [apply emits_db'; lia|]. apply emits_dd. unfold w32. apply Z.mod_pos_bound. lia.
Qed.
Lemma jmpabs_bytes a : 0 <= a < 2 ^ 64 -> emits_bytes (i_jmpabs a) (0xD5 :: 0x00 :: 0xA1 :: le8 a).
Proof.
  intros R. unfold i_jmpabs. cbv zeta. replace (w64 a) with a by (unfold w64; rewrite Z.mod_small; lia).
  apply (emits_seq _ _ [0xD5]); [apply emits_db'; lia|]. apply (emits_seq _ _ [0x00]); [apply emits_db'; lia|].
  apply (emits_seq _ _ [0xA1]); [apply emits_db'; lia|]. apply emits_dq.
Qed.
Lemma ret_truncates : emits_bytes (i_ret 65536) [0xC2; 0x00; 0x00].
Proof. intros s env pos. eexists. split; reflexivity. Qed.

(* ---- F3/66/F2 0F AE /6 with mod = 3 ---- *)
Lemma wait_bytes n : 0 <= n < 8 -> emits_bytes (setModRM 3 6 n) [0xF0 + n].
Proof.
  intros R. unfold setModRM.
  assert (In n [0; 1; 2; 3; 4; 5; 6; 7]) as I by (cbn; lia). cbn in I.
  repeat (destruct I as [<-|I]; [intros s env pos; eexists; split; reflexivity|]). destruct I.
Qed.
Lemma emits_fn_ok f bs : emits_bytes f bs -> emits_bytes (fn tt f) bs.
Proof. intros F s env pos. destruct (F s env pos) as (i & H & R). exists i. unfold fn. rewrite H. auto. Qed.
Lemma low_idx r : 0 <= idx_ r < 8 -> getIdx r = idx_ r.
Proof. intros I. rewrite regno_getIdx. unfold regno. apply Z.mod_small. lia. Qed.
Lemma umonitor_bytes r : gpr r -> 0 <= idx_ r < 8 -> bit_ r = 32 \/ bit_ r = 64 ->
  emits_bytes (i_umonitor r) ((if bit_ r =? 32 then [0x67] else []) ++ [0xF3; 0x0F; 0xAE; 0xF0 + idx_ r]).
Proof.
  intros G I B. unfold i_umonitor. apply emits_fn_ok. rewrite low_idx by auto. cbv zeta. replace (7 <? idx_ r) with false by lia.
  apply emits_seq.
  - unfold getBit. destruct B as [-> | ->]; cbn; [apply emits_db'; lia|intros s env pos; eexists; split; reflexivity].
  - apply (emits_seq _ _ [0xF3]); [apply emits_db'; lia|]. apply (emits_seq _ _ [0x0F]); [apply emits_db'; lia|].
    apply (emits_seq _ _ [0xAE]); [apply emits_db'; lia|]. apply wait_bytes; auto.
Qed.
Lemma tpause_bytes r : 0 <= idx_ r < 8 -> emits_bytes (i_tpause r) [0x66; 0x0F; 0xAE; 0xF0 + idx_ r].
Proof.
  intros I. unfold i_tpause. apply emits_fn_ok. rewrite low_idx by auto. cbv zeta. replace (7 <? idx_ r) with false by lia.
  apply (emits_seq _ _ [0x66]); [apply emits_db'; lia|]. apply (emits_seq _ _ [0x0F]); [apply emits_db'; lia|].
  apply (emits_seq _ _ [0xAE]); [apply emits_db'; lia|]. apply wait_bytes; auto.
Qed.
Lemma umwait_bytes r : 0 <= idx_ r < 8 -> emits_bytes (i_umwait r) [0xF2; 0x0F; 0xAE; 0xF0 + idx_ r].
Proof.
  intros I. unfold i_umwait. apply emits_fn_ok. rewrite low_idx by auto. cbv zeta. replace (7 <? idx_ r) with false by lia.
  apply (emits_seq _ _ [0xF2]); [apply emits_db'; lia|]. apply (emits_seq _ _ [0x0F]); [apply emits_db'; lia|].
  apply (emits_seq _ _ [0xAE]); [apply emits_db'; lia|]. apply wait_bytes; auto.
Qed.
Lemma high_reject r : 8 <= idx_ r < 32 ->
  rejects (i_umonitor r) ERR_BAD_PARAMETER /\ rejects (i_tpause r) ERR_BAD_PARAMETER /\ rejects (i_umwait r) ERR_BAD_PARAMETER.
Proof.
  intros I. assert (G : getIdx r = idx_ r) by (rewrite regno_getIdx; unfold regno; apply Z.mod_small; lia).
  repeat split; intros env pos N; unfold i_umonitor, i_tpause, i_umwait, fn; cbv zeta; rewrite G;
    replace (7 <? idx_ r) with true by lia; cbn; rewrite N; reflexivity.
Qed.
Lemma fnstsw_bytes r : idx_ r = 0 -> emits_bytes (i_fnstsw_w r) [0xDF; 0xE0] /\ emits_bytes (i_fstsw_w r) [0x9B; 0xDF; 0xE0].
Proof.
  intros I. assert (G : getIdx r = 0) by (rewrite low_idx; lia).
  split; intros s env pos; unfold i_fnstsw_w, i_fstsw_w, fn; rewrite G; eexists; split; reflexivity.
Qed.
Lemma fnstsw_reject r : 0 < idx_ r < 32 -> rejects (i_fnstsw_w r) ERR_BAD_PARAMETER /\ rejects (i_fstsw_w r) ERR_BAD_PARAMETER.
Proof.
  intros I. assert (G : getIdx r = idx_ r) by (rewrite regno_getIdx; unfold regno; apply Z.mod_small; lia).
  split; intros env pos N; unfold i_fnstsw_w, i_fstsw_w, fn; rewrite G; replace (idx_ r =? 0) with false by lia; cbn; rewrite N; reflexivity.
Qed.
