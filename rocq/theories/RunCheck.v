(* Executable check that a list of calls is a history covered by the label specification; used to
   show concrete runs that meet the hypotheses of the theorems. *)
From Coq Require Import ZArith List Bool String Lia.
From Verif Require Import Base Types Emit Encode State Code Label Gen CodeFacts SpecLabel Grow LabelThms6.
Import ListNotations.
Open Scope Z_scope.

Definition isSome {A} (o : option A) : bool := match o with Some _ => true | None => false end.
Definition aliveb (a : Spec) (h : LabelH) : bool := isSome (labOf a h).
Definition alive_refb (a : Spec) (l : LabelRef) : bool := match l with LObj h => aliveb a h | LStr _ => true end.
Definition legalb (a : Spec) (o : op) (env : Env) (p : Z) : bool :=
  match o with
  | OpEmit m => forallb (fun i => match i with IPutL l _ _ => alive_refb a l | _ => true end) (fst (m env p))
  | OpJmp l _ _ _ _ => alive_refb a l
  | OpL l => alive_refb a l
  | OpAssign d s | OpCopyAssign d s => aliveb a d && aliveb a s
  | OpNewLabel h => negb (isSome (labOf a h))
  | OpCopy d s => negb (isSome (labOf a d)) && aliveb a s
  | OpDestroy h => aliveb a h
  | _ => true
  end.
Lemma alive_ok a h : aliveb a h = true -> alive a h.
Proof. unfold aliveb, alive. destruct (labOf a h); [discriminate|]. intros H; discriminate H. Qed.
Lemma alive_ref_ok a l : alive_refb a l = true -> alive_ref a l.
Proof. destruct l; cbn; auto using alive_ok. Qed.
Lemma none_ok {A} (o : option A) : negb (isSome o) = true -> o = None.
Proof. destruct o; [discriminate|auto]. Qed.
Lemma legal_ok a o env p : legalb a o env p = true -> legal a o env p.
Proof.
  destruct o; cbn [legalb legal]; auto using alive_ref_ok, alive_ok, none_ok.
  - intros H. apply Forall_forall. rewrite forallb_forall in H. intros i Hi. specialize (H i Hi). destruct i; auto using alive_ref_ok.
  - intros H. apply andb_true_iff in H as [H1 H2]. auto using alive_ok.
  - intros H. apply andb_true_iff in H as [H1 H2]. auto using alive_ok, none_ok.
  - intros H. apply andb_true_iff in H as [H1 H2]. auto using alive_ok.
Qed.
Definition outcome := option xerr.
Definition stepb (s : St) (a : Spec) (o : op) : option (St * Spec * outcome) :=
  let p := c_size (g_code s) in
  if legalb a o (env_of s) p && (lm_nextId (g_lm s) + mentions o (env_of s) p <=? 2147483647) then
    match exec o s with
    | Done s1 _ => match spec_step a o None (env_of s) p (c_size (g_code s1)) with Some a1 => Some (s1, a1, None) | None => None end
    | Thrown s1 e => match spec_step a o (Some e) (env_of s) p (c_size (g_code s1)) with Some a1 => Some (s1, a1, Some e) | None => None end
    | UB => None
    end
  else None.
Fixpoint runb (s : St) (a : Spec) (os : list op) : option (St * Spec * list outcome) :=
  match os with
  | [] => Some (s, a, [])
  | o :: os' =>
      match stepb s a o with
      | Some (s1, a1, e) => match runb s1 a1 os' with Some (s2, a2, l) => Some (s2, a2, e :: l) | None => None end
      | None => None
      end
  end.
Lemma runb_ok os : forall s a s' a' l, runb s a os = Some (s', a', l) -> shistory s a os s' a'.
Proof.
  induction os as [|o os IH]; intros s a s' a' l H; cbn [runb] in H.
  - inversion H; subst. constructor.
  - destruct (stepb s a o) as [[[s1 a1] e]|] eqn:E; [|discriminate].
    destruct (runb s1 a1 os) as [[[s2 a2] l2]|] eqn:E2; [|discriminate]. inversion H; subst. apply IH in E2.
    unfold stepb in E. destruct (legalb a o (env_of s) (c_size (g_code s)) && (lm_nextId (g_lm s) + mentions o (env_of s) (c_size (g_code s)) <=? 2147483647)) eqn:Hl; [|discriminate].
    apply andb_true_iff in Hl as [Hl Hi]. apply legal_ok in Hl. apply Z.leb_le in Hi.
    destruct (exec o s) as [s3 []|s3 e3|] eqn:Ee; [| |discriminate].
    + destruct (spec_step a o None _ _ _) eqn:Es; [|discriminate]. inversion E; subst. eapply SH_done; eauto.
    + destruct (spec_step a o (Some e3) _ _ _) eqn:Es; [|discriminate]. inversion E; subst. eapply SH_thrown; eauto.
Qed.

(* an allocator that always succeeds below 2^48 bytes, at 16 MiB-spaced addresses *)
Definition or0 : Oracle :=
  mkOracle (fun n size => if size <? 281474976710656 then Some (0x10000000 + 0x1000000 * Z.of_nat n, fun _ => 0xCC) else None)
           (fun _ => O) true true.
Lemma or0_bounded : alloc_bounded or0.
Proof. intros n size H. unfold or0, o_alloc. apply Z.ltb_ge in H. rewrite H. reflexivity. Qed.
Definition gen0 (maxSize : Z) (u : UserPtr) : St :=
  match init maxSize u or0 false with Done s _ => s | _ => mkSt (mkCode USER_BUF 0 0 0 (fun _ => 0) 0 [] false 0) freshLM (fun _ => mkLab false false 0) false EvexEncoding PreAVX10v2Encoding false None or0 end.
Definition genok (maxSize : Z) (u : UserPtr) : bool :=
  (0 <=? maxSize) && (maxSize <? 18446744073709551616) && match init maxSize u or0 false with Done _ _ => true | _ => false end.
Lemma gen0_ok m u : genok m u = true -> new_gen (gen0 m u).
Proof.
  unfold genok, gen0, new_gen. intros H. apply andb_true_iff in H as [H H3]. apply andb_true_iff in H as [H1 H2]. apply Z.leb_le in H1. apply Z.ltb_lt in H2.
  exists m, u, or0. split; [lia|]. split; [apply or0_bounded|]. destruct (init m u or0 false) as [s []| |]; try discriminate. reflexivity.
Qed.
(* the result of a run that is known to exist *)
Definition fin (x : option (St * Spec * list outcome)) : St * Spec * list outcome :=
  match x with Some y => y | None => (gen0 0 UNull, spec0, []) end.
Lemma fin_ok x : isSome x = true -> x = Some (fin x).
Proof. destruct x; [reflexivity|discriminate]. Qed.
Definition stOf (x : St * Spec * list outcome) : St := fst (fst x).
Definition spOf (x : St * Spec * list outcome) : Spec := snd (fst x).
Lemma runb_fin s a os : isSome (runb s a os) = true -> shistory s a os (stOf (fin (runb s a os))) (spOf (fin (runb s a os))).
Proof. intros H. apply fin_ok in H. unfold stOf, spOf. destruct (fin (runb s a os)) as [[s' a'] l] eqn:E. cbn. eapply runb_ok; eauto. Qed.
Lemma run_fin m u os : genok m u = true -> isSome (runb (gen0 m u) spec0 os) = true ->
  run (stOf (fin (runb (gen0 m u) spec0 os))) (spOf (fin (runb (gen0 m u) spec0 os))).
Proof. intros H1 H2. exists (gen0 m u), os. split; [now apply gen0_ok|now apply runb_fin]. Qed.

(* histories in which every call succeeds *)
Definition okb (x : option (St * Spec * list outcome)) : bool :=
  match x with Some (_, _, l) => forallb (fun e => negb (isSome e)) l | None => false end.
Lemma runb_all os : forall s a s' a' l, runb s a os = Some (s', a', l) -> forallb (fun e => negb (isSome e)) l = true -> shist_ok s a os s' a'.
Proof.
  induction os as [|o os IH]; intros s a s' a' l H Hl; cbn [runb] in H.
  - inversion H; subst. constructor.
  - destruct (stepb s a o) as [[[s1 a1] e]|] eqn:E; [|discriminate].
    destruct (runb s1 a1 os) as [[[s2 a2] l2]|] eqn:E2; [|discriminate]. inversion H; subst. cbn [forallb] in Hl. apply andb_true_iff in Hl as [He Hl].
    apply IH in E2; auto.
    unfold stepb in E. destruct (legalb a o (env_of s) (c_size (g_code s)) && (lm_nextId (g_lm s) + mentions o (env_of s) (c_size (g_code s)) <=? 2147483647)) eqn:Hg; [|discriminate].
    apply andb_true_iff in Hg as [Hg Hi]. apply legal_ok in Hg. apply Z.leb_le in Hi.
    destruct (exec o s) as [s3 []|s3 e3|] eqn:Ee; [| |discriminate].
    + destruct (spec_step a o None _ _ _) eqn:Es; [|discriminate]. inversion E; subst. eapply SO_cons; eauto.
    + destruct (spec_step a o (Some e3) _ _ _) eqn:Es; [|discriminate]. inversion E; subst. discriminate.
Qed.
Lemma run_ok_fin s a os : okb (runb s a os) = true -> shist_ok s a os (stOf (fin (runb s a os))) (spOf (fin (runb s a os))).
Proof. destruct (runb s a os) as [[[s' a'] l]|] eqn:E; [|discriminate]. cbn. intros H. eapply runb_all; eauto. Qed.

(* common calls *)
Definition jmpL (l : LabelRef) := OpJmp l T_AUTO 0xEB 0xE9 0.      (* jmp(label), xbyak.h:2919-2922 *)
Definition jmpN (l : LabelRef) := OpJmp l T_NEAR 0xEB 0xE9 0.
Definition jmpA (a : Z) (ty : LabelType) := OpJmpAbs a ty 0xEB 0xE9 0.  (* jmp(const void *, LabelType), xbyak.h:2923 *)
Definition putLO (l : LabelRef) := OpEmit (emit (IPutL l false 0)).     (* putL(label), xbyak.h:2943-2944 *)
Definition dbO (b : Z) := OpEmit (db b).

(* outcomes, tested without computing the states themselves *)
Definition throws {A} (r : out A) (e : xerr) : bool := match r with Thrown _ e' => xerr_beq e e' | _ => false end.
Definition dones {A} (r : out A) (f : St -> bool) : bool := match r with Done s _ => f s | _ => false end.
Lemma throws_ok {A} (r : out A) e : throws r e = true -> exists s, r = Thrown s e.
Proof. destruct r as [s a|s e'|]; try discriminate. intros H. apply internal_xerr_dec_bl in H. subst. eauto. Qed.
Lemma dones_ok {A} (r : out A) f : dones r f = true -> exists s a, r = Done s a /\ f s = true.
Proof. destruct r as [s a|s e'|]; try discriminate. eauto. Qed.
Lemma dones_unit (r : out unit) f : dones r f = true -> exists s, r = Done s tt /\ f s = true.
Proof. destruct r as [s []|s e'|]; try discriminate. eauto. Qed.
Fixpoint zeqbl (a b : list Z) : bool :=
  match a, b with [], [] => true | x :: a, y :: b => (x =? y) && zeqbl a b | _, _ => false end.
Lemma zeqbl_ok a : forall b, zeqbl a b = true -> a = b.
Proof.
  induction a as [|x a IH]; intros [|y b] H; try discriminate; auto. cbn in H. apply andb_true_iff in H as [H1 H2]. apply Z.eqb_eq in H1. f_equal; auto.
Qed.
Definition mem_is (off : Z) (l : list Z) (s : St) : bool := zeqbl (map (fun i => c_mem (g_code s) (off + Z.of_nat i)) (seq 0 (List.length l))) l.
