(* Vector conversions between element sizes: which sizes of register operands are accepted (C18).
   xbyak.h:2566-2603 checkCvt1, checkCvt2, checkCvt4, opCvt5; xbyak.h:2690-2698 opVmov. *)
From Coq Require Import ZArith List Bool String Lia.
From Verif Require Import Base Types Emit EmitFacts Encode Mnemonic MnemonicAvx SpecIsa SpecInsn Wf MemFacts VexFacts BitFacts ExecFacts.
Import ListNotations.
Open Scope list_scope.
Open Scope Z_scope.

(* ---- specification: elements of the result are n times smaller than those of the source, so that the result takes up
   1/n of a register, but at least an xmm register ---- *)
Definition part (n w : Z) : Z := Z.max 128 (w / n).
(* the method takes registers of these sizes and no others *)
Definition sizes_exactly (ok : Z -> Z -> Prop) (f : Reg -> Reg -> E unit) : Prop :=
  forall d s env pos, vec_reg d -> vec_reg s ->
    (forall its u, emits (f d s) env pos its u -> ok (bit_ d) (bit_ s))
    /\ (bare d -> bare s -> env_noexc env = false -> ok (bit_ d) (bit_ s) -> succeeds (f d s) env pos).
Definition narrowing (p : string * Z * (Reg -> Reg -> E unit)) := sizes_exactly (fun d s => d = part (snd (fst p)) s) (snd p).
Definition widening (p : string * Z * (Reg -> Reg -> E unit)) := sizes_exactly (fun d s => s = part (snd (fst p)) d) (snd p).

Definition narrow_table : list (string * Z * (Reg -> Reg -> E unit)) := [
  ("vcvtneph2bf8"%string, 2, fun d s => i_vcvtneph2bf8 d (OReg s));
  ("vcvtneph2bf8s"%string, 2, fun d s => i_vcvtneph2bf8s d (OReg s));
  ("vcvtneph2hf8"%string, 2, fun d s => i_vcvtneph2hf8 d (OReg s));
  ("vcvtneph2hf8s"%string, 2, fun d s => i_vcvtneph2hf8s d (OReg s));
  ("vcvtpd2udq"%string, 2, fun d s => i_vcvtpd2udq d (OReg s));
  ("vcvttpd2udq"%string, 2, fun d s => i_vcvttpd2udq d (OReg s));
  ("vcvtqq2ps"%string, 2, fun d s => i_vcvtqq2ps d (OReg s));
  ("vcvtuqq2ps"%string, 2, fun d s => i_vcvtuqq2ps d (OReg s));
  ("vcvttpd2dqs"%string, 2, fun d s => i_vcvttpd2dqs d (OReg s));
  ("vcvttpd2udqs"%string, 2, fun d s => i_vcvttpd2udqs d (OReg s));
  ("vcvtpd2dq"%string, 2, fun d s => i_vcvtpd2dq d (OReg s));
  ("vcvttpd2dq"%string, 2, fun d s => i_vcvttpd2dq d (OReg s));
  ("vcvtpd2ps"%string, 2, fun d s => i_vcvtpd2ps d (OReg s));
  ("vcvtdq2ph"%string, 2, fun d s => i_vcvtdq2ph d (OReg s));
  ("vcvtps2phx"%string, 2, fun d s => i_vcvtps2phx d (OReg s));
  ("vcvtudq2ph"%string, 2, fun d s => i_vcvtudq2ph d (OReg s));
  ("vcvtps2ph"%string, 2, fun d s => i_vcvtps2ph (OReg d) s 0);
  ("vpmovwb"%string, 2, fun d s => i_vpmovwb (OReg d) s);
  ("vpmovswb"%string, 2, fun d s => i_vpmovswb (OReg d) s);
  ("vpmovuswb"%string, 2, fun d s => i_vpmovuswb (OReg d) s);
  ("vpmovdw"%string, 2, fun d s => i_vpmovdw (OReg d) s);
  ("vpmovsdw"%string, 2, fun d s => i_vpmovsdw (OReg d) s);
  ("vpmovusdw"%string, 2, fun d s => i_vpmovusdw (OReg d) s);
  ("vpmovqd"%string, 2, fun d s => i_vpmovqd (OReg d) s);
  ("vpmovsqd"%string, 2, fun d s => i_vpmovsqd (OReg d) s);
  ("vpmovusqd"%string, 2, fun d s => i_vpmovusqd (OReg d) s);
  ("vcvtpd2ph"%string, 4, fun d s => i_vcvtpd2ph d (OReg s));
  ("vcvtqq2ph"%string, 4, fun d s => i_vcvtqq2ph d (OReg s));
  ("vcvtuqq2ph"%string, 4, fun d s => i_vcvtuqq2ph d (OReg s));
  ("vpmovdb"%string, 4, fun d s => i_vpmovdb (OReg d) s);
  ("vpmovsdb"%string, 4, fun d s => i_vpmovsdb (OReg d) s);
  ("vpmovusdb"%string, 4, fun d s => i_vpmovusdb (OReg d) s);
  ("vpmovqb"%string, 8, fun d s => i_vpmovqb (OReg d) s);
  ("vpmovsqb"%string, 8, fun d s => i_vpmovsqb (OReg d) s);
  ("vpmovusqb"%string, 8, fun d s => i_vpmovusqb (OReg d) s);
  ("vpmovqw"%string, 4, fun d s => i_vpmovqw (OReg d) s);
  ("vpmovsqw"%string, 4, fun d s => i_vpmovsqw (OReg d) s);
  ("vpmovusqw"%string, 4, fun d s => i_vpmovusqw (OReg d) s)].
Definition widen_table : list (string * Z * (Reg -> Reg -> E unit)) := [
  ("vcvtps2qq"%string, 2, fun d s => i_vcvtps2qq d (OReg s));
  ("vcvtps2uqq"%string, 2, fun d s => i_vcvtps2uqq d (OReg s));
  ("vcvttps2qq"%string, 2, fun d s => i_vcvttps2qq d (OReg s));
  ("vcvttps2uqq"%string, 2, fun d s => i_vcvttps2uqq d (OReg s));
  ("vcvtudq2pd"%string, 2, fun d s => i_vcvtudq2pd d (OReg s));
  ("vcvtph2dq"%string, 2, fun d s => i_vcvtph2dq d (OReg s));
  ("vcvttph2dq"%string, 2, fun d s => i_vcvttph2dq d (OReg s));
  ("vcvtph2udq"%string, 2, fun d s => i_vcvtph2udq d (OReg s));
  ("vcvttph2udq"%string, 2, fun d s => i_vcvttph2udq d (OReg s));
  ("vcvtph2psx"%string, 2, fun d s => i_vcvtph2psx d (OReg s));
  ("vcvttps2qqs"%string, 2, fun d s => i_vcvttps2qqs d (OReg s));
  ("vcvttps2uqqs"%string, 2, fun d s => i_vcvttps2uqqs d (OReg s));
  ("vcvtdq2pd"%string, 2, fun d s => i_vcvtdq2pd d (OReg s));
  ("vcvtps2pd"%string, 2, fun d s => i_vcvtps2pd d (OReg s));
  ("vcvtph2ps"%string, 2, fun d s => i_vcvtph2ps d (OReg s));
  ("vcvtph2qq"%string, 4, fun d s => i_vcvtph2qq d (OReg s));
  ("vcvttph2qq"%string, 4, fun d s => i_vcvttph2qq d (OReg s));
  ("vcvtph2uqq"%string, 4, fun d s => i_vcvtph2uqq d (OReg s));
  ("vcvttph2uqq"%string, 4, fun d s => i_vcvttph2uqq d (OReg s));
  ("vcvtph2pd"%string, 4, fun d s => i_vcvtph2pd d (OReg s))].

(* ---- proofs ---- *)
Lemma succ_bind_v {A B} (m : E A) (f : A -> E B) a its env pos : emits m env pos its a -> succeeds (f a) env (pos + items_size its) -> succeeds (bind m f) env pos.
Proof. intros H1 (i2 & b & H). exists (its ++ i2), b. eapply emits_bind_i; eauto. Qed.
Lemma succ_vex r b v t c env pos : env_noexc env = false -> (match v with Some v => getIdx v | None => 0 end ||| getIdx r ||| getIdx b) < 16 ->
  succeeds (vex r b v t c false) env pos.
Proof.
  intros N B. unfold vex. cbv zeta. replace (16 <=? _) with false by lia. apply succ_fn. apply succ_bind; [|intros; apply succ_db; exact N].
  destruct (_ && _); repeat (apply succ_bind; [apply succ_db; exact N|intros _ ?]); apply succ_db; exact N.
Qed.
Lemma succ_evex r b v t c env pos : env_noexc env = false -> has t (T_EVEX ||| T_MUST_EVEX) = true -> bare r -> bare b -> match v with Some v => bare v | None => True end ->
  succeeds (evex r b v t c None false 0 0 false) env pos.
Proof.
  intros N T (M1 & R1 & Z1) (M2 & R2 & Z2) V. unfold evex. cbv zeta. rewrite T. cbn [negb]. apply succ_fn. rewrite R1, R2, M1, M2.
  assert (Ev : match v with Some v => rounding_ v | None => 0 end = 0 /\ match v with Some v => mask_ v | None => 0 end = 0) by (destruct v; [destruct V as (? & ? & _)|]; auto).
  destruct Ev as [-> ->]. apply (succ_bind_v _ _ 0 []); [split; [exact N|reflexivity]|]. cbn [Z.eqb negb].
  eapply succ_bind_v; [split; [exact N|reflexivity]|]. cbv beta iota.
  apply (succ_bind_v _ _ 0 []); [split; [exact N|reflexivity]|].
  repeat (apply succ_bind; [apply succ_db; exact N|intros _ ?]). apply succ_ret. exact N.
Qed.
Lemma low_idx r : isExtIdx2 r = false -> 0 <= getIdx r < 16.
Proof.
  intros H. rewrite isExtIdx2_bit4 in H. rewrite idx_split, H. pose proof (low3_range r). destruct (bit3 r); cbn [z01]; lia.
Qed.
Lemma succ_opVex r v b t c imm env pos : env_noexc env = false -> has t (T_EVEX ||| T_MUST_EVEX) = true -> bare r -> bare b -> match v with Some v => bare v | None => True end ->
  succeeds (opVex r v (OReg b) t c imm) env pos.
Proof.
  intros N T Br Bb Bv. unfold opVex. apply succ_fn. apply succ_bind; [|intros; destruct (negb _); [apply succ_db; exact N|apply succ_ret; exact N]].
  apply succ_bind; [|intros; apply succ_db; exact N].
  destruct (_ || _) eqn:E.
  - apply succ_bind; [|intros; apply succ_ret; exact N]. apply succ_evex; assumption.
  - apply succ_vex; [exact N|]. rewrite !orb_false_iff in E. destruct E as [[[_ E1] E2] E3]. unfold hasEvex in *. rewrite !orb_false_iff in *.
    assert (V : 0 <= match v with Some v => getIdx v | None => 0 end < 16) by (destruct v as [v|]; [apply low_idx; rewrite !orb_false_iff in E2; apply E2|lia]).
    pose proof (low_idx r ltac:(tauto)). pose proof (low_idx b ltac:(tauto)).
    apply lor_lt_16; [apply Z.lor_nonneg; lia|lia|]. split; [apply lor_lt_16; lia|lia].
Qed.
Lemma bare_kind r k : bare r -> bare (setKind r k).
Proof. unfold setKind, set_kindbit. destruct (has k _); auto. Qed.
Lemma bare_x0 : bare (Xmm 0). Proof. repeat split. Qed.
Lemma vec3 r : vec_reg r -> kind_ r = XMM /\ bit_ r = 128 \/ kind_ r = YMM /\ bit_ r = 256 \/ kind_ r = ZMM /\ bit_ r = 512.
Proof. intros [V _]. exact V. Qed.
Ltac kinds V1 V2 := apply vec3 in V1, V2; destruct V1 as [[K1 B1]|[[K1 B1]|[K1 B1]]], V2 as [[K2 B2]|[[K2 B2]|[K2 B2]]]; rewrite ?K1, ?K2, ?B1, ?B2; reflexivity.
Lemma cvt1_sizes x y : vec_reg x -> vec_reg y -> checkCvt1 (OReg x) (OReg y) = fn tt (if bit_ y =? part 2 (bit_ x) then ret tt else throw ERR_BAD_COMBINATION).
Proof. intros V1 V2. unfold checkCvt1, is_, isZMM, isYMM, oXMM, is_, isXMM, is_. cbn [ob isMEM negb andb]. kinds V1 V2. Qed.
Lemma cvt2_sizes x y : vec_reg x -> vec_reg y -> checkCvt2 x (OReg y) = fn tt (if bit_ x =? part 2 (bit_ y) then ret tt else throw ERR_BAD_COMBINATION).
Proof. intros V1 V2. unfold checkCvt2, isYMM, isXMM, is_. cbn [ob isMEM negb andb]. kinds V1 V2. Qed.
Lemma cvt4_sizes x y : vec_reg x -> vec_reg y -> checkCvt4 x (OReg y) = fn tt (if bit_ x =? part 2 (bit_ y) then ret tt else throw ERR_BAD_COMBINATION).
Proof. intros V1 V2. unfold checkCvt4, isYMM, isXMM, oBit, isBit, is_. cbn [ob isMEM negb andb]. kinds V1 V2. Qed.
Lemma cvt5_sizes x y : vec_reg x -> vec_reg y -> isXMM x && oBit (OReg y) 896 = (bit_ x =? part 4 (bit_ y)).
Proof. intros V1 V2. unfold isXMM, oBit, isBit, is_. cbn [ob isMEM negb andb]. kinds V1 V2. Qed.
Lemma vmov_true x y : vec_reg x -> vec_reg y -> (oXMM (OReg y) && isXMM x) || (oXMM (OReg y) && isYMM x) || (isYMM y && isZMM x) = (bit_ y =? part 2 (bit_ x)).
Proof. intros V1 V2. unfold oXMM, isXMM, isYMM, isZMM, is_. cbn [ob isMEM negb andb]. kinds V1 V2. Qed.
Lemma vmov_4 x y : vec_reg x -> vec_reg y -> oXMM (OReg y) = (bit_ y =? part 4 (bit_ x)).
Proof. intros V1 V2. unfold oXMM, isXMM, isYMM, isZMM, is_. cbn [ob isMEM negb andb]. kinds V1 V2. Qed.
Lemma vmov_8 x y : vec_reg x -> vec_reg y -> oXMM (OReg y) = (bit_ y =? part 8 (bit_ x)).
Proof. intros V1 V2. unfold oXMM, isXMM, isYMM, isZMM, is_. cbn [ob isMEM negb andb]. kinds V1 V2. Qed.
Lemma sizes_by ok f (g : Reg -> Reg -> bool) :
  (forall d s, vec_reg d -> vec_reg s -> (g d s = true <-> ok (bit_ d) (bit_ s))) ->
  (forall d s env pos its u, vec_reg d -> vec_reg s -> g d s = false -> emits (f d s) env pos its u -> False) ->
  (forall d s env pos, vec_reg d -> vec_reg s -> g d s = true -> bare d -> bare s -> env_noexc env = false -> succeeds (f d s) env pos) ->
  sizes_exactly ok f.
Proof.
  intros G N S d s env pos V1 V2. split.
  - intros its u H. apply G; auto. destruct (g d s) eqn:E; [reflexivity|]. destruct (N _ _ _ _ _ _ V1 V2 E H).
  - intros B1 B2 X O. apply S; auto. apply G; auto.
Qed.
Definition nar n : Reg -> Reg -> bool := fun d s => bit_ d =? part n (bit_ s).
Definition wid n : Reg -> Reg -> bool := fun d s => bit_ s =? part n (bit_ d).
Lemma throws {A} (d : A) e env pos its u : emits (fn d (throw e)) env pos its u -> False.
Proof. intros H. apply emits_fn in H. exact (emits_throw _ _ _ _ _ H). Qed.
Lemma throws2 {A} e (m : unit -> E A) env pos its u : emits (bind (fn tt (throw e)) m) env pos its u -> False.
Proof. intros H. apply emits_bind in H. destruct H as (? & ? & ? & H & _). exact (throws _ _ _ _ _ _ H). Qed.
Lemma succ_checked (m : unit -> E unit) env pos : env_noexc env = false -> (forall x p, succeeds (m x) env p) -> succeeds (bind (fn tt (ret tt)) m) env pos.
Proof. intros N S. apply succ_bind; [apply succ_fn, succ_ret; exact N|auto]. Qed.
Ltac opv := unfold opCvt; cbv zeta; apply succ_opVex; [assumption|assumption|first [apply bare_kind; assumption|assumption]|assumption|first [exact bare_x0|exact I]].
Section Shapes.
Variables (t c imm : Z).
Hypothesis HT : has t (T_EVEX ||| T_MUST_EVEX) = true.
Ltac shape E g := apply (sizes_by _ _ g); unfold nar, wid; [intros; apply Z.eqb_eq|intros d s env pos its u V1 V2 G H; rewrite E in H|intros d s env pos V1 V2 G A1 A2 N; rewrite E].
Lemma sh_cvt1 f : (forall x op, f x op = (checkCvt1 (OReg x) op ;;; opVex x None op t c imm)) -> sizes_exactly (fun d s => s = part 2 d) (fun d s => f d (OReg s)).
Proof.
  intros E. shape E (wid 2).
  - rewrite cvt1_sizes, G in H by assumption. exact (throws2 _ _ _ _ _ _ H).
  - rewrite cvt1_sizes, G by assumption. apply succ_checked; [exact N|intros]. opv.
Qed.
Lemma sh_cvt1r f : (forall op x, f op x = (checkCvt1 (OReg x) op ;;; opVex x None op t c imm)) -> sizes_exactly (fun d s => d = part 2 s) (fun d s => f (OReg d) s).
Proof.
  intros E. shape E (nar 2).
  - rewrite cvt1_sizes, G in H by assumption. exact (throws2 _ _ _ _ _ _ H).
  - rewrite cvt1_sizes, G by assumption. apply succ_checked; [exact N|intros]. opv.
Qed.
Lemma sh_cvt2 f : (forall x op, f x op = opCvt2 x op t c) -> sizes_exactly (fun d s => d = part 2 s) (fun d s => f d (OReg s)).
Proof.
  intros E. shape E (nar 2); unfold opCvt2 in *.
  - rewrite cvt2_sizes, G in H by assumption. exact (throws2 _ _ _ _ _ _ H).
  - rewrite cvt2_sizes, G by assumption. apply succ_checked; [exact N|intros]. opv.
Qed.
Lemma sh_cvt4 f : (forall x op, f x op = (checkCvt4 x op ;;; opCvt x op t c)) -> sizes_exactly (fun d s => d = part 2 s) (fun d s => f d (OReg s)).
Proof.
  intros E. shape E (nar 2).
  - rewrite cvt4_sizes, G in H by assumption. exact (throws2 _ _ _ _ _ _ H).
  - rewrite cvt4_sizes, G by assumption. apply succ_checked; [exact N|intros]. opv.
Qed.
Lemma sh_cvt5 f : (forall x op, f x op = opCvt5 x op t c) -> sizes_exactly (fun d s => d = part 4 s) (fun d s => f d (OReg s)).
Proof.
  intros E. shape E (nar 4); unfold opCvt5 in *.
  - rewrite cvt5_sizes, G in H by assumption. exact (throws _ _ _ _ _ _ H).
  - rewrite cvt5_sizes, G by assumption. cbn [negb]. apply succ_fn. opv.
Qed.
Lemma sh_vmov2 f : (forall op x, f op x = opVmov op x t c true) -> sizes_exactly (fun d s => d = part 2 s) (fun d s => f (OReg d) s).
Proof.
  intros E. shape E (nar 2); unfold opVmov in *; cbn [isMEM negb andb ob] in *.
  - rewrite vmov_true, G in H by assumption. exact (throws _ _ _ _ _ _ H).
  - rewrite vmov_true, G by assumption. cbn [negb]. apply succ_fn. opv.
Qed.
Lemma sh_vmov4 f : (forall op x, f op x = opVmov op x t c false) -> sizes_exactly (fun d s => d = part 4 s) (fun d s => f (OReg d) s).
Proof.
  intros E. shape E (nar 4); unfold opVmov in *; cbn [isMEM negb andb ob] in *.
  - rewrite (vmov_4 s), G in H by assumption. exact (throws _ _ _ _ _ _ H).
  - rewrite (vmov_4 s), G by assumption. cbn [negb]. apply succ_fn. opv.
Qed.
Lemma sh_vmov8 f : (forall op x, f op x = opVmov op x t c false) -> sizes_exactly (fun d s => d = part 8 s) (fun d s => f (OReg d) s).
Proof.
  intros E. shape E (nar 8); unfold opVmov in *; cbn [isMEM negb andb ob] in *.
  - rewrite (vmov_8 s), G in H by assumption. exact (throws _ _ _ _ _ _ H).
  - rewrite (vmov_8 s), G by assumption. cbn [negb]. apply succ_fn. opv.
Qed.
Lemma sh_ph f : (forall x op, f x op = fn tt (if negb (isXMM (ob op)) && negb (isMEM op) then throw ERR_BAD_MEM_SIZE else opVex x None op t c imm)) ->
  sizes_exactly (fun d s => s = part 4 d) (fun d s => f d (OReg s)).
Proof.
  intros E. shape E (wid 4); cbn [isMEM negb andb ob] in *; change (isXMM s) with (oXMM (OReg s)) in *.
  - rewrite (vmov_4 d), G in H by assumption. exact (throws _ _ _ _ _ _ H).
  - rewrite (vmov_4 d), G by assumption. cbn [negb andb]. apply succ_fn. opv.
Qed.
End Shapes.
Ltac row := cbn [fst snd]; first
  [ refine (sh_cvt2 _ _ _ _ (fun _ _ => eq_refl)); reflexivity | refine (sh_cvt1 _ _ _ _ _ (fun _ _ => eq_refl)); reflexivity | refine (sh_cvt1r _ _ _ _ _ (fun _ _ => eq_refl)); reflexivity
  | refine (sh_cvt4 _ _ _ _ (fun _ _ => eq_refl)); reflexivity | refine (sh_cvt5 _ _ _ _ (fun _ _ => eq_refl)); reflexivity
  | refine (sh_vmov2 _ _ _ _ (fun _ _ => eq_refl)); reflexivity | refine (sh_vmov4 _ _ _ _ (fun _ _ => eq_refl)); reflexivity | refine (sh_vmov8 _ _ _ _ (fun _ _ => eq_refl)); reflexivity
  | refine (sh_ph _ _ _ _ _ (fun _ _ => eq_refl)); reflexivity ].
Lemma narrow_all : Forall narrowing narrow_table.
Proof. unfold narrow_table. repeat (apply Forall_cons; [unfold narrowing; row|]). apply Forall_nil. Qed.
Lemma widen_all : Forall widening widen_table.
Proof. unfold widen_table. repeat (apply Forall_cons; [unfold widening; row|]). apply Forall_nil. Qed.
