(* Proofs for C24. *)
From Coq Require Import ZArith List Bool Lia Permutation.
From Verif Require Import Base Types Emit SpecX86 SpecAddr Wf EmitFacts LegacyFacts BitFacts EncThms Encode SpecReg SpecExpr.
Import ListNotations.
Open Scope Z_scope.

(* the RegExp object that the overloaded operators build (xbyak.h:984-1078) *)
Fixpoint build (e : aexp) : E RegExp :=
  match e with
  | XReg r => regExpReg r 1
  | XScale r k => regExpReg r k
  | XDisp d => ret (regExpDisp d)
  | XAdd a b => x <- build a ;; y <- build b ;; regExpAdd x y
  | XSub a d => x <- build a ;; ret (regExpSub x d)
  end.
(* ptr[e], byte[e], ... *)
Definition at_frame (bit : Z) (bc : bool) (e : aexp) : E Address := x <- build e ;; frameAt bit bc x.

(* register objects other than tile registers *)
Definition obj (r : Reg) : Prop :=
  gpr r \/ vec_reg r \/ mmx_reg r \/ opmask_reg r \/ bnd_reg r \/ fpu_reg r.
Fixpoint objs (e : aexp) : Prop :=
  match e with XReg r | XScale r _ => obj r | XDisp _ => True | XAdd a b => objs a /\ objs b | XSub a _ => objs a end.

Definition bt (x : RegExp) : list (Reg * Z) := if present (e_base x) then [(e_base x, 1)] else [].
Definition it (x : RegExp) : list (Reg * Z) := if present (e_index x) then [(e_index x, e_scale x)] else [].
Record repr (x : RegExp) (ts : list (Reg * Z)) : Prop := {
  rp_wf : wf_regexp x;
  rp_ts : Permutation ts (bt x ++ it x);
  rp_one : addr_gpr (e_index x) -> e_scale x = 1 -> addr_gpr (e_base x) /\ (regno (e_index x) = 4 -> regno (e_base x) = 4)
}.
Definition idx_term (t : Reg * Z) : bool := (128 <=? bit_ (fst t)) || negb (snd t =? 1).
Definition fits (ts : list (Reg * Z)) : Prop := (List.length (filter idx_term ts) <= 1)%nat /\ (List.length ts <= 2)%nat.

Lemma no_noReg : no_reg noReg. Proof. repeat split. Qed.
Lemma no_reg_absent r : no_reg r -> present r = false. Proof. intros (_ & B & _). unfold present. rewrite B. reflexivity. Qed.
Lemma gpr_present r : addr_gpr r -> present r = true. Proof. intros (_ & [B|B] & _); unfold present; rewrite B; reflexivity. Qed.
Lemma vec_pres r : vec_reg r -> present r = true. Proof. intros [[[_ B]|[[_ B]|[_ B]]] _]; unfold present; rewrite B; reflexivity. Qed.
Lemma reg_getBit r : no_reg r \/ addr_gpr r \/ vec_reg r -> getBit r = bit_ r.
Proof. intros [(_ & B & _)|[(_ & [B|B] & _)|[[[_ B]|[[_ B]|[_ B]]] _]]]; unfold getBit; rewrite ?B; reflexivity. Qed.
Lemma reg_bit0 r : no_reg r \/ addr_gpr r \/ vec_reg r -> (getBit r =? 0) = negb (present r).
Proof. intros H. rewrite (reg_getBit _ H). unfold present. rewrite negb_involutive. reflexivity. Qed.
Lemma no_not_gpr r : no_reg r -> addr_gpr r -> False. Proof. intros (K & _) (K2 & _). rewrite K in K2. discriminate. Qed.

Lemma obj_term r k env pos x : obj r -> env_noexc env = false -> regExpReg r k env pos = ([], Ok x) -> addr_reg r /\ In k [0; 1; 2; 4; 8] /\
  ((k = 0 /\ x = mkRegExp noReg noReg 0 0) \/ (scale_ok k /\ (vec_reg r \/ k <> 1) /\ x = mkRegExp noReg r k 0) \/ (addr_gpr r /\ k = 1 /\ x = mkRegExp r noReg k 0)).
Proof.
  intros O N H. unfold regExpReg, fn in H.
  assert (A : isREGb r i32e || is_ r (XMM ||| YMM ||| ZMM ||| TMM) 0 = true -> addr_reg r).
  { unfold addr_reg. unfold isREGb, is_. unfold obj, gpr, mmx_reg, opmask_reg, bnd_reg, fpu_reg in O.
    destruct O as [(K & [[[B|[B|[B|B]]] I]|[B I]])|[O|[(K & B & _)|[(K & B & _)|[(K & B & _)|(K & B & _)]]]]]; try (rewrite K, B); cbn; try discriminate; auto.
    - intros _. left. split; auto.
    - intros _. left. split; auto. }
  destruct (isREGb r i32e) eqn:R1, (is_ r (XMM ||| YMM ||| ZMM ||| TMM) 0) eqn:R2; cbn [orb negb andb] in H, A;
    try (specialize (A eq_refl)); try (unfold throw in H; rewrite N in H; discriminate H).
  all: split; [exact A|].
  all: destruct (k =? 0) eqn:K0; [cbn in H; injection H as <-; split; [cbn; lia|left; split; [lia|f_equal; lia]]|].
  all: assert (S : scale_ok k) by (unfold scale_ok; destruct (k =? 1) eqn:?, (k =? 2) eqn:?, (k =? 4) eqn:?, (k =? 8) eqn:?; try lia; cbn in H; unfold throw in H; rewrite N in H; discriminate).
  all: split; [cbn; unfold scale_ok in S; lia|].
  all: replace (negb (k =? 1) && negb (k =? 2) && negb (k =? 4) && negb (k =? 8)) with false in H by (unfold scale_ok in S; destruct S as [-> |[-> |[-> | ->]]]; reflexivity).
  all: right; rewrite (reg_getBit r) in H by (right; exact A).
  all: destruct (k =? 1) eqn:K1; [|cbn in H; rewrite orb_true_r in H; cbn in H; injection H as <-; left; split; auto; split; auto; right; lia].
  all: cbn [negb] in H; rewrite orb_false_r in H; destruct A as [A|A];
    [replace (128 <=? bit_ r) with false in H by (destruct A as (_ & [-> | ->] & _); reflexivity); cbn in H; injection H as <-; right; split; auto; split; [lia|reflexivity]
    |replace (128 <=? bit_ r) with true in H by (destruct A as [[[_ ->]|[[_ ->]|[_ ->]]] _]; reflexivity); cbn in H; injection H as <-; left; auto].
Qed.
Lemma obj_built r k env pos : addr_reg r -> In k [0; 1; 2; 4; 8] -> exists x, regExpReg r k env pos = ([], Ok x).
Proof.
  intros A K. unfold regExpReg, fn.
  assert (Q : isREGb r i32e || is_ r (XMM ||| YMM ||| ZMM ||| TMM) 0 = true).
  { unfold isREGb, is_. destruct A as [(Kd & B & _)|[[[Kd B]|[[Kd B]|[Kd B]]] _]]; rewrite Kd; [destruct B as [-> | ->]|..]; reflexivity. }
  destruct (isREGb r i32e), (is_ r (XMM ||| YMM ||| ZMM ||| TMM) 0); try discriminate Q; cbn [negb andb];
    cbn in K; destruct K as [<-|[<-|[<-|[<-|[<-|[]]]]]]; cbn -[Z.leb getBit]; destruct (128 <=? getBit r); cbn; eauto.
Qed.

Lemma wf_cases x : wf_regexp x -> (no_reg (e_base x) \/ addr_gpr (e_base x)) /\ (no_reg (e_index x) \/ addr_gpr (e_index x) \/ vec_reg (e_index x)).
Proof. intros [B I _]. tauto. Qed.
Lemma filter_perm (f : Reg * Z -> bool) a b : Permutation a b -> List.length (filter f a) = List.length (filter f b).
Proof. induction 1; cbn; auto; [destruct (f x); cbn; auto|destruct (f x), (f y); cbn; auto|congruence]. Qed.
Lemma bt_idx x : wf_regexp x -> filter idx_term (bt x) = [].
Proof. intros [[B|B] _ _]; unfold bt; [rewrite (no_reg_absent _ B); reflexivity|]. rewrite (gpr_present _ B). cbn. unfold idx_term. cbn. destruct B as (_ & [-> | ->] & _); reflexivity. Qed.
Lemma repr_fits x ts : repr x ts -> fits ts.
Proof.
  intros [W P _]. unfold fits. rewrite (Permutation_length P), (filter_perm _ _ _ P), filter_app, !app_length, (bt_idx _ W). unfold bt, it.
  destruct (present (e_base x)), (present (e_index x)); cbn; try lia; destruct (idx_term _); cbn; lia.
Qed.

(* operator+ *)
Ltac pres W := repeat match goal with
  | H : no_reg ?r |- context [getBit ?r =? 0] => rewrite (reg_bit0 r (or_introl H)), (no_reg_absent r H)
  | H : addr_gpr ?r |- context [getBit ?r =? 0] => rewrite (reg_bit0 r (or_intror (or_introl H))), (gpr_present r H)
  | H : vec_reg ?r |- context [getBit ?r =? 0] => rewrite (reg_bit0 r (or_intror (or_intror H))), (vec_pres r H)
  end.
Lemma w64_range z : 0 <= w64 z < 18446744073709551616.
Proof. unfold w64. apply Z.mod_pos_bound. lia. Qed.
Lemma add_ok x y ts us env pos : repr x ts -> repr y us -> env_noexc env = false ->
  (fits (ts ++ us) -> exists z, regExpAdd x y env pos = ([], Ok z))
  /\ forall z, regExpAdd x y env pos = ([], Ok z) -> repr z (ts ++ us) /\ e_disp z = w64 (e_disp x + e_disp y).
Proof.
  intros Rx Ry N. pose proof (rp_wf _ _ Rx) as Wx. pose proof (rp_wf _ _ Ry) as Wy.
  assert (F : fits (ts ++ us) -> (List.length (filter idx_term (it x)) + List.length (filter idx_term (it y)) <= 1)%nat
     /\ (List.length (bt x) + List.length (it x) + List.length (bt y) + List.length (it y) <= 2)%nat).
  { intros [F1 F2]. rewrite filter_app, app_length in F1. rewrite app_length in F2. rewrite (filter_perm _ _ _ (rp_ts _ _ Rx)), (filter_perm _ _ _ (rp_ts _ _ Ry)), !filter_app, !app_length, (bt_idx _ Wx), (bt_idx _ Wy) in F1.
    rewrite (Permutation_length (rp_ts _ _ Rx)), (Permutation_length (rp_ts _ _ Ry)), !app_length in F2. cbn in F1. lia. }
  pose proof (rp_ts _ _ Rx) as Px. pose proof (rp_ts _ _ Ry) as Py. pose proof (rp_one _ _ Rx) as Ox. pose proof (rp_one _ _ Ry) as Oy.
  assert (PP : Permutation (ts ++ us) ((bt x ++ it x) ++ (bt y ++ it y))) by (apply Permutation_app; auto).
  clear Px Py Rx Ry. unfold regExpAdd, fn.
  pose proof (w64_range (e_disp x + e_disp y)) as D.
  destruct Wx as [Bx Ix Dx], Wy as [By Iy Dy]. destruct x as [xb xi xs xd], y as [yb yi ys yd]. unfold bt, it in *. cbn [e_base e_index e_scale e_disp] in *.
  assert (Tg : forall r k, addr_gpr r -> idx_term (r, k) = negb (k =? 1)) by (intros r k (_ & [B|B] & _); unfold idx_term; cbn [fst snd]; rewrite B; reflexivity).
  assert (Tv : forall r k, vec_reg r -> idx_term (r, k) = true) by (intros r k [[[_ B]|[[_ B]|[_ B]]] _]; unfold idx_term; cbn [fst snd]; rewrite B; reflexivity).
  destruct Ix as [Ix|[[Ix|Ix] Sx]], Iy as [Iy|[[Iy|Iy] Sy]]; pres tt; cbn [negb andb].
  (* both have an index *)
  5-6,8-9: unfold throw; rewrite N; split; [|intros z Hz; discriminate]; intros Hf; exfalso; apply F in Hf as [F1 F2];
         rewrite ?(gpr_present _ Ix), ?(vec_pres _ Ix), ?(gpr_present _ Iy), ?(vec_pres _ Iy) in F1, F2; cbn [filter app List.length] in F1, F2;
         rewrite ?(Tg _ _ Ix), ?(Tg _ _ Iy), ?(Tv _ _ Ix), ?(Tv _ _ Iy) in F1;
         destruct (xs =? 1) eqn:X1, (ys =? 1) eqn:Y1; cbn in F1; try lia;
         try (destruct (Ox Ix ltac:(lia)) as [Q _]; rewrite (gpr_present _ Q) in F2; cbn in F2; lia);
         try (destruct (Oy Iy ltac:(lia)) as [Q _]; rewrite (gpr_present _ Q) in F2; cbn in F2; lia).
  all: destruct Bx as [Bx|Bx], By as [By|By]; pres tt; cbn [negb].
  all: repeat match goal with
    | H : no_reg ?r |- _ => rewrite (no_reg_absent r H) in PP, F
    | H : addr_gpr ?r |- _ => rewrite (gpr_present r H) in PP, F
    | H : vec_reg ?r |- _ => rewrite (vec_pres r H) in PP, F
    end.
  all: cbn [app] in PP.
  all: try (unfold throw; rewrite N; split; [|intros z Hz; discriminate]; intros Hf; exfalso; apply F in Hf as [F1 F2]; cbn in F2; lia).
  all: try match goal with |- context [getIdx ?r =? 4] => destruct (getIdx r =? 4) eqn:Q4; rewrite (regno_getIdx r) in Q4 end.
  all: (split; [intros _; eexists; reflexivity|]); intros z Hz; injection Hz as <-; (split; [|reflexivity]); constructor; unfold bt, it; cbn [e_base e_index e_scale e_disp].
  all: try (constructor; cbn [e_base e_index e_scale e_disp]; auto; unfold scale_ok; tauto).
  all: try (repeat match goal with
    | H : no_reg ?r |- context [present ?r] => rewrite (no_reg_absent r H)
    | H : addr_gpr ?r |- context [present ?r] => rewrite (gpr_present r H)
    | H : vec_reg ?r |- context [present ?r] => rewrite (vec_pres r H)
    end; cbn [app]; first [exact PP | eapply Permutation_trans; [exact PP|apply perm_swap]]).
  all: intros Gi S1; try (exfalso; eapply no_not_gpr; eassumption).
  all: try (exfalso; destruct (Ox Gi S1) as [Gb _]; exact (no_not_gpr _ Bx Gb)).
  all: try (exfalso; destruct (Oy Gi S1) as [Gb _]; exact (no_not_gpr _ By Gb)).
  all: try (apply Ox; assumption).
  all: try (apply Oy; assumption).
  all: (split; [assumption|intros]); first [lia|assumption|idtac].
Qed.
Definition tsum (regs : Z -> Z) (ts : list (Reg * Z)) : Z := fold_right (fun t n => regs (regno (fst t)) * snd t + n) 0 ts.
Lemma tsum_app regs a b : tsum regs (a ++ b) = tsum regs a + tsum regs b.
Proof. induction a as [|t a IH]; cbn; [reflexivity|]. unfold tsum in *. rewrite IH. lia. Qed.
Lemma tsum_perm regs a b : Permutation a b -> tsum regs a = tsum regs b.
Proof. unfold tsum. induction 1; cbn; lia. Qed.
Lemma written_terms regs x ts : repr x ts -> written regs x = tsum regs ts + s64 (e_disp x).
Proof. intros R. rewrite (tsum_perm _ _ _ (rp_ts _ _ R)), tsum_app. unfold written, bt, it. destruct (present (e_base x)), (present (e_index x)); cbn [tsum fold_right fst snd]; lia. Qed.
Lemma fits_app a b : fits (a ++ b) -> fits a /\ fits b.
Proof. unfold fits. rewrite filter_app, !app_length. lia. Qed.
Lemma sub_repr x ts d : repr x ts -> repr (regExpSub x d) ts.
Proof. intros [[B I D] P O]. constructor; auto. constructor; auto. apply w64_range. Qed.
(* build succeeds exactly on typed expressions with at most two terms, at most one of them scaled or a vector *)
Lemma ret_ok {A} (m : E A) env pos x : m env pos = ([], Ok x) -> m env pos = ([], Ok x). Proof. auto. Qed.
Lemma build_sound e env pos x : objs e -> env_noexc env = false -> snd (build e env pos) = Ok x ->
  build e env pos = ([], Ok x) /\ typed e /\ repr x (terms e) /\ forall regs, written regs x mod 2 ^ 64 = value regs e mod 2 ^ 64.
Proof.
  intros O N. revert x pos O.
  assert (T : forall r k pos x, obj r -> snd (regExpReg r k env pos) = Ok x ->
     regExpReg r k env pos = ([], Ok x) /\ addr_reg r /\ In k [0; 1; 2; 4; 8] /\ repr x (term r k) /\ forall regs, written regs x mod 2 ^ 64 = (regs (regno r) * k) mod 2 ^ 64).
  { intros r k pos x O H.
    assert (E : regExpReg r k env pos = ([], Ok x)).
    { revert H. unfold regExpReg, fn. repeat match goal with |- context [if ?c then _ else _] => destruct c end; unfold throw; rewrite ?N; cbn; try discriminate; intros [= <-]; reflexivity. }
    split; auto. destruct (obj_term _ _ _ _ _ O N E) as (A & K & C). split; auto. split; auto. unfold term.
    destruct C as [[-> ->]|[(S & V & ->)|(G & -> & ->)]].
    - split; [|intros regs; rewrite Z.mul_0_r; reflexivity]. constructor; [constructor; cbn; auto using no_noReg; lia|apply Permutation_refl|intros Q; exfalso; apply (no_not_gpr _ no_noReg Q)].
    - replace (k =? 0) with false by (unfold scale_ok in S; lia).
      assert (P : present r = true) by (destruct A; auto using gpr_present, vec_pres).
      split; [constructor|].
      + constructor; cbn; auto using no_noReg; try lia. 
      + unfold bt, it. cbn [e_base e_index e_scale]. rewrite P. apply Permutation_refl.
      + cbn. intros Q ->. destruct V as [V|V]; [|lia]. exfalso. destruct V as [[[K0 _]|[[K0 _]|[K0 _]]] _], Q as (K1 & _); rewrite K0 in K1; discriminate.
      + intros regs. unfold written. cbn [e_base e_index e_scale e_disp]. rewrite P. cbn. f_equal. lia.
    - split; [constructor|].
      + constructor; cbn; auto using no_noReg; lia.
      + unfold bt, it. cbn [e_base e_index e_scale]. rewrite (gpr_present _ G). apply Permutation_refl.
      + cbn. intros Q. exfalso. apply (no_not_gpr _ no_noReg Q).
      + intros regs. unfold written. cbn [e_base e_index e_scale e_disp]. rewrite (gpr_present _ G). cbn. f_equal. lia. }
  induction e as [r|r k|d|a IHa b IHb|a IHa d]; intros x pos O H; cbn [build typed terms value objs] in *.
  - apply T in H as (H & A & _ & R & V); auto. split; auto. split; auto. split; auto. intros regs. rewrite V. f_equal. lia.
  - apply T in H as (H & A & K & R & V); auto.
  - cbn in H. injection H as <-. split; [reflexivity|]. split; auto. split.
    + constructor; [constructor; cbn; auto using no_noReg; apply w64_range|apply Permutation_refl|intros Q; exfalso; apply (no_not_gpr _ no_noReg Q)].
    + intros regs. unfold written, regExpDisp. cbn [e_base e_index e_scale e_disp present noReg]. cbn. rewrite s64_mod. unfold w64. change 18446744073709551616 with (2 ^ 64). apply Z.mod_mod. lia.
  - destruct O as [Oa Ob]. unfold bind in H |- *.
    destruct (build a env pos) as [la [xa|]] eqn:Ea; [|discriminate].
    destruct (IHa xa pos Oa) as (Ea' & Ta & Ra & Va); [rewrite Ea; reflexivity|]. rewrite Ea in Ea'. injection Ea' as ->. cbn [items_size] in H |- *. rewrite Z.add_0_r in H |- *.
    destruct (build b env pos) as [lb [xb|]] eqn:Eb; [|discriminate].
    destruct (IHb xb pos Ob) as (Eb' & Tb & Rb & Vb); [rewrite Eb; reflexivity|]. rewrite Eb in Eb'. injection Eb' as ->. cbn [items_size] in H |- *. rewrite Z.add_0_r in H |- *.
    assert (Ez : regExpAdd xa xb env pos = ([], Ok x)).
    { revert H. unfold regExpAdd, fn. cbv zeta. repeat match goal with |- context [if ?c then _ else _] => destruct c end; unfold throw; rewrite ?N; cbn; try discriminate; intros [= <-]; reflexivity. }
    rewrite Ez. split; [reflexivity|]. split; auto. destruct (add_ok xa xb _ _ env pos Ra Rb N) as [_ A]. destruct (A x Ez) as [Rz Dz]. split; auto.
    intros regs. rewrite <- Z.add_mod_idemp_l, <- Z.add_mod_idemp_r by lia. rewrite <- Va, <- Vb. rewrite Z.add_mod_idemp_l, Z.add_mod_idemp_r by lia.
    rewrite (written_terms _ _ _ Ra), (written_terms _ _ _ Rb), (written_terms _ _ _ Rz), tsum_app, Dz.
    set (p := tsum regs (terms a)). set (q := tsum regs (terms b)).
    replace (p + s64 (e_disp xa) + (q + s64 (e_disp xb))) with (p + q + (s64 (e_disp xa) + s64 (e_disp xb))) by lia.
    rewrite <- Z.add_mod_idemp_r, s64_mod by lia. symmetry. rewrite <- Z.add_mod_idemp_r, (Z.add_mod (s64 _)), !s64_mod, <- Z.add_mod by lia.
    unfold w64. change 18446744073709551616 with (2 ^ 64). rewrite (Z.mod_mod (_ + _)) by lia. reflexivity.
  - unfold bind in H |- *. destruct (build a env pos) as [la [xa|]] eqn:Ea; [|discriminate].
    destruct (IHa xa pos O) as (Ea' & Ta & Ra & Va); [rewrite Ea; reflexivity|]. rewrite Ea in Ea'. injection Ea' as ->. cbn in H. injection H as <-.
    split; [reflexivity|]. split; auto. split; [apply sub_repr; auto|]. intros regs. rewrite <- Zminus_mod_idemp_l, <- Va, Zminus_mod_idemp_l.
    unfold written, regExpSub. cbn [e_base e_index e_scale e_disp].
    set (u := _ + (if present (e_index xa) then _ else 0)).
    rewrite <- Z.add_mod_idemp_r, s64_mod by lia. unfold w64. change 18446744073709551616 with (2 ^ 64). rewrite Z.mod_mod, Z.add_mod_idemp_r by lia.
    replace (u + s64 (e_disp xa) - d) with ((u - d) + s64 (e_disp xa)) by lia. rewrite <- (Z.add_mod_idemp_r (u - d)), s64_mod, Z.add_mod_idemp_r by lia. f_equal. lia.
Qed.
Lemma build_complete e env pos : objs e -> env_noexc env = false -> typed e -> fits (terms e) -> exists x, build e env pos = ([], Ok x).
Proof.
  intros O N. revert pos O. induction e as [r|r k|d|a IHa b IHb|a IHa d]; intros pos O T F; cbn [build typed terms objs] in *.
  - apply obj_built; cbn; auto.
  - apply obj_built; apply T.
  - eexists. reflexivity.
  - destruct O as [Oa Ob], T as [Ta Tb]. pose proof (fits_app _ _ F) as [Fa Fb]. destruct (IHa pos Oa Ta Fa) as [xa Ea], (IHb pos Ob Tb Fb) as [xb Eb].
    destruct (build_sound a env pos xa Oa N) as (_ & _ & Ra & _); [rewrite Ea; reflexivity|]. destruct (build_sound b env pos xb Ob N) as (_ & _ & Rb & _); [rewrite Eb; reflexivity|].
    destruct (add_ok xa xb _ _ env pos Ra Rb N) as [A _]. destruct (A F) as [z Ez]. exists z. unfold bind. rewrite Ea. cbn [items_size]. rewrite Z.add_0_r, Eb. cbn [items_size]. rewrite Z.add_0_r, Ez. reflexivity.
  - destruct (IHa pos O T F) as [xa Ea]. unfold bind. rewrite Ea. eexists. reflexivity.
Qed.

(* verify() *)
Lemma verify_iff x ts env pos : repr x ts -> env_noexc env = false ->
  (verify x env pos = ([], Ok tt) /\ verified x /\ encodable ts) \/ (exists e, verify x env pos = ([], Err e) /\ ~ encodable ts).
Proof.
  intros R N. pose proof (rp_wf _ _ R) as W. destruct (wf_cases _ W) as [B I]. pose proof (rp_ts _ _ R) as P. pose proof (rp_one _ _ R) as O1.
  assert (S : present (e_index x) = true -> scale_ok (e_scale x)).
  { intros Q. destruct (wf_index _ W) as [Z0|[_ S]]; auto. rewrite (no_reg_absent _ Z0) in Q. discriminate. }
  unfold verify, fn. rewrite (reg_getBit (e_base x)) by tauto. rewrite (reg_getBit (e_index x)) by tauto.
  replace (128 <=? bit_ (e_base x)) with false by (destruct B as [(_ & -> & _)|(_ & [-> | ->] & _)]; reflexivity).
  assert (Ib : is_base (bt x)).
  { unfold bt, is_base. destruct B as [B|B]; [rewrite (no_reg_absent _ B); auto|rewrite (gpr_present _ B); eauto]. }
  destruct I as [I|[I|I]].
  - (* no index *)
    left. replace (bit_ (e_index x) =? 0) with true by (destruct I as (_ & -> & _); reflexivity). cbn. split; [reflexivity|]. split; [constructor; intros Q; exfalso; eapply no_not_gpr; eauto|].
    exists (bt x), []. unfold it in P. rewrite (no_reg_absent _ I) in P. split; auto. split; auto. split; [left; auto|]. intros r k r' k' _ [].
  - assert (Q : negb (bit_ (e_index x) =? 0) && (bit_ (e_index x) <=? 64) = true) by (destruct I as (_ & [-> | ->] & _); reflexivity). rewrite Q, regno_getIdx.
    specialize (S (gpr_present _ I)). unfold it in P. rewrite (gpr_present _ I) in P.
    assert (X : regno (e_index x) = 4 -> ~ encodable ts).
    { intros E (b & i & Pe & Hb & Hi & Hw). apply Permutation_sym in Pe. pose proof (Permutation_trans Pe P) as PP.
      assert (In (e_index x, e_scale x) (b ++ i)) as J by (eapply Permutation_in; [apply Permutation_sym; exact PP|apply in_or_app; right; left; reflexivity]).
      apply in_app_or in J as [J|J].
      - destruct Hb as [-> |(r & -> & Gr)]; [destruct J|]. destruct J as [J|[]]. injection J as -> J. symmetry in J. destruct (O1 I J) as [Gb E4].
        unfold bt in PP. rewrite (gpr_present _ Gb) in PP. rewrite J in PP. cbn [app] in PP.
        assert (PP2 : Permutation i [(e_base x, 1)]).
        { apply (Permutation_cons_inv (a := (e_index x, 1))). eapply Permutation_trans; [exact PP|apply perm_swap]. }
        apply Permutation_sym, Permutation_length_1_inv in PP2. subst i. destruct Hi as [Hi|(r' & k' & Hi & _ & H4)]; [discriminate|]. injection Hi as <- <-. apply (H4 Gb). auto.
      - destruct Hi as [-> |(r' & k' & -> & _ & H4)]; [destruct J|]. destruct J as [J|[]]. injection J as -> ->. apply (H4 I E). }
    destruct (regno (e_index x) =? 4) eqn:E4; [right; unfold throw; rewrite N; eexists; split; [reflexivity|apply X; lia]|].
    destruct B as [B|B].
    + replace (bit_ (e_base x) =? 0) with true by (destruct B as (_ & -> & _); reflexivity). cbn. left. split; [reflexivity|].
      split; [constructor; [intros _; rewrite regno_getIdx; lia|intros _ Q2; exfalso; eapply no_not_gpr; eauto]|].
      exists [], [(e_index x, e_scale x)]. unfold bt in P. rewrite (no_reg_absent _ B) in P. split; auto. split; [left; auto|]. split; [right; exists (e_index x), (e_scale x); split; auto; split; auto; lia|]. intros r k r' k' [].
    + replace (bit_ (e_base x) =? 0) with false by (destruct B as (_ & [-> | ->] & _); reflexivity). cbn [negb andb].
      unfold bt in P. rewrite (gpr_present _ B) in P. cbn [app] in P.
      destruct (bit_ (e_base x) =? bit_ (e_index x)) eqn:Eb; cbn [negb].
      * left. split; [reflexivity|]. split; [constructor; [intros _; rewrite regno_getIdx; lia|intros _ _; lia]|].
        exists [(e_base x, 1)], [(e_index x, e_scale x)]. split; auto. split; [right; eauto|]. split; [right; exists (e_index x), (e_scale x); split; auto; split; auto; lia|].
        intros r k r' k' [J|[]] [J'|[]] _. injection J as <- <-. injection J' as <- <-. lia.
      * right. unfold throw. rewrite N. eexists. split; [reflexivity|]. intros (b & i & Pe & Hb & Hi & Hw).
        pose proof (Permutation_length (Permutation_trans (Permutation_sym Pe) P)) as Ln. rewrite app_length in Ln. cbn in Ln.
        destruct Hb as [-> |(r & -> & Gr)]; [destruct Hi as [-> |(r' & k' & -> & _)]; cbn in Ln; lia|]. destruct Hi as [-> |(r' & k' & -> & _)]; [cbn in Ln; lia|].
        pose proof (Permutation_trans (Permutation_sym P) Pe) as PP. cbn [app] in PP. apply Permutation_length_2_inv in PP as [PP|PP]; injection PP; intros; subst.
        -- specialize (Hw (e_base x) 1 (e_index x) (e_scale x)). cbn in Hw. specialize (Hw (or_introl eq_refl) (or_introl eq_refl) I). lia.
        -- specialize (Hw (e_index x) 1 (e_base x) 1). cbn in Hw. specialize (Hw (or_introl eq_refl) (or_introl eq_refl) B). lia.
  - left. replace (negb (bit_ (e_index x) =? 0) && (bit_ (e_index x) <=? 64)) with false by (destruct I as [[[_ ->]|[[_ ->]|[_ ->]]] _]; reflexivity).
    assert (NG : ~ addr_gpr (e_index x)) by (intros (K & _); destruct I as [[[K0 _]|[[K0 _]|[K0 _]]] _]; rewrite K0 in K; discriminate).
    split; [reflexivity|]. split; [constructor; intros Q; contradiction|]. exists (bt x), (it x). split; auto. split; auto. unfold it. rewrite (vec_pres _ I).
    split; [right; exists (e_index x), (e_scale x); split; auto; split; [apply S, vec_pres, I|contradiction]|].
    intros r k r' k' _ [J|[]] G. injection J as <- <-. contradiction.
Qed.
Lemma encodable_fits ts : encodable ts -> fits ts.
Proof.
  intros (b & i & P & B & I & _). unfold fits. rewrite (Permutation_length P), (filter_perm _ _ _ P), filter_app, !app_length.
  assert (Fb : filter idx_term b = [] /\ (List.length b <= 1)%nat).
  { destruct B as [-> |(r & -> & G)]; [split; cbn; auto|]. split; [|cbn; auto]. cbn. unfold idx_term. cbn. destruct G as (_ & [-> | ->] & _); reflexivity. }
  destruct Fb as [-> Lb]. destruct I as [-> |(r & k & -> & _)]; cbn; [lia|]. destruct (idx_term (r, k)); cbn; lia.
Qed.
Lemma uses32_terms x ts : repr x ts -> uses32 x = any32 ts.
Proof.
  intros R. destruct (wf_cases _ (rp_wf _ _ R)) as [B I]. pose proof (rp_ts _ _ R) as P.
  assert (Q : any32 ts = any32 (bt x ++ it x)).
  { clear -P. unfold any32. induction P; cbn; auto; [rewrite IHP; auto|destruct (bit_ (fst x0) =? 32), (bit_ (fst y) =? 32); auto|congruence]. }
  rewrite Q. unfold uses32, any32. rewrite existsb_app. f_equal.
  - unfold bt. destruct B as [B|B]; [rewrite (no_reg_absent _ B); destruct B as (_ & -> & _); reflexivity|rewrite (gpr_present _ B); cbn; rewrite orb_false_r; reflexivity].
  - unfold it. destruct I as [I|[I|I]]; [rewrite (no_reg_absent _ I); destruct I as (_ & -> & _); reflexivity|rewrite (gpr_present _ I)|rewrite (vec_pres _ I)]; cbn; rewrite orb_false_r; reflexivity.
Qed.
(* ptr[e] is accepted exactly for the encodable expressions and denotes their value *)
Lemma frame_iff e bit bc env pos : objs e -> env_noexc env = false ->
  (typed e /\ encodable (terms e) <-> exists a, at_frame bit bc e env pos = ([], Ok a)).
Proof.
  intros O N. unfold at_frame, bind. split.
  - intros [T C]. destruct (build_complete e env pos O N T (encodable_fits _ C)) as [x Ex].
    destruct (build_sound e env pos x O N) as (_ & _ & R & _); [rewrite Ex; reflexivity|].
    rewrite Ex. cbn [items_size]. rewrite Z.add_0_r. destruct (verify_iff x _ env pos R N) as [(V & _)|(er & _ & F)]; [|contradiction].
    unfold frameAt, bind. rewrite V. eexists. reflexivity.
  - intros [a H]. destruct (build e env pos) as [l [x|]] eqn:E; [|discriminate].
    destruct (build_sound e env pos x O N) as (E' & T & R & _); [rewrite E; reflexivity|]. rewrite E in E'. injection E' as ->. split; auto.
    cbn [items_size] in H. rewrite Z.add_0_r in H. destruct (verify_iff x _ env pos R N) as [(V & _ & C)|(er & V & _)]; auto. unfold frameAt, bind in H. rewrite V in H. discriminate.
Qed.
Lemma frame_value e bit bc env pos its a : objs e -> emits (at_frame bit bc e) env pos its a ->
  its = [] /\ wf_modrm a /\ a_broadcast a = bc /\ bit_ (a_op a) = bit mod 16384
  /\ forall h m, denotes (a_e a) h m -> forall regs rip, eff_addr regs rip (h_67 h) m = value regs e mod addr_size (any32 (terms e)).
Proof.
  intros O [N H]. unfold at_frame, bind in H. destruct (build e env pos) as [l [x|]] eqn:E; [|discriminate].
  destruct (build_sound e env pos x O N) as (E' & T & R & V); [rewrite E; reflexivity|]. rewrite E in E'. injection E' as ->.
  cbn [items_size] in H. rewrite Z.add_0_r in H. destruct (verify_iff x _ env pos R N) as [(Vf & Vd & C)|(er & Vf & _)]; unfold frameAt, bind in H; rewrite Vf in H; [|discriminate].
  cbn in H. injection H as <- <-. split; auto. split; [constructor; cbn; auto; apply (rp_wf _ _ R)|]. split; auto. split; auto.
  intros h m D regs rip. rewrite (D regs rip). cbn [a_e address0]. rewrite (uses32_terms _ _ R). specialize (V regs).
  unfold addr_size. destruct (any32 (terms e)); auto.
  assert (M : forall z, z mod 2 ^ 32 = (z mod 2 ^ 64) mod 2 ^ 32) by (intros z; apply (Znumtheory.Zmod_div_mod (2 ^ 32) (2 ^ 64)); try lia; exists (2 ^ 32); reflexivity).
  rewrite M, V, <- M. reflexivity.
Qed.
Lemma frame_plain e bit bc env pos its a : emits (at_frame bit bc e) env pos its a -> permitVsib a = false /\ disp8N a = 0.
Proof.
  intros H. unfold at_frame in H. apply emits_bind in H as (i1 & i2 & x & _ & H & _). unfold frameAt in H. apply emits_bind in H as (j1 & j2 & v & _ & H & _).
  apply emits_ret in H as [_ ->]. split; reflexivity.
Qed.
Lemma frame_legacy s e bit bc r type code env pos its its0 a rest u :
  objs e -> emits (at_frame bit bc e) env pos its0 a ->
  (isREG r = false -> bit4 r = false) ->
  (has type T_APX = true -> getMap type = 0) ->
  opcode_ok (getMap type) (final_opc type r code) = true ->
  emits (opMR a r type code 0 NONE) env pos its u ->
  exists h m, decode false 1 (render s its ++ rest) = Some (h, regno r, RMem m, rest)
   /\ forall regs rip, eff_addr regs rip (h_67 h) m = value regs e mod addr_size (any32 (terms e)).
Proof.
  intros O F R A C H. destruct (frame_value e bit bc env pos its0 a O F) as (_ & W & _ & _ & V). destruct (frame_plain _ _ _ _ _ _ _ F) as [P D].
  destruct (legacy_mem_lemma s a r type code env pos its rest u W P D R A C H) as (h & m & Dc & Dn & _). exists h, m. split; auto.
Qed.
