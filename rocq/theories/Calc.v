(* Model of sample/calc.cpp:29-125 (class FuncGen, the branch for the System V ABI): the calls made for an expression.
   The grammar (calc.cpp:128-152, boost::spirit) calls genPush, genVal for the operands and genAdd, genSub, genMul, genDiv after
   both operands of an operator (acts); how it reads a text is not modelled.
   A throw expression without operand outside of a handler (calc.cpp:85, 87, 96) calls std::terminate: Terminates. *)
From Coq Require Import ZArith List Bool String Lia.
From Verif Require Import Base Types Emit EmitFacts Encode Mnemonic SpecX86 SpecAddr SpecIsa SpecInsn SpecLeg SpecMix SpecCond SpecExec SpecVec SpecSse SpecSseRun SseIsa SpecMach Wf ArgCheck State Code Label Gen SpecProg LegTables ProgInsn VecInsn SseInsn ProgSum ProgSse SpecCalc.
Import ListNotations.
Open Scope list_scope.
Open Scope Z_scope.

Inductive outcome (A : Type) := Fine (a : A) | Undefined (* throw UNDEFINED_VARIABLE *) | Terminates.
Arguments Fine {A} a. Arguments Undefined {A}. Arguments Terminates {A}.
Definition bind {A B} (m : outcome A) (f : A -> outcome B) : outcome B := match m with Fine a => f a | Undefined => Undefined | Terminates => Terminates end.
(* calc.cpp:33-39: constTbl_[0 .. constTblPos_ - 1], regIdx_ *)
Record fg := mkFG { consts : list Z; regIdx : Z }.
(* calc.cpp:31 *)
Definition MAX_CONST_NUM : nat := 32.
(* calc.cpp:73-75: varMap_[varTbl[i]] = i for i = 0, 1, ..: the last one counts *)
Fixpoint index_of (names : list string) (i : Z) (x : string) : option Z :=
  match names with
  | [] => None
  | n :: r => match index_of r (i + 1) x with Some j => Some j | None => if String.eqb n x then Some i else None end
  end.
(* ptr[r + d]: xbyak.h:1045-1064, 1399; see at_disp_ok *)
Definition at_disp (n d : Z) : Address := address0 0 false (mkRegExp (Reg64 n) noReg 0 (w64 d)).
Definition q_movsd := mkSse PF2 1 0x10 false One (MOne 64).
Definition fop_of (o : op) : fop := match o with Plus => FAdd | Minus => FSub | Times => FMul | Over => FDiv end.
Definition q_op (o : op) : sserow := mkSse PF2 1 (match o with Plus => 0x58 | Minus => 0x5C | Times => 0x59 | Over => 0x5E end) false Two (MScalar (Fp (fop_of o)) 64).
Definition m_op (o : op) : Reg -> Operand -> E unit := match o with Plus => i_addsd | Minus => i_subsd | Times => i_mulsd | Over => i_divsd end.
(* movsd(Xmm(k), ptr[r + d]) *)
Definition load_stmt (k n d : Z) : stmt := SIns (i_movsd_xo (Xmm k) (OMem (at_disp n d))) (smeans q_movsd 0 [OReg (Xmm k); OMem (at_disp n d)]).
(* addsd(Xmm(k), Xmm(k + 1)) *)
Definition op_stmt (o : op) (k : Z) : stmt := SIns (m_op o (Xmm k) (OReg (Xmm (k + 1)))) (smeans (q_op o) 0 [OReg (Xmm k); OReg (Xmm (k + 1))]).

Inductive action := APush (v : Z) | AVal (x : string) | AOp (o : op).
(* calc.cpp:79-88 genPush, 90-97 genVal, 98-113 genAdd, genSub, genMul, genDiv; valTbl_ is rdi, tbl_ is rsi *)
Definition act (names : list string) (c : action) (s : fg) : outcome (stmt * fg) :=
  match c with
  | APush v =>
      if Nat.leb MAX_CONST_NUM (List.length (consts s)) then Terminates else
      if regIdx s =? 7 then Terminates else
      Fine (load_stmt (regIdx s + 1) 6 (8 * Z.of_nat (List.length (consts s))), mkFG (consts s ++ [v]) (regIdx s + 1))
  | AVal x =>
      match index_of names 0 x with
      | None => Undefined
      | Some j => if regIdx s =? 7 then Terminates else Fine (load_stmt (regIdx s + 1) 7 (8 * j), mkFG (consts s) (regIdx s + 1)) end
  | AOp o => Fine (op_stmt o (regIdx s - 1), mkFG (consts s) (regIdx s - 1))
  end.
Fixpoint acts (names : list string) (l : list action) (s : fg) : outcome (program * fg) :=
  match l with
  | [] => Fine ([], s)
  | c :: l => bind (act names c s) (fun r => bind (acts names l (snd r)) (fun r' => Fine (fst r :: fst r', snd r')))
  end.
(* calc.cpp:139-149: the order of the calls *)
Fixpoint postfix (e : expr) : list action :=
  match e with Num v => [APush v] | Var x => [AVal x] | Bin o a b => postfix a ++ postfix b ++ [AOp o] end.
(* calc.cpp:54-77, 114-124: constructor, expression, complete(); tbl: the address of constTbl_.  The calls and the constants *)
Definition rsi := OReg (Reg64 6).
Definition first (tbl : Z) : stmt := SIns (mov_oi rsi tbl) (e_mov 64 rsi (tbl mod 2 ^ 64)).
Definition calc (names : list string) (tbl : Z) (e : expr) : outcome (program * list Z) :=
  bind (acts names (postfix e) (mkFG [] (-1))) (fun r => Fine (first tbl :: fst r ++ [SRet], consts (snd r))).

(* the address expression is the one xbyak's operators build *)
Lemma at_disp_ok n d env pos : n = 6 \/ n = 7 ->
  Emit.bind (regExpReg (Reg64 n) 1) (fun r => Emit.bind (regExpAdd r (regExpDisp d)) (frameAt 0 false)) env pos = Emit.ret (at_disp n d) env pos.
Proof.
  intros [-> | ->]; unfold at_disp; (replace (w64 d) with (w64 (0 + w64 d)) by (unfold w64; rewrite Z.add_0_l; apply Z.mod_mod; discriminate)); reflexivity.
Qed.

(* ---- the same calls, by the structure of the expression ---- *)
(* n: constants so far, k: the register of the result *)
Fixpoint comp (names : list string) (e : expr) (n : nat) (k : Z) : program :=
  match e with
  | Num _ => [load_stmt k 6 (8 * Z.of_nat n)]
  | Var x => match index_of names 0 x with Some j => [load_stmt k 7 (8 * j)] | None => [] end
  | Bin o a b => comp names a n k ++ comp names b (n + List.length (nums a)) (k + 1) ++ [op_stmt o k]
  end.
Definition fits (names : list string) (e : expr) (n : nat) (k : Z) : Prop :=
  k + need e <= 8 /\ (n + List.length (nums e) <= 32 \/ nums e = [])%nat /\ Forall (fun x => index_of names 0 x <> None) (vars e).
Lemma need_pos e : 1 <= need e.
Proof. induction e; cbn [need]; lia. Qed.
Lemma acts_only names e : forall r cs k p s, 0 <= k <= 8 -> acts names (postfix e ++ r) (mkFG cs (k - 1)) = Fine (p, s) ->
  fits names e (List.length cs) k /\ exists p', p = comp names e (List.length cs) k ++ p' /\ acts names r (mkFG (cs ++ nums e) k) = Fine (p', s).
Proof.
  induction e as [v|x|o a IHa b IHb]; intros r cs k p s Hk H.
  - cbn [postfix app acts act consts regIdx] in H. destruct (Nat.leb_spec MAX_CONST_NUM (List.length cs)) as [|L]; [discriminate|]. destruct (Z.eqb_spec (k - 1) 7); [discriminate|].
    cbn [bind fst snd] in H. replace (k - 1 + 1) with k in H by lia. destruct (acts names r _) as [[p' s']| |] eqn:R; try discriminate. cbn in H. injection H as <- <-.
    unfold fits. cbn [need nums vars List.length]. unfold MAX_CONST_NUM in L. split; [split; [lia|split; [left; lia|constructor]]|]. exists p'. split; [reflexivity|first [exact R|reflexivity]].
  - cbn [postfix app acts act consts regIdx] in H. destruct (index_of names 0 x) as [j|] eqn:J; [|discriminate]. destruct (Z.eqb_spec (k - 1) 7); [discriminate|].
    cbn [bind fst snd] in H. replace (k - 1 + 1) with k in H by lia. destruct (acts names r _) as [[p' s']| |] eqn:R; try discriminate. cbn in H. injection H as <- <-.
    unfold fits. cbn [need nums vars comp]. rewrite J, app_nil_r. split; [split; [lia|split; [now right|constructor; [congruence|constructor]]]|]. exists p'. split; [reflexivity|first [exact R|reflexivity]].
  - cbn [postfix] in H. rewrite <- !app_assoc in H. apply IHa in H as ((A1 & A2 & A3) & p1 & -> & H); [|exact Hk]. pose proof (need_pos a) as Na.
    replace k with (k + 1 - 1) in H at 1 by lia. apply IHb in H as ((B1 & B2 & B3) & p2 & -> & H); [|lia].
    rewrite app_length in *. cbn [app acts act consts regIdx bind fst snd] in H. replace (k + 1 - 1) with k in H by lia.
    destruct (acts names r _) as [[p' s']| |] eqn:R; try discriminate. cbn in H. injection H as <- <-.
    unfold fits. cbn [need nums vars comp]. split.
    + split; [lia|]. split; [|apply Forall_app; auto]. rewrite app_length. destruct B2 as [B2|B2]; [left; lia|rewrite B2 in *]. rewrite app_nil_r. destruct A2 as [A2|A2]; [left; cbn; lia|now right].
    + exists p'. split; [rewrite <- !app_assoc; reflexivity|]. rewrite app_assoc. replace (k + 1 - 1) with k in R by lia. exact R.
Qed.
Lemma acts_all names e : forall r cs k p s, 0 <= k -> fits names e (List.length cs) k -> acts names r (mkFG (cs ++ nums e) k) = Fine (p, s) ->
  acts names (postfix e ++ r) (mkFG cs (k - 1)) = Fine (comp names e (List.length cs) k ++ p, s).
Proof.
  induction e as [v|x|o a IHa b IHb]; intros r cs k p s Hk (F1 & F2 & F3) H; cbn [need nums vars] in *.
  - cbn [postfix app acts act consts regIdx]. destruct (Nat.leb_spec MAX_CONST_NUM (List.length cs)) as [L|_]; [unfold MAX_CONST_NUM in L; destruct F2 as [F2|F2]; [cbn in F2; lia|discriminate]|].
    destruct (Z.eqb_spec (k - 1) 7); [lia|]. cbn [bind fst snd]. replace (k - 1 + 1) with k by lia. rewrite H. reflexivity.
  - cbn [postfix app acts act consts regIdx comp]. rewrite app_nil_r in H. inversion F3 as [|? ? X _]; subst. destruct (index_of names 0 x) as [j|]; [|contradiction].
    destruct (Z.eqb_spec (k - 1) 7); [lia|]. cbn [bind fst snd]. replace (k - 1 + 1) with k by lia. rewrite H. reflexivity.
  - cbn [postfix comp]. apply Forall_app in F3 as [V1 V2]. rewrite app_length in F2. pose proof (need_pos a). pose proof (need_pos b).
    assert (nums a ++ nums b = [] -> nums a = [] /\ nums b = []) as N by apply app_eq_nil.
    rewrite <- !app_assoc. apply IHa; [exact Hk|split; [lia|split; [|exact V1]]; destruct F2 as [F2|F2]; [left; lia|right; apply (N F2)]|].
    replace k with (k + 1 - 1) at 1 by lia. rewrite <- app_length. apply IHb; [lia|split; [lia|split; [|exact V2]]; rewrite app_length; destruct F2 as [F2|F2]; [left; lia|right; apply (N F2)]|].
    cbn [app acts act consts regIdx bind fst snd]. replace (k + 1 - 1) with k by lia. rewrite <- app_assoc, H. reflexivity.
Qed.
(* which expressions are compiled, and to what *)
Definition accepted (names : list string) (e : expr) : Prop :=
  need e <= 8 /\ (List.length (nums e) <= 32)%nat /\ Forall (fun x => In x names) (vars e).
Lemma index_none names x : forall i, index_of names i x = None <-> ~ In x names.
Proof.
  induction names as [|n r IH]; intros i; cbn; [tauto|]. specialize (IH (i + 1)). destruct (index_of r (i + 1) x).
  - split; [discriminate|]. intros H. exfalso. assert (~ In x r) as K by tauto. apply IH in K. discriminate.
  - destruct (String.eqb_spec n x); [split; [discriminate|tauto]|]. split; [|reflexivity]. intros _ [K|K]; [auto|]. now apply IH.
Qed.
Lemma index_nth names x : forall i j, index_of names i x = Some j -> i <= j /\ nth_error names (Z.to_nat (j - i)) = Some x.
Proof.
  induction names as [|n r IH]; intros i j; cbn; [discriminate|]. destruct (index_of r (i + 1) x) as [z|] eqn:E.
  - intros H. injection H as <-. apply IH in E as [L E]. split; [lia|]. replace (Z.to_nat (z - i)) with (S (Z.to_nat (z - (i + 1)))) by lia. exact E.
  - destruct (String.eqb_spec n x) as [->|]; [|discriminate]. intros H. injection H as <-. split; [lia|]. now rewrite Z.sub_diag.
Qed.
Lemma fits_accepted names e : fits names e 0 0 <-> accepted names e.
Proof.
  unfold fits, accepted. assert (forall l, Forall (fun x => index_of names 0 x <> None) l <-> Forall (fun x => In x names) l) as ->.
  { intros l. split; apply Forall_impl; intros x H.
    - destruct (in_dec string_dec x names) as [I|I]; [exact I|]. now apply (index_none names x 0) in I.
    - intros K. now apply (index_none names x 0) in K. }
  rewrite Z.add_0_l. cbn [Nat.add]. assert ((List.length (nums e) <= 32)%nat \/ nums e = [] <-> (List.length (nums e) <= 32)%nat) as ->; [|tauto].
  split; [|tauto]. intros [H|H]; [exact H|rewrite H; cbn; lia].
Qed.
Definition whole (names : list string) (tbl : Z) (e : expr) : program := first tbl :: comp names e 0 0 ++ [SRet].
Theorem calc_fine names tbl e p cs : calc names tbl e = Fine (p, cs) <-> accepted names e /\ p = whole names tbl e /\ cs = nums e.
Proof.
  rewrite <- fits_accepted. unfold calc, whole. replace (postfix e) with (postfix e ++ []) by apply app_nil_r. split.
  - destruct (acts names _ _) as [[p1 s]| |] eqn:H; try discriminate. change (-1) with (0 - 1) in H. apply acts_only in H as (F & p' & -> & R); [|lia].
    cbn in R. injection R as <- <-. cbn [bind fst snd consts List.length]. intros X. injection X as <- <-. rewrite app_nil_r. repeat split; (apply F || reflexivity).
  - intros (F & -> & ->). change (-1) with (0 - 1). erewrite acts_all; [|lia|exact F|reflexivity]. cbn [bind fst snd consts List.length app]. now rewrite app_nil_r.
Qed.

(* ---- all calls have a known meaning ---- *)
Lemma at_disp_mem n d : n = 6 \/ n = 7 -> mem_okb (at_disp n d) = true.
Proof.
  intros H. unfold mem_okb, wf_modrmb, at_disp, address0. cbn [a_mode a_op a_e e_base e_index e_scale e_disp].
  assert (0 <= w64 d < 18446744073709551616) as W by (apply Z.mod_pos_bound; reflexivity).
  replace (0 <=? w64 d) with true by lia. replace (w64 d <? 18446744073709551616) with true by lia. destruct H as [-> | ->]; reflexivity.
Qed.
Lemma load_sinsn k n d : 0 <= k < 8 -> n = 6 \/ n = 7 -> sinsn (i_movsd_xo (Xmm k) (OMem (at_disp n d))) (smeans q_movsd 0 [OReg (Xmm k); OMem (at_disp n d)]).
Proof.
  intros Hk Hn. eapply (sinsn_by e_movsd_xo q_movsd (Xmm k) (OMem (at_disp n d)) 0 _ (pos_of_name "movsd")); [reflexivity|reflexivity|reflexivity|reflexivity|].
  unfold xmm_mem. rewrite (at_disp_mem n d Hn).
  assert (k = 0 \/ k = 1 \/ k = 2 \/ k = 3 \/ k = 4 \/ k = 5 \/ k = 6 \/ k = 7) as K by lia. repeat (destruct K as [-> |K]; [reflexivity|]). subst k. reflexivity.
Qed.
Definition e_op (o : op) : lentry := match o with Plus => e_addsd | Minus => e_subsd | Times => e_mulsd | Over => e_divsd end.
Lemma op_sinsn o k : 0 <= k < 7 -> sinsn (m_op o (Xmm k) (OReg (Xmm (k + 1)))) (smeans (q_op o) 0 [OReg (Xmm k); OReg (Xmm (k + 1))]).
Proof.
  intros Hk. assert (k = 0 \/ k = 1 \/ k = 2 \/ k = 3 \/ k = 4 \/ k = 5 \/ k = 6) as K by lia.
  eapply (sinsn_by (e_op o) (q_op o) (Xmm k) (OReg (Xmm (k + 1))) 0 _ (pos_of_name (le_name (e_op o)))); [destruct o; reflexivity|destruct o; reflexivity|destruct o; reflexivity|destruct o; reflexivity|].
  repeat (destruct K as [-> |K]; [reflexivity|]). subst k. reflexivity.
Qed.
Lemma comp_wf names e : forall n k, 0 <= k -> k + need e <= 8 -> well_formed (comp names e n k).
Proof.
  induction e as [v|x|o a IHa b IHb]; intros n k H0 H; cbn [need comp] in *.
  - constructor; [|constructor]. right; right. apply load_sinsn; lia.
  - destruct (index_of names 0 x); [|constructor]. constructor; [|constructor]. right; right. apply load_sinsn; lia.
  - pose proof (need_pos b). apply Forall_app. split; [apply IHa; lia|]. apply Forall_app. split; [apply IHb; lia|]. constructor; [|constructor]. right; right. apply op_sinsn. lia.
Qed.
Theorem whole_wf names tbl e : need e <= 8 -> well_formed (whole names tbl e).
Proof.
  intros H. constructor; [|apply Forall_app; split; [apply comp_wf; lia|repeat constructor]].
  left. refine (I_mov rsi tbl _). split; [left; apply gprb_ok; reflexivity|repeat split].
Qed.
