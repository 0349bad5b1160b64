(* Model of sample/bf.cpp:11-150 (class Brainfuck, the branch for the System V ABI): the calls of the constructor, as statements
   of SpecProg, for a text.  White space is skipped by >> before (bf.cpp:17, 66), so the text is without it; getContinuousChar
   (bf.cpp:13-23) counts a run of equal characters (groups in SpecBf).  Label objects are numbered in the order of their
   declarations; copies on the stacks labelB, labelF denote the same label (xbyak.h:1426-1450), and it is left out that they
   are destroyed at the end of the constructor's blocks.  An empty stack (bf.cpp:121) is undefined behaviour: None. *)
From Coq Require Import ZArith List Bool String Ascii Lia.
From Verif Require Import Base Types Emit EmitFacts Encode Mnemonic SpecX86 SpecAddr SpecLeg SpecCond SpecExec SpecMach Wf ArgCheck LegShapes LegGpr3 LegGpr4 LegGpr5 ExecFacts ExecProofs ExecMore State Code Label Gen SpecLabel LabelThms Grow LabelThms6 SpecProg ProgInsn ProgMach VecInsn SseInsn ProgRef ProgHist ProgSim ProgSum ProgThms SpecBf.
Import ListNotations.
Open Scope list_scope.
Open Scope Z_scope.

(* bf.cpp:54-57: pPutchar, pGetchar, stack, cur *)
Definition r64 (n : Z) : Operand := OReg (Reg64 n).
Definition rbx := r64 3. Definition rbp := r64 5. Definition r12 := r64 12.
Definition rdi := r64 7. Definition rsi := r64 6. Definition rdx := r64 2.
Definition cur : Operand := OMem (address0 8 false (mkRegExp (Reg64 12) noReg 0 0)).
Definition al : Operand := OReg (Reg8 0).
(* bf.cpp:58-63 *)
Definition prologue : program :=
  [SIns (push_op rbx) (e_push 64 rbx); SIns (push_op rbp) (e_push 64 rbp); SIns (push_op r12) (e_push 64 r12);
   SIns (mov_oo rbx rdi) (e_mov2 64 rbx rdi); SIns (mov_oo rbp rsi) (e_mov2 64 rbp rsi); SIns (mov_oo r12 rdx) (e_mov2 64 r12 rdx)].
(* bf.cpp:141-145 *)
Definition epilogue : program :=
  [SIns (pop_op r12) (e_pop 64 r12); SIns (pop_op rbp) (e_pop 64 rbp); SIns (pop_op rbx) (e_pop 64 rbx); SRet].
(* bf.cpp:69-78; n is negative for '-' *)
Definition add_cell (n : Z) : stmt :=
  if n =? 1 then SIns (i_inc_o cur) (e_unary Inc 8 cur) else if n =? -1 then SIns (i_dec_o cur) (e_unary Dec 8 cur)
  else SIns (i_add_oi cur (w32 n)) (e_alu 0 8 cur (arg32 (w32 n) mod 2 ^ 8)).
(* bf.cpp:80-85 *)
Definition add_pos (n : Z) : stmt := SIns (i_add_oi r12 (w32 n)) (e_alu 0 64 r12 (arg32 (w32 n) mod 2 ^ 64)).
(* bf.cpp:96-98, 103, 109 *)
Definition put_calls : program :=
  [SIns (i_movzx (Reg32 7) cur) (e_extend false 32 8 (OReg (Reg32 7)) cur); SCallTo (call_op rbx T_AUTO) (go_to rbx)].
Definition get_calls : program := [SCallTo (call_op rbp T_AUTO) (go_to rbp); SIns (mov_oo cur al) (e_mov2 8 cur al)].
(* bf.cpp:112-120: from L(B) on *)
Definition loop_calls (n : nat) : program :=
  [SLabel (LObj n); SIns (i_movzx (Reg32 0) cur) (e_extend false 32 8 eax cur); SIns (test_ eax (Reg32 0)) (e_test 32 eax eax);
   SNewLabel (S n); SJcc 4 (LObj (S n)) T_NEAR].
(* bf.cpp:123-130 *)
Definition close_calls (h : nat) : program := [SJmp (LObj h) T_AUTO; SLabel (LObj (S h))].
(* bf.cpp:65-134: n: the number of Label objects so far, hs: the labels on labelB (those on labelF have the next number) *)
Fixpoint calls (g : list (ascii * Z)) (n : nat) (hs : list nat) : option program :=
  match g with
  | [] => Some []
  | (c, k) :: g =>
      if Ascii.eqb c "+" then option_map (cons (add_cell k)) (calls g n hs)
      else if Ascii.eqb c "-" then option_map (cons (add_cell (- k))) (calls g n hs)
      else if Ascii.eqb c ">" then option_map (cons (add_pos k)) (calls g n hs)
      else if Ascii.eqb c "<" then option_map (cons (add_pos (- k))) (calls g n hs)
      else if Ascii.eqb c "." then option_map (app put_calls) (calls g n hs)
      else if Ascii.eqb c "," then option_map (app get_calls) (calls g n hs)
      else if Ascii.eqb c "[" then option_map (app (SNewLabel n :: loop_calls n)) (calls g (S (S n)) (n :: hs))
      else if Ascii.eqb c "]" then match hs with h :: hs => option_map (app (close_calls h)) (calls g n hs) | [] => None end
      else calls g n hs
  end.
Definition bf_prog (t : list ascii) : option program := option_map (fun c => prologue ++ c ++ epilogue) (calls (groups t) 0 []).

(* ---- the same calls, by the structure of the program ---- *)
Fixpoint comp (n : nat) (b : bf) : program * nat :=
  match b with
  | End => ([], n)
  | Add k b => let '(c, n) := comp n b in (add_cell k :: c, n)
  | Move k b => let '(c, n) := comp n b in (add_pos k :: c, n)
  | Put b => let '(c, n) := comp n b in (put_calls ++ c, n)
  | Get b => let '(c, n) := comp n b in (get_calls ++ c, n)
  | Loop b k => let '(cb, n1) := comp (S (S n)) b in let '(ck, n2) := comp n1 k in
      (SNewLabel n :: loop_calls n ++ cb ++ close_calls n ++ ck, n2)
  end.
Fixpoint comps (n : nat) (bs : list bf) (hs : list nat) : option program :=
  match bs, hs with
  | [b], [] => Some (fst (comp n b))
  | b :: bs, h :: hs => let '(c, n) := comp n b in option_map (fun r => c ++ close_calls h ++ r) (comps n bs hs)
  | _, _ => None
  end.
Lemma parts_some g bs : parts g = Some bs -> exists b r, bs = b :: r.
Proof.
  revert bs. destruct g as [|[c n] g]; cbn; intros bs H; [injection H as <-; eauto|]. destruct (parts g) as [[|b r]|]; try discriminate.
  repeat match type of H with context [if ?x then _ else _] => destruct x end; try (injection H as <-; eauto; fail). destruct r; [discriminate|injection H as <-; eauto].
Qed.
Lemma comps_two n b k r h hs : comps n (b :: k :: r) (h :: hs) = option_map (fun q => fst (comp n b) ++ close_calls h ++ q) (comps (snd (comp n b)) (k :: r) hs).
Proof. cbn [comps]. now destruct (comp n b). Qed.
Lemma calls_comps g : forall n bs hs, parts g = Some bs -> List.length bs = S (List.length hs) -> calls g n hs = comps n bs hs.
Proof.
  induction g as [|[c k] g IH]; intros n bs hs H Hl; [injection H as <-; destruct hs; [reflexivity|discriminate]|].
  cbn [parts] in H. destruct (parts g) as [[|b r]|] eqn:P; try discriminate.
  assert (forall f s, (forall n b, comp n (f b) = (s ++ fst (comp n b), snd (comp n b))) -> List.length (b :: r) = S (List.length hs) ->
            option_map (app s) (calls g n hs) = comps n (f b :: r) hs) as X.
  { intros f s Hf L. rewrite (IH n (b :: r) hs eq_refl L). cbn [comps]. destruct r as [|k1 r], hs as [|h hs]; try discriminate; rewrite Hf; destruct (comp n b); cbn [fst snd option_map]; auto.
    destruct (comps _ _ _); [|reflexivity]. cbn. now rewrite <- app_assoc. }
  cbn [calls].
  assert (forall l, option_map (cons l) (calls g n hs) = option_map (app [l]) (calls g n hs)) as Y by reflexivity. rewrite !Y. clear Y.
  destruct (Ascii.eqb c "+"); [injection H as <-; apply X; [intros; cbn [comp]; now destruct (comp _ _)|exact Hl]|].
  destruct (Ascii.eqb c "-"); [injection H as <-; apply X; [intros; cbn [comp]; now destruct (comp _ _)|exact Hl]|].
  destruct (Ascii.eqb c ">"); [injection H as <-; apply X; [intros; cbn [comp]; now destruct (comp _ _)|exact Hl]|].
  destruct (Ascii.eqb c "<"); [injection H as <-; apply X; [intros; cbn [comp]; now destruct (comp _ _)|exact Hl]|].
  destruct (Ascii.eqb c "."); [injection H as <-; apply X; [intros; cbn [comp]; now destruct (comp _ _)|exact Hl]|].
  destruct (Ascii.eqb c ","); [injection H as <-; apply X; [intros; cbn [comp]; now destruct (comp _ _)|exact Hl]|].
  destruct (Ascii.eqb_spec c "]") as [->|N1].
  - injection H as <-. destruct hs as [|h hs]; [discriminate|]. cbn [Ascii.eqb Bool.eqb]. cbn in Hl. rewrite (IH n (b :: r) hs eq_refl) by (cbn; lia). reflexivity.
  - destruct (Ascii.eqb_spec c "[") as [->|N2].
    + destruct r as [|k1 r]; [discriminate|]. injection H as <-. cbn [List.length] in Hl. rewrite (IH _ (b :: k1 :: r) (n :: hs) eq_refl) by (cbn; lia).
      rewrite comps_two. destruct r as [|k2 r], hs as [|h hs]; try discriminate.
      * cbn [comps comp]. destruct (comp (S (S n)) b) as [cb n1]. cbn [fst snd]. now destruct (comp n1 k1) as [ck n2].
      * rewrite !comps_two. cbn [comp]. destruct (comp (S (S n)) b) as [cb n1]. cbn [fst snd]. destruct (comp n1 k1) as [ck n2]. cbn [fst snd].
        destruct (comps n2 (k2 :: r) hs) as [q|]; [|reflexivity]. cbn [option_map]. f_equal. cbn [app]. f_equal. rewrite <- !app_assoc. reflexivity.
    + injection H as <-. now apply IH.
Qed.
Lemma bf_prog_comp t b : parse t = Some b -> bf_prog t = Some (prologue ++ fst (comp 0 b) ++ epilogue).
Proof.
  unfold parse, bf_prog. destruct (parts (groups t)) as [bs|] eqn:P; [|discriminate]. destruct (parts_some _ _ P) as (b' & r & ->). destruct r; [|discriminate].
  injection 1 as <-. now rewrite (calls_comps _ 0 _ [] P).
Qed.

(* ---- every instruction has a meaning ---- *)
Lemma cur_ok : mem_ok (address0 8 false (mkRegExp (Reg64 12) noReg 0 0)).
Proof. apply mem_okb_ok. reflexivity. Qed.
Ltac reg_ok := apply gprb_ok; reflexivity.
Lemma no_high o1 o2 : ~ is_high o1 -> ~ is_high o2 -> high_ok [o1; o2].
Proof. intros H1 H2 X. exfalso. inversion X as [? ? Q|? ? Q]; subst; [auto|]. inversion Q as [? ? Q2|? ? Q2]; subst; [auto|inversion Q2]. Qed.
Ltac no_high := apply no_high; cbn; try tauto; intros [X Y]; try discriminate X; try discriminate Y; lia.
Definition well1 (q : stmt) : Prop :=
  match q with
  | SIns m f => insn m f | SJcc k _ _ => 0 <= k < 16 | SCallTo m t => call_to m t
  | SRef _ _ _ | SJmpTo _ _ => False | _ => True end.
Lemma add_cell_ok n : well1 (add_cell n).
Proof.
  assert (unary_op cur) as U by (split; [split; [exact cur_ok|split; [cbn; tauto|repeat split]]|split; reflexivity]).
  unfold add_cell. destruct (n =? 1); [exact (I_unary Inc i_inc_o cur (or_introl eq_refl) U)|].
  destruct (n =? -1); [exact (I_unary Dec i_dec_o cur (or_intror (or_introl eq_refl)) U)|].
  apply (I_alu 0 i_add_oi i_add_oo cur (w32 n)); [now left|]. split; [split; [exact cur_ok|cbn; tauto]|split; reflexivity].
Qed.
Lemma add_pos_ok n : well1 (add_pos n).
Proof. apply (I_alu 0 i_add_oi i_add_oo r12 (w32 n)); [now left|]. split; [left; reg_ok|repeat split]. Qed.
Lemma alu2_64 m k : gprb (Reg64 m) = true -> gprb (Reg64 k) = true -> insn (mov_oo (r64 m) (r64 k)) (e_mov2 64 (r64 m) (r64 k)).
Proof.
  intros Hm Hk. refine (I_mov2 (r64 m) (r64 k) _ _ _ _); [|repeat split|repeat split|reflexivity].
  split; [left; now apply gprb_ok|]. split; [now apply gprb_ok|]. no_high.
Qed.
Lemma stack_64 n : gprb (Reg64 n) = true -> stack_op (r64 n).
Proof. intros H. split; [left; now apply gprb_ok|now left]. Qed.
Lemma prologue_ok : Forall well1 prologue.
Proof.
  unfold prologue. repeat apply Forall_cons; try apply Forall_nil; unfold well1;
    first [apply alu2_64; reflexivity|apply (I_push (r64 _)); apply stack_64; reflexivity].
Qed.
Lemma epilogue_ok : Forall well1 epilogue.
Proof. unfold epilogue. repeat apply Forall_cons; try apply Forall_nil; unfold well1; first [exact Logic.I|apply (I_pop (r64 _)); apply stack_64; reflexivity]. Qed.
Lemma movzx_ok n : gprb (Reg32 n) = true -> insn (i_movzx (Reg32 n) cur) (e_extend false 32 8 (OReg (Reg32 n)) cur).
Proof.
  intros H. apply (I_extend false i_movzx (Reg32 n) cur); [now left|now apply gprb_ok| |repeat split|repeat split|no_high].
  split; [exact cur_ok|cbn; tauto].
Qed.
Lemma call_ok n : gprb (Reg64 n) = true -> call_to (call_op (r64 n) T_AUTO) (go_to (r64 n)).
Proof. intros H. apply K_op; [|discriminate]. split; [now apply gprb_ok|now right]. Qed.
Lemma get_mov : insn (mov_oo cur al) (e_mov2 8 cur al).
Proof.
  refine (I_mov2 cur al _ _ _ _); [|repeat split|repeat split|exact Logic.I]. split; [exact cur_ok|]. split; [reg_ok|no_high].
Qed.
Lemma test_ok : insn (test_ eax (Reg32 0)) (e_test 32 eax eax).
Proof. refine (I_test eax (Reg32 0) _ _ _ _ _); [left; reg_ok|reg_ok|repeat split|repeat split|no_high]. Qed.
Lemma comp_ok b : forall n, Forall well1 (fst (comp n b)).
Proof.
  induction b as [|k b IH|k b IH|b IH|b IH|b IHb k IHk]; intros n; cbn [comp].
  - constructor.
  - specialize (IH n). destruct (comp n b). constructor; [apply add_cell_ok|exact IH].
  - specialize (IH n). destruct (comp n b). constructor; [apply add_pos_ok|exact IH].
  - specialize (IH n). destruct (comp n b). apply Forall_app. split; [|exact IH]. repeat apply Forall_cons; try apply Forall_nil; [apply movzx_ok; reflexivity|apply call_ok; reflexivity].
  - specialize (IH n). destruct (comp n b). apply Forall_app. split; [|exact IH]. repeat apply Forall_cons; try apply Forall_nil; [apply call_ok; reflexivity|apply get_mov].
  - specialize (IHb (S (S n))). destruct (comp (S (S n)) b) as [cb n1]. specialize (IHk n1). destruct (comp n1 k) as [ck n2]. cbn [fst] in *.
    constructor; [exact Logic.I|]. apply Forall_app. split.
    { repeat apply Forall_cons; try apply Forall_nil; try exact Logic.I; [apply movzx_ok; reflexivity|apply test_ok|cbn; lia]. }
    apply Forall_app. split; [exact IHb|]. apply Forall_app. split; [|exact IHk]. repeat apply Forall_cons; try apply Forall_nil; exact Logic.I.
Qed.
Definition whole (b : bf) : program := prologue ++ fst (comp 0 b) ++ epilogue.
Lemma whole_wf b : well_formed (whole b).
Proof.
  apply Forall_impl with (P := well1); [intros [] H; cbn in *; auto; contradiction|].
  apply Forall_app. split; [apply prologue_ok|]. apply Forall_app. split; [apply comp_ok|apply epilogue_ok].
Qed.

(* ---- labels ---- *)
Definition is_new (q : stmt) : bool := match q with SNewLabel _ => true | _ => false end.
Fixpoint news (p : program) : nat := match p with [] => 0 | q :: p => if is_new q then S (news p) else news p end.
Fixpoint ordered (n : nat) (p : program) : Prop :=
  match p with [] => True | SNewLabel h :: p => h = n /\ ordered (S n) p | _ :: p => ordered n p end.
Lemma news_app p q : news (p ++ q) = (news p + news q)%nat.
Proof. induction p as [|x p IH]; [reflexivity|]. cbn. rewrite IH. now destruct (is_new x). Qed.
Lemma ordered_app p q : forall n, ordered n (p ++ q) <-> ordered n p /\ ordered (n + news p) q.
Proof.
  induction p as [|x p IH]; intros n; cbn [app]; [cbn; rewrite Nat.add_0_r; tauto|]. destruct x; cbn [ordered news is_new]; rewrite IH; try tauto.
  rewrite Nat.add_succ_r. cbn. tauto.
Qed.
Lemma comp_new b : forall n, snd (comp n b) = (n + news (fst (comp n b)))%nat /\ ordered n (fst (comp n b)).
Proof.
  induction b as [|k b IH|k b IH|b IH|b IH|b IHb k IHk]; intros n; cbn [comp].
  - cbn. auto.
  - specialize (IH n). destruct (comp n b). unfold add_cell. destruct (k =? 1); [exact IH|]. destruct (k =? -1); exact IH.
  - specialize (IH n). destruct (comp n b). exact IH.
  - specialize (IH n). destruct (comp n b). exact IH.
  - specialize (IH n). destruct (comp n b). exact IH.
  - specialize (IHb (S (S n))). destruct (comp (S (S n)) b) as [cb n1]. specialize (IHk n1). destruct (comp n1 k) as [ck n2]. cbn [fst snd] in *.
    destruct IHb as [B1 B2], IHk as [K1 K2]. subst n1 n2. split.
    + cbn [news is_new]. rewrite !news_app. cbn. lia.
    + split; [reflexivity|]. cbn [app loop_calls ordered]. split; [reflexivity|]. apply ordered_app. split; [exact B2|]. exact K2.
Qed.
Definition numbered (k : names) (n : nat) : Prop := n_nlab k = n /\ forall h, (h < n)%nat -> assoc Nat.eqb h (n_lab k) = Some h.
Lemma names_numbered p : forall k n, numbered k n -> ordered n p -> numbered (fold_left names_step p k) (n + news p).
Proof.
  induction p as [|q p IH]; intros k n H O; cbn [fold_left news]; [now rewrite Nat.add_0_r|].
  destruct q; cbn [is_new ordered] in *; try (apply IH; [exact H|exact O]).
  - apply IH; [|exact O]. cbn [names_step]. destruct l; [|exact H]. now destruct (String.eqb s "@@").
  - destruct O as [-> O]. rewrite Nat.add_succ_r. change (S (n + news p)) with (S n + news p)%nat. apply IH; [|exact O]. destruct H as [H1 H2]. split; cbn [names_step n_nlab n_lab]; [now rewrite H1|].
    intros h Hh. rewrite H1. cbn [assoc]. destruct (Nat.eqb_spec h n) as [->|N]; [reflexivity|apply H2; lia].
Qed.
Lemma ordered_firstn p i : ordered 0 p -> ordered 0 (firstn i p).
Proof. intros H. rewrite <- (firstn_skipn i p) in H. now apply ordered_app in H. Qed.
Lemma named p i h : ordered 0 p -> (h < news (firstn i p))%nat -> label_named (names_at p i) (LObj h) = Some (TObj (Fresh h)).
Proof.
  intros H1 H2. destruct (names_numbered (firstn i p) names0 0) as [_ N]; [split; [reflexivity|intros; lia]|now apply ordered_firstn|].
  cbn [label_named]. unfold names_at. now rewrite N.
Qed.
Lemma leads p i h j : ordered 0 p -> nth_error p j = Some (SLabel (LObj h)) -> (h < news (firstn i p))%nat -> (h < news (firstn j p))%nat -> leads_to p i (LObj h) j.
Proof. intros O N H1 H2. exists (TObj (Fresh h)), (LObj h). split; [now apply named|]. split; [exact N|]. cbn [label_defined]. now apply named. Qed.
Lemma whole_ordered b : ordered 0 (whole b).
Proof.
  unfold whole. apply ordered_app. split; [exact Logic.I|]. apply ordered_app. split; [apply comp_new|exact Logic.I].
Qed.
