(* The processor of SpecMach on code at an address: fetching, and that no instruction of SpecExec is also a branch. *)
From Coq Require Import ZArith List Bool String Lia.
From Verif Require Import Base Types Emit EmitFacts State Code Wp SpecMem SpecX86 SpecLeg SpecCond SpecIsa SpecExec SpecVec VecIsa SpecSse SseIsa SpecMach.
Import ListNotations.
Open Scope list_scope.
Open Scope Z_scope.

(* ---- branches are not instructions of SpecExec ---- *)
Definition branch_opc (o : Z) : bool := (o =? 0xEB) || (o =? 0xE9) || (o =? 0xE8) || (o =? 0xC3) || ((0x70 <=? o) && (o <=? 0x7F)).
Fixpoint upto (n : nat) : list Z := match n with O => [] | S n' => upto n' ++ [Z.of_nat n'] end.
Lemma upto_in n x : 0 <= x < Z.of_nat n -> In x (upto n).
Proof.
  induction n as [|n IH]; intros H; cbn [upto]; [lia|]. apply in_or_app. destruct (Z.eq_dec x (Z.of_nat n)) as [->|]; [right; now left|left; apply IH; lia].
Qed.
Lemma opc_each (P : Z -> Prop) : Forall P ([0xEB; 0xE9; 0xE8; 0xC3] ++ map (Z.add 0x70) (upto 16)) -> forall o, branch_opc o = true -> P o.
Proof.
  intros H o Ho. rewrite Forall_forall in H. apply H. apply in_or_app. unfold branch_opc in Ho.
  destruct (Z_le_gt_dec 0x70 o) as [A|A]; [destruct (Z_le_gt_dec o 0x7F) as [B|B]|].
  - right. apply in_map_iff. exists (o - 0x70). split; [lia|]. apply upto_in. lia.
  - left. cbn [In]. lia.
  - left. cbn [In]. lia.
Qed.
Ltac each_opc := match goal with |- forall o, branch_opc o = true -> @?P o => apply (opc_each P) end;
  vm_compute upto; cbn [map app Z.add]; repeat apply Forall_cons; [..|apply Forall_nil].
(* the decoder does not look at the bytes after the opcode to find the opcode *)
Lemma head1 o c : branch_opc o = true -> exists h, dec_header (o :: c) = Some (h, c) /\ h_map h = 0 /\ h_opc h = o /\ plain h = true.
Proof. revert o. each_opc; (eexists; split; [reflexivity|repeat split; reflexivity]). Qed.
Lemma head2 o c : 0x80 <= o <= 0x8F -> exists h, dec_header (0x0F :: o :: c) = Some (h, c) /\ h_map h = 1 /\ h_opc h = o /\ plain h = true.
Proof.
  intros H. assert (In (o - 0x80) (upto 16)) as Hin by (apply upto_in; lia).
  replace o with ((o - 0x80) + 0x80) by lia. remember (o - 0x80) as k. clear - Hin. revert k Hin. apply Forall_forall. vm_compute upto.
  repeat apply Forall_cons; [..|apply Forall_nil]; (eexists; split; [reflexivity|repeat split; reflexivity]).
Qed.
Lemma modrm_none o rip h reg rm c s : branch_opc o = true -> h_opc h = o -> exec_modrm rip h reg rm c s = None.
Proof.
  intros H E. unfold exec_modrm. rewrite E. clear E. unfold branch_opc in H.
  repeat match goal with |- context [o =? ?c] => replace (o =? c) with false by lia end. replace (o <? 0x40) with false by lia. reflexivity.
Qed.
Lemma opc_no_modrm o : branch_opc o = true -> no_modrm o = false.
Proof.
  intros H. unfold no_modrm. unfold branch_opc in H.
  repeat match goal with |- context [o =? ?c] => replace (o =? c) with false by lia end. replace (o <? 0x40) with false by lia. lia.
Qed.
Lemma exec_branch1 rip o c s : branch_opc o = true -> SpecExec.exec rip (o :: c) s = None.
Proof.
  intros H. destruct (head1 o c H) as (h & E & Hm & Ho & Hp). unfold SpecExec.exec, decode. rewrite E, Hp, Hm, Ho, (opc_no_modrm o H).
  cbn [negb Z.eqb andb]. destruct (dec_rm _ _ _ _) as [[[reg rm] c']|]; [|reflexivity]. rewrite Hm. cbn [Z.eqb]. now apply (modrm_none o).
Qed.
Lemma exec_branch2 rip o c s : 0x80 <= o <= 0x8F -> SpecExec.exec rip (0x0F :: o :: c) s = None.
Proof.
  intros H. destruct (head2 o c H) as (h & E & Hm & Ho & Hp). unfold SpecExec.exec, decode. rewrite E, Hp, Hm, Ho.
  cbn [negb Z.eqb andb Pos.eqb]. replace (0xC8 <=? o) with false by lia. cbn [andb].
  destruct (dec_rm _ _ _ _) as [[[reg rm] c']|]; [|reflexivity]. rewrite Hm. cbn [Z.eqb Pos.eqb]. unfold exec_0f. rewrite Ho.
  replace (o =? 0xB6) with false by lia. replace (o =? 0xB7) with false by lia. replace (o =? 0xBE) with false by lia.
  replace (o =? 0xBF) with false by lia. replace (o =? 0xAF) with false by lia. replace (o <=? 0x4F) with false by lia. replace (0x90 <=? o) with false by lia.
  rewrite andb_false_r. reflexivity.
Qed.
Lemma exec_no_branch ip bs s r : SpecExec.exec ip bs s = Some r -> branch ip bs s = None.
Proof.
  intros H. destruct bs as [|b c]; [reflexivity|]. unfold branch.
  assert (branch_opc b = false) as Hb. { destruct (branch_opc b) eqn:Hb; [|reflexivity]. rewrite exec_branch1 in H by assumption. discriminate. }
  unfold branch_opc in Hb. apply orb_false_iff in Hb as [Hb H5]. apply orb_false_iff in Hb as [Hb H4]. apply orb_false_iff in Hb as [Hb H3]. apply orb_false_iff in Hb as [H1 H2].
  rewrite H1, H2, H3, H4, H5. destruct (b =? 0x0F) eqn:H6; [|reflexivity]. apply Z.eqb_eq in H6 as ->. destruct c as [|b2 c]; [reflexivity|].
  destruct ((0x80 <=? b2) && (b2 <=? 0x8F)) eqn:H7; [|reflexivity]. rewrite exec_branch2 in H by lia. discriminate.
Qed.

(* ---- nor are indirect branches ---- *)
Lemma exec_no_indirect ip bs s r ip' s' : SpecExec.exec ip bs s = Some r -> indirect ip' bs s' = None.
Proof.
  intros H. unfold indirect. destruct (decode false 1 bs) as [[[[h reg] rm] c]|] eqn:D; [|reflexivity].
  destruct (is_indirect h reg) eqn:X; [exfalso|reflexivity].
  unfold is_indirect in X. apply andb_prop in X as [X Hr]. apply andb_prop in X as [X _]. apply andb_prop in X as [X Ho]. apply andb_prop in X as [Hp Hm].
  apply Z.eqb_eq in Ho, Hm. unfold SpecExec.exec in H. rewrite D in H.
  assert (exists c', dec_header bs = Some (h, c')) as [c' E].
  { unfold decode in D. destruct (dec_header bs) as [[h0 c0]|]; [|discriminate]. destruct (dec_rm _ _ _ _) as [[[? ?] ?]|]; [|discriminate]. injection D as -> _ _ _. eauto. }
  rewrite E, Hp, Hm, Ho in H. change (no_modrm 0xFF) with false in H. cbn [negb Z.eqb andb] in H.
  unfold exec_modrm in H. rewrite Ho in H. cbn [Z.eqb Pos.eqb orb andb Z.ltb Z.compare Pos.compare Pos.compare_cont] in H.
  apply orb_prop in Hr as [Hr|Hr]; apply Z.eqb_eq in Hr as ->; discriminate.
Qed.
Lemma decode_no_branch bs h reg rm c ip s : decode false 1 bs = Some (h, reg, rm, c) -> is_indirect h reg = true -> branch ip bs s = None.
Proof.
  intros D X. unfold is_indirect in X. apply andb_prop in X as [X Hr]. apply andb_prop in X as [X _]. apply andb_prop in X as [X Ho]. apply andb_prop in X as [Hp Hm].
  apply Z.eqb_eq in Ho, Hm.
  assert (exists c', dec_header bs = Some (h, c')) as [c' E].
  { unfold decode in D. destruct (dec_header bs) as [[h0 c0]|]; [|discriminate]. destruct (dec_rm _ _ _ _) as [[[? ?] ?]|]; [|discriminate]. injection D as -> _ _ _. eauto. }
  destruct bs as [|b bs]; [reflexivity|]. unfold branch.
  assert (branch_opc b = false) as Hb.
  { destruct (branch_opc b) eqn:Hb; [|reflexivity]. destruct (head1 b bs Hb) as (h' & E' & _ & Ho' & _). rewrite E in E'. injection E' as <- _.
    rewrite Ho in Ho'. subst b. discriminate. }
  unfold branch_opc in Hb. apply orb_false_iff in Hb as [Hb H5]. apply orb_false_iff in Hb as [Hb H4]. apply orb_false_iff in Hb as [Hb H3]. apply orb_false_iff in Hb as [H1 H2].
  rewrite H1, H2, H3, H4, H5. destruct (b =? 0x0F) eqn:H6; [|reflexivity]. apply Z.eqb_eq in H6 as ->. destruct bs as [|b2 bs]; [reflexivity|].
  destruct ((0x80 <=? b2) && (b2 <=? 0x8F)) eqn:H7; [|reflexivity]. exfalso. destruct (head2 b2 bs ltac:(lia)) as (h' & E' & _ & Ho' & _). rewrite E in E'. injection E' as <- _. lia.
Qed.

(* ---- nor are vector instructions, which are not integer instructions either ---- *)
Lemma vexec_header isa ip bs s r : vexec isa ip bs s = Some r -> exists h c, dec_header bs = Some (h, c) /\ plain h = false.
Proof.
  unfold vexec. destruct (dec_header bs) as [[h c]|]; [|discriminate]. intros H. exists h, c. split; auto.
  destruct (find _ isa) as [[row m]|] eqn:F; [|discriminate]. apply find_some in F as [_ F]. cbn [fst] in F.
  unfold is_row, form_of in F. unfold plain. destruct (h_space h); try discriminate; reflexivity.
Qed.
Lemma header_exec ip bs s h c : dec_header bs = Some (h, c) -> plain h = false -> SpecExec.exec ip bs s = None.
Proof. intros H P. unfold SpecExec.exec. now rewrite H, P. Qed.
Lemma header_branch ip bs s h c : dec_header bs = Some (h, c) -> plain h = false -> branch ip bs s = None.
Proof.
  intros H P. destruct bs as [|b bs]; [reflexivity|]. unfold branch.
  assert (branch_opc b = false) as Hb.
  { destruct (branch_opc b) eqn:Hb; [|reflexivity]. destruct (head1 b bs Hb) as (h' & E' & _ & _ & Q). rewrite H in E'. injection E' as <- _. congruence. }
  unfold branch_opc in Hb. apply orb_false_iff in Hb as [Hb H5]. apply orb_false_iff in Hb as [Hb H4]. apply orb_false_iff in Hb as [Hb H3]. apply orb_false_iff in Hb as [H1 H2].
  rewrite H1, H2, H3, H4, H5. destruct (b =? 0x0F) eqn:H6; [|reflexivity]. apply Z.eqb_eq in H6 as ->. destruct bs as [|b2 bs]; [reflexivity|].
  destruct ((0x80 <=? b2) && (b2 <=? 0x8F)) eqn:H7; [|reflexivity]. exfalso. destruct (head2 b2 bs ltac:(lia)) as (h' & E' & _ & _ & Q). rewrite H in E'. injection E' as <- _. congruence.
Qed.
Lemma header_indirect ip bs s h c : dec_header bs = Some (h, c) -> plain h = false -> indirect ip bs s = None.
Proof.
  intros H P. unfold indirect, decode. rewrite H. destruct (dec_rm _ _ _ _) as [[[reg rm] c']|]; [|reflexivity]. unfold is_indirect. now rewrite P.
Qed.
Lemma exec_x ip bs s r : SpecExec.exec ip bs s = Some r -> xexec ip bs s = Some r.
Proof. intros H. unfold xexec. now rewrite H. Qed.
Lemma vexec_x ip bs s r : vexec vec_proc ip bs s = Some r -> xexec ip bs s = Some r.
Proof. intros H. destruct (vexec_header _ _ _ _ _ H) as (h & c & E & P). unfold xexec. now rewrite (header_exec _ _ _ _ _ E P), H. Qed.

(* ---- nor are SSE instructions, which are neither integer nor VEX or EVEX instructions ---- *)
(* opcodes and prefixes that no integer instruction and no branch has *)
Definition sse_free (q : sserow) : bool :=
  let o := q_opc q in let pl := negb (pp_is (q_pp q) PF2 || pp_is (q_pp q) PF3) in
  (1 <=? q_map q) && (q_map q <=? 3)
  && negb (pl && (q_map q =? 1) && (((0x40 <=? o) && (o <=? 0x4F)) || ((0x80 <=? o) && (o <=? 0x9F)) || (o =? 0xAF) || (o =? 0xB6) || (o =? 0xB7) || (o =? 0xBE) || (o =? 0xBF)
       || ((0xC8 <=? o) && (o <=? 0xCF)))).
Lemma sse_free_all : forallb sse_free sse_proc = true. Proof. vm_compute. reflexivity. Qed.
Lemma sexec_header ip bs s r : sexec sse_proc ip bs s = Some r -> exists h c q, dec_header bs = Some (h, c) /\ is_sse h q = true /\ sse_free q = true.
Proof.
  unfold sexec. destruct (dec_header bs) as [[h c]|]; [|discriminate]. intros H. destruct (find (is_sse h) sse_proc) as [q|] eqn:F; [|discriminate].
  apply find_some in F as [F1 F2]. exists h, c, q. repeat split; auto. pose proof sse_free_all as A. rewrite forallb_forall in A. auto.
Qed.
Lemma sse_legacy h q : is_sse h q = true -> h_space h = Legacy /\ h_map h = q_map q /\ h_opc h = q_opc q /\ (plain h = true -> negb (pp_is (q_pp q) PF2 || pp_is (q_pp q) PF3) = true).
Proof.
  unfold is_sse. intros H. do 5 apply andb_prop in H as [H ?]. destruct (h_space h) eqn:Hs; try discriminate. destruct (h_seg h) eqn:Hg; try discriminate.
  repeat match goal with Q : Bool.eqb _ _ = true |- _ => apply eqb_prop in Q | Q : (_ =? _) = true |- _ => apply Z.eqb_eq in Q end.
  repeat split; auto. unfold plain. rewrite Hs, Hg. intros P. destruct (h_lock h); [discriminate|]. congruence || (rewrite orb_false_r in P; congruence).
Qed.
Lemma sse_exec ip bs s h c q : dec_header bs = Some (h, c) -> is_sse h q = true -> sse_free q = true -> SpecExec.exec ip bs s = None.
Proof.
  intros H Q F. destruct (plain h) eqn:P; [|now apply (header_exec _ _ _ h c)]. destruct (sse_legacy _ _ Q) as (_ & Hm & Ho & Hp). specialize (Hp P).
  unfold sse_free in F. rewrite Hp in F. cbn [andb] in F. apply andb_prop in F as [F Fo]. rewrite <- Hm, <- Ho in *. clear Hm Ho.
  unfold SpecExec.exec, decode. rewrite H, P. cbn [negb]. replace (h_map h =? 0) with false by lia. cbn [andb].
  destruct (h_map h =? 1) eqn:M1; cbn [andb negb] in Fo |- *.
  - replace ((0xC8 <=? h_opc h) && (h_opc h <=? 0xCF)) with false by lia. destruct (dec_rm _ _ _ _) as [[[reg rm] c']|]; [|reflexivity].
    replace (h_map h =? 0) with false by lia. rewrite M1. unfold exec_0f.
    repeat match goal with |- context [h_opc h =? ?c] => replace (h_opc h =? c) with false by lia end.
    replace ((0x40 <=? h_opc h) && (h_opc h <=? 0x4F)) with false by lia. replace ((0x90 <=? h_opc h) && (h_opc h <=? 0x9F)) with false by lia. reflexivity.
  - destruct (dec_rm _ _ _ _) as [[[reg rm] c']|]; [|reflexivity]. replace (h_map h =? 0) with false by lia. now rewrite M1.
Qed.
Lemma sse_vexec isa ip bs s h c q : dec_header bs = Some (h, c) -> is_sse h q = true -> vexec isa ip bs s = None.
Proof.
  intros H Q. destruct (sse_legacy _ _ Q) as (Hs & _). unfold vexec. rewrite H.
  destruct (find _ isa) as [[row m]|] eqn:F; [|reflexivity]. exfalso. apply find_some in F as [_ F]. cbn [fst] in F. unfold is_row, form_of in F. rewrite Hs in F. discriminate.
Qed.
Lemma sse_branch ip bs s h c q : dec_header bs = Some (h, c) -> is_sse h q = true -> sse_free q = true -> branch ip bs s = None.
Proof.
  intros H Q F. destruct (plain h) eqn:P; [|now apply (header_branch _ _ _ h c)]. destruct (sse_legacy _ _ Q) as (_ & Hm & Ho & Hp). specialize (Hp P).
  unfold sse_free in F. rewrite Hp in F. cbn [andb] in F. apply andb_prop in F as [F Fo]. rewrite <- Hm, <- Ho in *. clear Hm Ho.
  destruct bs as [|b bs]; [reflexivity|]. unfold branch.
  assert (branch_opc b = false) as Hb.
  { destruct (branch_opc b) eqn:Hb; [|reflexivity]. destruct (head1 b bs Hb) as (h' & E' & M' & _). rewrite H in E'. injection E' as <- _. rewrite M' in F. discriminate F. }
  unfold branch_opc in Hb. apply orb_false_iff in Hb as [Hb H5]. apply orb_false_iff in Hb as [Hb H4]. apply orb_false_iff in Hb as [Hb H3]. apply orb_false_iff in Hb as [H1 H2].
  rewrite H1, H2, H3, H4, H5. destruct (b =? 0x0F) eqn:H6; [|reflexivity]. apply Z.eqb_eq in H6 as ->. destruct bs as [|b2 bs]; [reflexivity|].
  destruct ((0x80 <=? b2) && (b2 <=? 0x8F)) eqn:H7; [|reflexivity]. exfalso. destruct (head2 b2 bs ltac:(lia)) as (h' & E' & M' & O' & _). rewrite H in E'. injection E' as <- _.
  rewrite M', O' in Fo. cbn [Z.eqb Pos.eqb andb] in Fo. lia.
Qed.
Lemma sse_indirect ip bs s h c q : dec_header bs = Some (h, c) -> is_sse h q = true -> sse_free q = true -> indirect ip bs s = None.
Proof.
  intros H Q F. destruct (sse_legacy _ _ Q) as (_ & Hm & _). unfold sse_free in F. apply andb_prop in F as [F _].
  unfold indirect, decode. rewrite H. destruct (dec_rm _ _ _ _) as [[[reg rm] c']|]; [|reflexivity]. unfold is_indirect.
  replace (h_map h =? 0) with false by lia. now rewrite andb_false_r.
Qed.
Lemma sexec_x ip bs s r : sexec sse_proc ip bs s = Some r -> xexec ip bs s = Some r.
Proof. intros H. destruct (sexec_header _ _ _ _ H) as (h & c & q & E & Q & F). unfold xexec. now rewrite (sse_exec _ _ _ _ _ _ E Q F), (sse_vexec _ _ _ _ _ _ _ E Q). Qed.
Lemma xexec_no_branch ip bs s r : xexec ip bs s = Some r -> branch ip bs s = None /\ indirect ip bs s = None.
Proof.
  unfold xexec. destruct (SpecExec.exec ip bs s) eqn:E.
  - intros _. split; [eapply exec_no_branch|eapply exec_no_indirect]; eassumption.
  - destruct (vexec vec_proc ip bs s) eqn:V; intros H.
    + destruct (vexec_header _ _ _ _ _ V) as (h & c & Eh & P). split; [eapply header_branch|eapply header_indirect]; eassumption.
    + destruct (sexec_header _ _ _ _ H) as (h & c & q & Eh & Q & F). split; [eapply sse_branch|eapply sse_indirect]; eassumption.
Qed.

(* ---- fetching ---- *)
Lemma addr64_add x y : addr64 (addr64 x + y) = addr64 (x + y).
Proof. unfold addr64. apply Zplus_mod_idemp_l. Qed.
Lemma addr64_w64 x : addr64 x = w64 x. Proof. reflexivity. Qed.
Lemma fetch_mod m x n : fetch m (addr64 x) n = fetch m x n.
Proof.
  assert (forall n y z, addr64 y = addr64 z -> fetch m y n = fetch m z n) as H.
  { clear. induction n as [|n IH]; intros y z H; [reflexivity|]. cbn [fetch]. rewrite H. f_equal. apply IH. rewrite <- (addr64_add y 1), <- (addr64_add z 1). congruence. }
  apply H. unfold addr64. apply Z.mod_mod. discriminate.
Qed.
Fixpoint cbytes (cm : Z -> Z) (p : Z) (n : nat) : list Z := match n with O => [] | S n' => cm p :: cbytes cm (p + 1) n' end.
Lemma cbytes_has cm l : forall p, mem_has cm p l -> cbytes cm p (List.length l) = l.
Proof. induction l as [|b l IH]; intros p H; cbn in *; [reflexivity|]. destruct H as [-> H]. f_equal. now apply IH. Qed.
Lemma cbytes_length cm n : forall p, List.length (cbytes cm p n) = n.
Proof. induction n; intros p; cbn; auto. Qed.
Lemma cbytes_val cm n : forall p, le_val (cbytes cm p n) = le_read cm p n.
Proof. induction n as [|n IH]; intros p; cbn; [reflexivity|]. now rewrite IH. Qed.
Lemma cbytes_app cm n k : forall p, cbytes cm p (n + k) = cbytes cm p n ++ cbytes cm (p + Z.of_nat n) k.
Proof.
  induction n as [|n IH]; intros p; cbn [Nat.add cbytes app]; [f_equal; lia|]. f_equal. rewrite IH. f_equal. f_equal. lia.
Qed.
Lemma fetch_code m top cm n k : forall p, (forall x, p <= x < p + Z.of_nat n -> m (addr64 (top + x)) = cm x) ->
  fetch m (top + p) (n + k) = cbytes cm p n ++ fetch m (top + (p + Z.of_nat n)) k.
Proof.
  induction n as [|n IH]; intros p H; cbn [Nat.add fetch cbytes app]; [f_equal; lia|]. rewrite H by lia. f_equal.
  replace (top + p + 1) with (top + (p + 1)) by lia. rewrite IH by (intros; apply H; lia). f_equal. f_equal. lia.
Qed.
Lemma fetch_length m n : forall x, List.length (fetch m x n) = n.
Proof. induction n; intros x; cbn; auto. Qed.

(* ---- one step ---- *)
(* the meaning may depend on the address of the next instruction *)
Lemma mstep_next ip bs rest s s1 s' : let next := addr64 (ip + Z.of_nat (List.length bs)) in
  fetch (mm s) ip 15 = bs ++ rest -> xexec ip (bs ++ rest) s = Some (rest, s1) -> xexec next (bs ++ rest) s = Some (rest, s') ->
  mstep ip s = Some (next, s').
Proof.
  intros next F H1 H2. unfold mstep. rewrite F. destruct (xexec_no_branch _ _ _ _ H1) as [-> ->]. rewrite H1.
  assert (List.length (bs ++ rest) = 15%nat) as Hl by (rewrite <- F; apply fetch_length). rewrite app_length in Hl.
  replace (15 - Z.of_nat (List.length rest)) with (Z.of_nat (List.length bs)) by lia. fold next. rewrite H2. reflexivity.
Qed.
Lemma mstep_exec ip bs rest s f : fetch (mm s) ip 15 = bs ++ rest -> (forall rip, xexec rip (bs ++ rest) s = Some (rest, f s)) ->
  mstep ip s = Some (addr64 (ip + Z.of_nat (List.length bs)), f s).
Proof. intros F H. eapply mstep_next; eauto. Qed.
Lemma mstep_indirect ip bs rest s h reg rm t : let next := addr64 (ip + Z.of_nat (List.length bs)) in
  fetch (mm s) ip 15 = bs ++ rest -> decode false 1 (bs ++ rest) = Some (h, reg, rm, rest) -> is_indirect h reg = true ->
  read 64 (rm_loc next h 64 rm s) s = t -> mstep ip s = Some (addr64 t, if reg =? 2 then do_push 64 next s else s).
Proof.
  intros next F D X T. unfold mstep. rewrite F, (decode_no_branch _ _ _ _ _ ip s D X). unfold indirect. rewrite D, X.
  rewrite app_length. replace (Z.of_nat (List.length bs + List.length rest) - Z.of_nat (List.length rest)) with (Z.of_nat (List.length bs)) by lia.
  fold next. now rewrite T.
Qed.
Lemma mstep_branch ip bs s r : fetch (mm s) ip 15 = bs -> branch ip bs s = Some r -> mstep ip s = Some r.
Proof. intros F H. unfold mstep. now rewrite F, H. Qed.
