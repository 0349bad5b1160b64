From Coq Require Import ZArith List Bool String Lia.
From Verif Require Import Base Types Emit Encode Mnemonic MnemonicAvx NameTables Names SpecX86 SpecAddr SpecReg Wf SpecNames.
Import ListNotations.
Open Scope Z_scope.

(* a register as three numbers *)
Definition reg3 (k b i : Z) : Reg := mkReg i k b false 0 0 false false.
Definition same3 (r q : Reg) := kind_ r = kind_ q /\ bit_ r = bit_ q /\ idx_ r = idx_ q.
Fixpoint upto (n : nat) (i : Z) : list Z := match n with O => [] | S n => i :: upto n (i + 1) end.
Lemma upto_in n : forall i x, i <= x < i + Z.of_nat n -> In x (upto n i).
Proof.
  induction n; intros i x H; [lia|]. cbn [upto In]. destruct (Z.eq_dec i x); [auto|right]. apply IHn. lia.
Qed.
Definition file (k b : Z) (l : list Z) : list Reg := map (reg3 k b) l.
Definition all_regs : list Reg :=
  file REG 8 (upto 32 0) ++ file REG 8 (upto 4 36) ++ file REG 16 (upto 32 0) ++ file REG 32 (upto 32 0) ++ file REG 64 (upto 32 0)
  ++ file XMM 128 (upto 32 0) ++ file YMM 256 (upto 32 0) ++ file ZMM 512 (upto 32 0)
  ++ file MMX 64 (upto 8 0) ++ file OPMASK 64 (upto 8 0) ++ file TMM 8192 (upto 8 0) ++ file FPU 32 (upto 8 0) ++ file BNDREG 128 (upto 4 0).
Lemma in_file k b l i : In i l -> In (reg3 k b i) (file k b l).
Proof. apply in_map. Qed.
Lemma arch_in r : arch_reg r -> In (reg3 (kind_ r) (bit_ r) (idx_ r)) all_regs.
Proof.
  unfold all_regs. intros H. rewrite !in_app_iff.
  destruct H as [[-> [[[-> | [-> | [-> | ->]]] Hi] | [-> Hi]]] | [[[[-> ->] | [[-> ->] | [-> ->]]] Hi] | [[-> [-> Hi]] | [[-> [-> Hi]] | [[-> [-> Hi]] | [[-> [-> Hi]] | [-> [-> Hi]]]]]]]];
  repeat (first [solve [apply in_file; apply upto_in; cbn; lia] | solve [left; apply in_file; apply upto_in; cbn; lia] | right]).
Qed.
Lemma toString3 r : toString (OReg r) = toString (OReg (reg3 (kind_ r) (bit_ r) (idx_ r))).
Proof. reflexivity. Qed.
Lemma arch3 r : arch_name r = arch_name (reg3 (kind_ r) (bit_ r) (idx_ r)).
Proof. reflexivity. Qed.
Definition res_eqb (a b : strRes) : bool := match a, b with Str s, Str t => String.eqb s t | _, _ => false end.
Lemma res_eqb_eq a b : res_eqb a b = true -> a = b.
Proof. destruct a, b; cbn; try discriminate. intros H. apply String.eqb_eq in H. congruence. Qed.
Lemma res_eqb_refl s : res_eqb (Str s) (Str s) = true.
Proof. apply String.eqb_refl. Qed.
Lemma names_sweep : forallb (fun r => res_eqb (toString (OReg r)) (Str (arch_name r))) all_regs = true.
Proof. vm_compute. reflexivity. Qed.
Lemma names r : arch_reg r -> toString (OReg r) = Str (arch_name r).
Proof.
  intros H. apply arch_in in H. pose proof names_sweep as S. rewrite forallb_forall in S. specialize (S _ H).
  apply res_eqb_eq in S. rewrite toString3, arch3. exact S.
Qed.
(* the first register of the list with a given name *)
Definition byName (s : string) : option Reg := find (fun r => String.eqb (arch_name r) s) all_regs.
Definition same3b (r q : Reg) : bool := (kind_ r =? kind_ q) && (bit_ r =? bit_ q) && (idx_ r =? idx_ q).
Lemma distinct_sweep : forallb (fun r => match byName (arch_name r) with Some q => same3b r q | None => false end) all_regs = true.
Proof. vm_compute. reflexivity. Qed.
Lemma named_back r : arch_reg r -> exists q, byName (arch_name r) = Some q /\ same3 r q.
Proof.
  intros H. apply arch_in in H. pose proof distinct_sweep as S. rewrite forallb_forall in S. specialize (S _ H). rewrite <- arch3 in S.
  destruct (byName (arch_name r)) as [q|]; [|discriminate]. exists q. split; [reflexivity|]. unfold same3b in S. cbn in S.
  apply andb_prop in S as [S C]. apply andb_prop in S as [A B]. apply Z.eqb_eq in A, B, C. repeat split; congruence.
Qed.
Lemma names_distinct r q : arch_reg r -> arch_reg q -> toString (OReg r) = toString (OReg q) ->
  kind_ r = kind_ q /\ bit_ r = bit_ q /\ idx_ r = idx_ q.
Proof.
  intros Hr Hq E. rewrite (names r Hr), (names q Hq) in E. injection E as E.
  destruct (named_back r Hr) as [x [X [A1 [A2 A3]]]]. destruct (named_back q Hq) as [y [Y [B1 [B2 B3]]]].
  rewrite E, Y in X. injection X as <-. repeat split; congruence.
Qed.
Lemma no_name o : kind_ (ob o) = 0 \/ kind_ (ob o) = MEM -> toString o = StrErr ERR_INTERNAL.
Proof.
  unfold toString, isOPMASK, isTMM, isZMM, isYMM, isXMM, isMMX, isFPU, isBNDREG, is_. intros [-> | ->]; reflexivity.
Qed.

Lemma reg_eqb_refl r : reg_eqb r r = true.
Proof. unfold reg_eqb. rewrite !Z.eqb_refl, eqb_reflx. reflexivity. Qed.
Ltac split_and H := repeat match type of H with _ && _ = true => let K := fresh in apply andb_prop in H as [H K] end.
Lemma reg_eqb_fields a b : reg_eqb a b = true ->
  idx_ a = idx_ b /\ kind_ a = kind_ b /\ bit_ a = bit_ b /\ zero_ a = zero_ b /\ mask_ a = mask_ b /\ rounding_ a = rounding_ b.
Proof.
  unfold reg_eqb. intros H. split_and H. rewrite ?Z.eqb_eq in *. apply eqb_prop in H2. repeat split; assumption.
Qed.
Lemma reg_eqb_sym a b : reg_eqb a b = reg_eqb b a.
Proof.
  unfold reg_eqb. rewrite (Z.eqb_sym (idx_ a)), (Z.eqb_sym (kind_ a)), (Z.eqb_sym (bit_ a)), (Z.eqb_sym (mask_ a)), (Z.eqb_sym (rounding_ a)).
  destruct (zero_ a), (zero_ b); reflexivity.
Qed.
Lemma reg_eqb_trans a b c : reg_eqb a b = true -> reg_eqb b c = true -> reg_eqb a c = true.
Proof.
  intros H K. apply reg_eqb_fields in H, K. unfold reg_eqb.
  destruct H as [-> [-> [-> [-> [-> ->]]]]], K as [-> [-> [-> [-> [-> ->]]]]]. rewrite !Z.eqb_refl, eqb_reflx. reflexivity.
Qed.
Lemma label_eqb_eq a b : label_eqb a b = true <-> a = b.
Proof.
  destruct a, b; cbn; try (split; congruence). rewrite Nat.eqb_eq. split; congruence.
Qed.
Lemma mode_eq a b : AMode_beq a b = true <-> a = b.
Proof. destruct a, b; cbn; split; congruence. Qed.
Lemma bool_eq a b : Bool.eqb a b = true <-> a = b. Proof. apply eqb_true_iff. Qed.
(* equality of addresses, field by field *)
Definition addr_same (a b : Address) : Prop :=
  bit_ (a_op a) = bit_ (a_op b) /\ reg_eqb (e_base (a_e a)) (e_base (a_e b)) = true /\ reg_eqb (e_index (a_e a)) (e_index (a_e b)) = true
  /\ e_disp (a_e a) = e_disp (a_e b) /\ e_scale (a_e a) = e_scale (a_e b) /\ a_label a = a_label b /\ a_mode a = a_mode b
  /\ immSize a = immSize b /\ disp8N a = disp8N b /\ permitVsib a = permitVsib b /\ a_broadcast a = a_broadcast b /\ a_optimize a = a_optimize b.
Lemma address_eqb_same a b : address_eqb a b = true <-> addr_same a b.
Proof.
  unfold address_eqb, regexp_eqb, addr_same, getBit. rewrite !andb_true_iff, !Z.eqb_eq, !bool_eq, label_eqb_eq, mode_eq. tauto.
Qed.
Lemma addr_refl a : addr_same a a.
Proof. unfold addr_same. rewrite !reg_eqb_refl. tauto. Qed.
Lemma addr_sym a b : addr_same a b -> addr_same b a.
Proof. unfold addr_same. rewrite (reg_eqb_sym (e_base (a_e a))), (reg_eqb_sym (e_index (a_e a))). intuition congruence. Qed.
Lemma addr_trans a b c : addr_same a b -> addr_same b c -> addr_same a c.
Proof.
  unfold addr_same. intros [? [H1 [H2 [? [? [? [? [? [? [? [? ?]]]]]]]]]]] [? [K1 [K2 [? [? [? [? [? [? [? [? ?]]]]]]]]]]].
  pose proof (reg_eqb_trans _ _ _ H1 K1). pose proof (reg_eqb_trans _ _ _ H2 K2). intuition congruence.
Qed.
(* objects: a register does not have the kind of a memory operand, an Address has *)
Definition object (o : Operand) : Prop := match o with OReg r => kind_ r <> MEM | OMem a => kind_ (a_op a) = MEM end.
Lemma cross r a : object (OReg r) -> object (OMem a) -> reg_eqb r (a_op a) = false /\ reg_eqb (a_op a) r = false.
Proof.
  cbn. intros Hr Ha. split; (destruct (reg_eqb _ _) eqn:E; [|reflexivity]); apply reg_eqb_fields in E; destruct E as [_ [E _]]; congruence.
Qed.
Lemma op_refl x : operand_eqb x x = true.
Proof. destruct x; cbn; [apply reg_eqb_refl|apply address_eqb_same; apply addr_refl]. Qed.
Lemma op_sym x y : operand_eqb x y = true -> operand_eqb y x = true.
Proof.
  destruct x, y; cbn; rewrite ?address_eqb_same; auto using addr_sym; rewrite reg_eqb_sym; auto.
Qed.
Lemma op_trans x y z : object x -> object y -> object z -> operand_eqb x y = true -> operand_eqb y z = true -> operand_eqb x z = true.
Proof.
  intros Ox Oy Oz. destruct x as [r1|a1], y as [r2|a2], z as [r3|a3]; cbn [operand_eqb ob]; intros H K;
    try (destruct (cross _ _ Ox Oy); congruence); try (destruct (cross _ _ Oy Ox); congruence);
    try (destruct (cross _ _ Oy Oz); congruence); try (destruct (cross _ _ Oz Oy); congruence).
  - eauto using reg_eqb_trans.
  - rewrite address_eqb_same in *. eauto using addr_trans.
Qed.
Lemma reg_same a b : reg_eqb a b = true -> NF_ a = NF_ b -> ZU_ a = ZU_ b -> a = b.
Proof.
  intros H N Zu. apply reg_eqb_fields in H. destruct a, b; cbn in *. destruct H as [-> [-> [-> [-> [-> ->]]]]]. congruence.
Qed.
Lemma op_same x y : unmodified x -> unmodified y -> (operand_eqb x y = true <-> x = y).
Proof.
  intros Ux Uy. split; [|intros ->; apply op_refl]. destruct x as [r|a], y as [q|b]; cbn [operand_eqb ob unmodified] in *; intros H.
  - destruct Ux as [[? ?] ?], Uy as [[? ?] ?]. f_equal. apply reg_same; congruence.
  - exfalso. destruct Ux as [_ Hr], Uy as [Hb _]. apply reg_eqb_fields in H. destruct H as [_ [H _]]. rewrite Hb in H. apply Hr. exact H.
  - exfalso. destruct Uy as [_ Hr], Ux as [Hb _]. apply reg_eqb_fields in H. destruct H as [_ [H _]]. rewrite Hb in H. apply Hr. symmetry. exact H.
  - apply address_eqb_same in H. destruct Ux as [Oa [[? ?] [? ?]]], Uy as [Ob [[? ?] [? ?]]].
    destruct H as [Bt [R1 [R2 [? [? [? [? [? [? [? [? ?]]]]]]]]]]].
    apply reg_same in R1; [|congruence|congruence]. apply reg_same in R2; [|congruence|congruence]. rewrite Bt in Oa.
    destruct a as [ao [ab ai as_ ad] al am ai8 a8 av ac at_], b as [bo [bb bi bs bd] bl bm bi8 b8 bv bc bt]. cbn in *.
    f_equal. f_equal; try congruence; f_equal; congruence.
Qed.

Lemma members_sweep : forallb (fun x => res_eqb (toString (OReg (snd x))) (Str (fst x))) members = true.
Proof. vm_compute. reflexivity. Qed.
Lemma members_ok : Forall (fun x => toString (OReg (snd x)) = Str (fst x)) members.
Proof. apply Forall_forall. intros x H. apply res_eqb_eq. revert x H. apply forallb_forall. exact members_sweep. Qed.
Lemma shorthands_sweep : forallb (fun x => res_eqb (toString (OReg (snd x))) (Str (long_name (fst x)))) shorthands = true.
Proof. vm_compute. reflexivity. Qed.
Lemma shorthands_ok : Forall (fun x => toString (OReg (snd x)) = Str (long_name (fst x))) shorthands.
Proof. apply Forall_forall. intros x H. apply res_eqb_eq. revert x H. apply forallb_forall. exact shorthands_sweep. Qed.
Definition is_tmm (s : string) : bool := String.prefix "tmm" s.
Lemma util_sweep : forallb (fun x => is_tmm (fst x) || res_eqb (toString (OReg (snd x))) (Str (fst x))) util_members = true.
Proof. vm_compute. reflexivity. Qed.
Lemma util_ok : Forall (fun x => is_tmm (fst x) = false -> toString (OReg (snd x)) = Str (fst x)) util_members.
Proof.
  apply Forall_forall. intros x H. pose proof util_sweep as S. rewrite forallb_forall in S. specialize (S x H).
  intros N. rewrite N in S. apply res_eqb_eq. exact S.
Qed.
Definition frame_okb (x : string * (Z * bool)) : bool :=
  match frame_size (fst x) with Some (n, b) => (n =? fst (snd x)) && Bool.eqb b (snd (snd x)) | None => false end.
Lemma frames_sweep : forallb frame_okb (frames ++ util_frames) = true.
Proof. vm_compute. reflexivity. Qed.
Lemma frames_ok : Forall (fun x => frame_size (fst x) = Some (snd x)) (frames ++ util_frames).
Proof.
  apply Forall_forall. intros [s [n b]] H. pose proof frames_sweep as S. rewrite forallb_forall in S. specialize (S _ H).
  unfold frame_okb in S. cbn [fst snd] in *. destruct (frame_size s) as [[m c]|]; [|discriminate].
  apply andb_prop in S as [A B]. apply Z.eqb_eq in A. apply eqb_prop in B. congruence.
Qed.
Lemma bin_sweep : forallb (fun x => match bin_name (fst x) with Some v => v =? snd x | None => false end) binConstants = true.
Proof. vm_compute. reflexivity. Qed.
Lemma bin_ok : Forall (fun x => bin_name (fst x) = Some (snd x)) binConstants /\ map snd binConstants = upto 256 0.
Proof.
  split; [|vm_compute; reflexivity]. apply Forall_forall. intros x H. pose proof bin_sweep as S. rewrite forallb_forall in S. specialize (S _ H). cbn beta in S.
  destruct (bin_name (fst x)); [|discriminate]. apply Z.eqb_eq in S. congruence.
Qed.
