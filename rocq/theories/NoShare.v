(* No two mnemonics of the VEX/EVEX table share an encoding. *)
From Coq Require Import ZArith List Bool String Ascii Lia.
From Verif Require Import Base Types Emit Encode SpecX86 SpecAddr SpecIsa SpecInsn Wf EmitFacts IsaRows VexTables.
Import ListNotations.
Open Scope Z_scope.

(* ---- the part of an instruction that identifies it ---- *)
(* header, ModRM.reg with its extension bits, ModRM.rm is memory *)
Definition dec_head (bs : list Z) : option (header * Z * bool) :=
  match dec_header bs with
  | Some (h, m :: _) => Some (h, h_R h + m / 8 mod 8, negb (m / 64 =? 3))
  | _ => None
  end.
Definition is_mem (rm : rmop) : bool := match rm with RMem _ => true | RReg _ _ => false end.
Lemma decode_head v n bs h reg rm r : decode v n bs = Some (h, reg, rm, r) -> dec_head bs = Some (h, reg, is_mem rm).
Proof.
  unfold decode, dec_head. destruct (dec_header bs) as [[h' r']|]; [|discriminate].
  set (k := match h_space h' with Evex => n | _ => 1 end). clearbody k.
  unfold dec_rm. destruct r' as [|m r']; [discriminate|]. cbv zeta.
  destruct (m / 64 =? 3). { intros H; inversion H; subst; reflexivity. }
  destruct (m mod 8 =? 4).
  - destruct r' as [|s r']; [discriminate|].
    destruct ((s mod 8 =? 5) && (m / 64 =? 0));
    destruct (dec_disp _ _ _) as [[d0 r0]|]; try discriminate; intros H; inversion H; subst; reflexivity.
  - destruct ((m mod 8 =? 5) && (m / 64 =? 0));
    destruct (dec_disp _ _ _) as [[d0 r0]|]; try discriminate; intros H; inversion H; subst; reflexivity.
Qed.

Definition form_in (row : vrow) (s : space) : option form :=
  match s with Vex => r_vex row | Evex => option_map e_form (r_evex row) | _ => None end.
(* bs starts with the row's prefixes, opcode and digit *)
Definition is_row (row : vrow) (mem : bool) (bs : list Z) : Prop :=
  exists h reg f, dec_head bs = Some (h, reg, mem) /\ form_in row (h_space h) = Some f /\ form_ok f h
    /\ (forall d, r_digit row = Some d -> reg = d).

(* ---- when rows can be confused ---- *)
Definition w_meet (a b : wclass) : bool := match a, b with W0, W1 | W1, W0 => false | _, _ => true end.
Definition digit_meet (a b : option Z) : bool := match a, b with Some a, Some b => a =? b | _, _ => true end.
Definition pp_eqb (a b : ppfx) : bool := pp_num a =? pp_num b.
Definition form_meet (a b : form) : bool :=
  (f_opc a =? f_opc b) && (pp_num (f_pp a) =? pp_num (f_pp b)) && (map_num (f_map a) =? map_num (f_map b)) && w_meet (f_W a) (f_W b).
Definition mk_meet (a b : option bool) : bool := match a, b with Some a, Some b => Bool.eqb a b | _, _ => true end.
Record mform := mkMform { it_name : string; it_space : bool (* EVEX *); it_form : form; it_digit : option Z; it_mem : option bool }.
Definition meet (a b : mform) : bool :=
  Bool.eqb (it_space a) (it_space b) && form_meet (it_form a) (it_form b) && digit_meet (it_digit a) (it_digit b) && mk_meet (it_mem a) (it_mem b).

Lemma form_ok_meet f g h : form_ok f h -> form_ok g h -> form_meet f g = true.
Proof.
  intros (A1 & A2 & A3 & A4 & _) (B1 & B2 & B3 & B4 & _). unfold form_meet.
  rewrite <- A4, <- B4, <- A1, <- B1, <- A2, <- B2, !Z.eqb_refl. cbn [andb].
  destruct (f_W f), (f_W g); cbn in *; auto. rewrite B3 in A3. discriminate. rewrite A3 in B3. discriminate.
Qed.

(* items of a row *)
Definition items_of (n : string) (row : vrow) (m : option bool) : list mform :=
  match r_vex row with Some f => [mkMform n false f (r_digit row) m] | None => [] end
  ++ match r_evex row with Some f => [mkMform n true (e_form f) (r_digit row) m] | None => [] end.
Lemma is_row_meet n1 r1 m1 n2 r2 m2 b bs :
  is_row r1 b bs -> is_row r2 b bs -> (m1 = None \/ m1 = Some b) -> (m2 = None \/ m2 = Some b) ->
  exists i1 i2, In i1 (items_of n1 r1 m1) /\ In i2 (items_of n2 r2 m2) /\ it_name i1 = n1 /\ it_name i2 = n2
    /\ f_opc (it_form i1) = f_opc (it_form i2) /\ meet i1 i2 = true.
Proof.
  intros (h & reg & f & D & F & O & G) (h' & reg' & f' & D' & F' & O' & G') K1 K2.
  rewrite D in D'. inversion D'; subst h' reg'.
  assert (DM : digit_meet (r_digit r1) (r_digit r2) = true).
  { destruct (r_digit r1), (r_digit r2); auto. cbn. rewrite <- (G _ eq_refl), <- (G' _ eq_refl). apply Z.eqb_refl. }
  assert (MM : mk_meet m1 m2 = true). { destruct K1 as [-> | ->], K2 as [-> | ->]; cbn; auto. now destruct b. }
  pose proof (form_ok_meet _ _ _ O O') as FM.
  assert (OP : f_opc f = f_opc f'). { destruct O as (_ & _ & _ & <- & _), O' as (_ & _ & _ & <- & _). reflexivity. }
  destruct (h_space h); cbn in F, F'; try discriminate.
  - exists (mkMform n1 false f (r_digit r1) m1), (mkMform n2 false f' (r_digit r2) m2). unfold items_of. rewrite F, F'.
    split; [apply in_app_iff; left; now left|]. split; [apply in_app_iff; left; now left|]. unfold meet. cbn. rewrite FM, DM, MM. auto.
  - destruct (r_evex r1) as [e1|] eqn:E1, (r_evex r2) as [e2|] eqn:E2; cbn in F, F'; try discriminate.
    apply (f_equal (fun o => match o with Some x => x | None => f end)) in F. apply (f_equal (fun o => match o with Some x => x | None => f end)) in F'. subst.
    exists (mkMform n1 true (e_form e1) (r_digit r1) m1), (mkMform n2 true (e_form e2) (r_digit r2) m2). unfold items_of. rewrite E1, E2.
    split; [apply in_app_iff; right; now left|]. split; [apply in_app_iff; right; now left|]. unfold meet. cbn. rewrite FM, DM, MM. auto.
Qed.

(* ---- the check: items with one opcode, grouped bit by bit ---- *)
Section Check.
Variable ok : mform -> mform -> bool.
Definition opc_bit (k : nat) (i : mform) : bool := Z.testbit (f_opc (it_form i)) (Z.of_nat k).
Fixpoint check_all (k : nat) (l : list mform) : bool :=
  match k with
  | O => forallb (fun a => forallb (fun b => negb (meet a b) || ok a b) l) l
  | S k => check_all k (filter (opc_bit k) l) && check_all k (filter (fun i => negb (opc_bit k i)) l)
  end.
Lemma check_all_ok k l : check_all k l = true ->
  forall a b, In a l -> In b l -> f_opc (it_form a) = f_opc (it_form b) -> meet a b = true -> ok a b = true.
Proof.
  revert l. induction k as [|k IH]; intros l H a b A B E M; cbn [check_all] in H.
  - rewrite forallb_forall in H. specialize (H _ A). rewrite forallb_forall in H. specialize (H _ B). rewrite M in H. exact H.
  - apply andb_prop in H as [H1 H2]. assert (Q : opc_bit k a = opc_bit k b) by (unfold opc_bit; now rewrite E).
    destruct (opc_bit k a) eqn:K.
    + apply (IH _ H1); auto; apply filter_In; auto.
    + apply (IH _ H2); auto; apply filter_In; split; auto; [now rewrite K|now rewrite <- Q].
Qed.
End Check.

(* ---- names ---- *)
Fixpoint mnemonic (s : string) : string :=
  match s with
  | EmptyString => EmptyString
  | String c r => if Ascii.eqb c "/"%char then EmptyString else String c (mnemonic r)
  end.
Definition same_mnemonic (a b : string) : bool := String.eqb (mnemonic a) (mnemonic b).

(* ---- the tables ---- *)
Definition mem_class (c : cls) : option bool :=
  match c with cA | cMs _ | cMn _ => Some true | cO => None | _ => Some false end.
Fixpoint class_at (s : slot) (enc : list slot) (cs : list cls) : option cls :=
  match enc, cs with
  | e :: enc', c :: cs' => if slot_eqb s e then Some c else class_at s enc' cs'
  | _, _ => None
  end.
Definition rm_class (row : vrow) (sg : list cls) : option bool :=
  match class_at SM (r_enc row) sg with Some c => mem_class c | None => Some false end.
Definition key (e : entry) : string * vrow * option bool := (en_name e, en_row e, rm_class (en_row e) (en_sig e)).

Lemma class_op s enc cs ops : Forall2 arg_ok cs ops ->
  match class_at s enc cs, at_slot s enc ops with
  | Some c, Some o => arg_ok c o
  | None, None => True
  | _, _ => False end.
Proof.
  intros H. revert enc. induction H as [|c o cs ops A _ IH]; intros [|e enc]; cbn; auto. destruct (slot_eqb s e); [exact A|apply IH].
Qed.
Definition op_mem (o : Operand) : bool := match o with OMem _ => true | _ => false end.
Lemma mem_class_ok c o : arg_ok c o -> mem_class c = None \/ mem_class c = Some (op_mem o).
Proof. destruct c, o; cbn; auto; contradiction. Qed.
Lemma rm_is_mem o h rm : rm_is o h rm -> is_mem rm = op_mem o.
Proof. destruct o, rm; cbn; auto; contradiction. Qed.

Lemma says_is_row row sg vl ops imm bs rest : Forall2 arg_ok sg ops -> says row vl ops imm bs rest ->
  exists b, is_row row b (bs ++ rest) /\ (rm_class row sg = None \/ rm_class row sg = Some b).
Proof.
  intros A S. unfold says in S. unfold rm_class. pose proof (class_op SM (r_enc row) _ _ A) as C.
  set (op := match at_slot SM (r_enc row) ops with Some op => op | None => OReg noReg end) in *.
  set (reg := match r_digit row with Some d => d | None => _ end) in *.
  assert (G : forall d, r_digit row = Some d -> reg = d). { intros d E. unfold reg. now rewrite E. } clearbody reg.
  exists (op_mem op). split.
  - destruct S as [(f & h & rm & F & D & SP & FO & _ & _ & RM & _)|(f & h & rm & rnd & F & D & SP & FO & _ & RM & _)];
      apply decode_head in D; apply rm_is_mem in RM; rewrite RM in D.
    + exists h, reg, f. rewrite SP. auto.
    + exists h, reg, (e_form f). rewrite SP. cbn. rewrite F. auto.
  - unfold op. destruct (class_at SM (r_enc row) sg), (at_slot SM (r_enc row) ops); try contradiction; auto. now apply mem_class_ok.
Qed.
Lemma says_vsib_is_row row vl reg v a ops bs rest : (forall d, r_digit row = Some d -> reg = d) ->
  says_vsib row vl reg v a ops bs rest -> is_row row true (bs ++ rest).
Proof.
  intros G [(f & h & m & F & D & SP & FO & _)|(f & h & m & F & D & SP & FO & _)]; apply decode_head in D.
  - exists h, reg, f. rewrite SP. auto.
  - exists h, reg, (e_form f). rewrite SP. cbn. rewrite F. auto.
Qed.

(* ---- the calls of the tables ---- *)
(* bs starts with what a successful call of method n with operands of the documented kinds emits *)
Inductive emitted (enc : PreferredEncoding) : string -> list Z -> Prop :=
| em_vex e s ops imm act env pos its rest u : In e (vex_table enc) ->
    en_fun e ops imm = Some act -> Forall2 arg_ok (en_sig e) ops -> one_mask ops ->
    Forall (fun o => width o <= vl_of (en_vl e) (en_row e) ops) ops -> 0 <= imm < 256 ->
    emits act env pos its u -> emitted enc (en_name e) (render s its ++ rest)
| em_norc e s ops imm act env pos its rest u : In e (vex_table_norc enc) ->
    en_fun e ops imm = Some act -> Forall2 arg_ok (en_sig e) ops -> one_mask ops ->
    Forall (fun o => width o <= vl_of (en_vl e) (en_row e) ops) ops -> Forall (fun o => ornd o = 0) ops -> 0 <= imm < 256 ->
    emits act env pos its u -> emitted enc (en_name e) (render s its ++ rest)
| em_avx2 n row g f s x m x' env pos its rest u : In (n, row, g, f) tab_avx2 ->
    vec_reg x -> bare x -> bit_ x <= 256 -> vec_reg x' -> bare x' -> bit_ x' <= 256 ->
    mem_ok m -> regno (index_of m) < 16 ->
    emits (f x m x') env pos its u -> emitted enc n (render s its ++ rest)
| em_gather n row g f s x m env pos its rest u : In (n, row, g, f) (tab_gather ++ tab_scatter) ->
    arg_ok cX (OReg x) -> mem_ok m -> one_mask [OReg x; OMem m] ->
    emits (f x m) env pos its u -> emitted enc n (render s its ++ rest)
| em_fetch n row g f s m env pos its rest u : In (n, row, g, f) tab_fetch -> mem_ok m ->
    emits (f m) env pos its u -> emitted enc n (render s its ++ rest).

Definition vkey {A B} (t : string * vrow * A * B) : string * vrow * option bool := let '(n, r, _, _) := t in (n, r, Some true).
Definition keys (enc : PreferredEncoding) : list (string * vrow * option bool) :=
  map key (vex_table enc ++ vex_table_norc enc) ++ map vkey tab_avx2 ++ map vkey (tab_gather ++ tab_scatter) ++ map vkey tab_fetch.
Definition items (ks : list (string * vrow * option bool)) : list mform := flat_map (fun '(n, r, m) => items_of n r m) ks.
Lemma keys_enc enc : keys enc = keys DefaultEncoding. Proof. reflexivity. Qed.
Lemma items_checked : check_all (fun a b => same_mnemonic (it_name a) (it_name b)) 8 (items (keys DefaultEncoding)) = true.
Proof. vm_compute. reflexivity. Qed.

Lemma digits_ok {A B C} (P : C -> Prop) (t : list (string * vrow * A * B)) :
  forallb (fun k => match r_digit (snd (fst k)) with None => true | _ => false end) (map vkey t) = true ->
  forall n r g f, In (n, r, g, f) t -> r_digit r = None.
Proof.
  intros H n r g f I. rewrite forallb_forall in H. specialize (H _ (in_map vkey _ _ I)). cbn in H. now destruct (r_digit r).
Qed.
Lemma avx2_digits n r g f : In (n, r, g, f) tab_avx2 -> r_digit r = None.
Proof. apply (digits_ok (C := unit) (fun _ => True)). reflexivity. Qed.
Lemma gather_digits n r g f : In (n, r, g, f) (tab_gather ++ tab_scatter) -> r_digit r = None.
Proof. apply (digits_ok (C := unit) (fun _ => True)). reflexivity. Qed.

Lemma emitted_row enc n bs : emitted enc n bs ->
  exists row m b, In (n, row, m) (keys enc) /\ is_row row b bs /\ (m = None \/ m = Some b).
Proof.
  intros [e s ops imm act env pos its rest u I F A M W R E
         |e s ops imm act env pos its rest u I F A M W C R E
         |n' row g f s x m x' env pos its rest u I X1 X2 X3 Y1 Y2 Y3 MO IX E
         |n' row g f s x m env pos its rest u I X1 MO OM E
         |n' row g f s m env pos its rest u I MO E]; unfold keys; rewrite map_app.
  - pose proof (vex_table_ok enc) as T. rewrite Forall_forall in T.
    assert (S := T _ I s ops imm act env pos its rest u F A M W ltac:(discriminate) R E).
    destruct (says_is_row _ _ _ _ _ _ _ A S) as (b & B & K).
    exists (en_row e), (rm_class (en_row e) (en_sig e)), b. split; auto.
    rewrite !in_app_iff. left; left. apply (in_map key _ _ I).
  - pose proof (vex_table_norc_ok enc) as T. rewrite Forall_forall in T.
    assert (S := T _ I s ops imm act env pos its rest u F A M W (fun _ => C) R E).
    destruct (says_is_row _ _ _ _ _ _ _ A S) as (b & B & K).
    exists (en_row e), (rm_class (en_row e) (en_sig e)), b. split; auto.
    rewrite !in_app_iff. left; right. apply (in_map key _ _ I).
  - pose proof tab_avx2_ok as T. rewrite Forall_forall in T.
    destruct (T _ I s x m x' env pos its rest u X1 X2 X3 Y1 Y2 Y3 MO IX E) as (vl & _ & _ & S & _).
    exists row, (Some true), true. rewrite !in_app_iff. split; [right; left; apply (in_map vkey _ _ I)|]. split; auto.
    eapply says_vsib_is_row; [|exact S]. rewrite (avx2_digits _ _ _ _ I). discriminate.
  - assert (S : exists vl, says_vsib row vl (regno x) 0 m [OReg x; OMem m] (render s its) rest).
    { apply in_app_iff in I as [I|I]; [pose proof tab_gather_ok as T|pose proof tab_scatter_ok as T]; rewrite Forall_forall in T;
      destruct (T _ I s x m env pos its rest u X1 MO OM E) as (vl & _ & S & _); eauto. }
    destruct S as (vl & S).
    exists row, (Some true), true. rewrite !in_app_iff. split; [right; right; left; apply (in_map vkey _ _ I)|]. split; auto.
    eapply says_vsib_is_row; [|exact S]. rewrite (gather_digits _ _ _ _ I). discriminate.
  - pose proof tab_fetch_ok as T. rewrite Forall_forall in T.
    destruct (T _ I s m env pos its rest u MO E) as (_ & d & D & S).
    exists row, (Some true), true. rewrite !in_app_iff. split; [right; right; right; apply (in_map vkey _ _ I)|]. split; auto.
    eapply says_vsib_is_row; [|exact S]. rewrite D. congruence.
Qed.

Lemma dec_head_mem bs h r b h' r' b' : dec_head bs = Some (h, r, b) -> dec_head bs = Some (h', r', b') -> b = b'.
Proof. congruence. Qed.
Lemma no_share_lemma enc n1 n2 bs : emitted enc n1 bs -> emitted enc n2 bs -> mnemonic n1 = mnemonic n2.
Proof.
  intros A B. destruct (emitted_row _ _ _ A) as (r1 & m1 & b1 & I1 & R1 & K1). destruct (emitted_row _ _ _ B) as (r2 & m2 & b2 & I2 & R2 & K2).
  assert (b1 = b2). { destruct R1 as (? & ? & ? & D1 & _), R2 as (? & ? & ? & D2 & _). eapply dec_head_mem; eauto. } subst b2.
  destruct (is_row_meet n1 r1 m1 n2 r2 m2 b1 bs R1 R2 K1 K2) as (i1 & i2 & J1 & J2 & N1 & N2 & OP & ME).
  rewrite keys_enc in I1, I2.
  assert (Q1 : In i1 (items (keys DefaultEncoding))) by (apply in_flat_map; exists (n1, r1, m1); auto).
  assert (Q2 : In i2 (items (keys DefaultEncoding))) by (apply in_flat_map; exists (n2, r2, m2); auto).
  pose proof (check_all_ok _ _ _ items_checked i1 i2 Q1 Q2 OP ME) as H. cbv beta in H. rewrite N1, N2 in H. now apply String.eqb_eq.
Qed.
