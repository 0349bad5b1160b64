(* No two mnemonics of the library share an encoding: the VEX/EVEX tables, the legacy tables, the APX table, the
   instructions with fixed bytes and the x87 register forms together. *)
From Coq Require Import ZArith List Bool String Ascii Lia.
From Verif Require Import Base Types Emit Encode SpecX86 SpecAddr SpecIsa SpecLeg SpecMix SpecApx SpecInsn SpecExcept SpecFixed Wf EmitFacts IsaRows VexTables VexMore KTile NoShare
  Mnemonic LegTables LegTables2 MixTables MixTables2 ApxTables FixedTables FixedFacts.
Import ListNotations.
Open Scope list_scope.
Open Scope Z_scope.

(* ---- what identifies an instruction ---- *)
(* prefixes of legacy instructions, pp field of the others *)
Definition hpp (h : header) : Z :=
  match h_space h with Legacy => z_of (h_66 h) + 2 * z_of (h_F2 h) + 4 * z_of (h_F3 h) | _ => h_pp h end.
Definition space_num (s : space) : Z := match s with Legacy => 0 | Vex => 1 | Evex => 2 end.
Record pat := mkPat { t_name : string; t_space : space; t_pp : Z; t_map : Z; t_opc : Z; t_W : option bool;
  t_nd : option bool; t_nf : option bool; t_sc : option Z; t_L : option Z; t_67 : option bool;
  t_mod : option (option Z * option bool * option Z) (* ModRM: digit, memory, low bits of rm *) }.
Definition opt_is {A} (o : option A) (x : A) : Prop := match o with Some y => x = y | None => True end.
Definition head_is (p : pat) (h : header) : Prop :=
  h_space h = t_space p /\ hpp h = t_pp p /\ h_map h = t_map p /\ h_opc h = t_opc p
  /\ opt_is (t_W p) (h_W h) /\ opt_is (t_nd p) (h_nd h) /\ opt_is (t_nf p) (h_nf h) /\ opt_is (t_sc p) (h_sc h)
  /\ opt_is (t_L p) (h_L h) /\ opt_is (t_67 p) (h_67 h).
Definition mod_is (p : pat) (h : header) (r : list Z) : Prop :=
  match t_mod p with
  | None => True
  | Some (d, m, k) => exists b r', r = b :: r' /\ opt_is d ((h_R h + b / 8 mod 8) mod 8) /\ opt_is m (negb (b / 64 =? 3)) /\ opt_is k (b mod 8)
  end.
Definition fits (p : pat) (bs : list Z) : Prop := exists h r, dec_header bs = Some (h, r) /\ head_is p h /\ mod_is p h r.

Definition opt_meet {A} (eq : A -> A -> bool) (a b : option A) : bool := match a, b with Some x, Some y => eq x y | _, _ => true end.
Definition mod_meet (a b : option (option Z * option bool * option Z)) : bool :=
  match a, b with
  | Some (d, m, k), Some (d', m', k') => opt_meet Z.eqb d d' && opt_meet Bool.eqb m m' && opt_meet Z.eqb k k'
  | _, _ => true end.
(* the opcode and its map, as one number *)
Definition pkey (p : pat) : Z := t_opc p + 256 * (t_map p + 8 * space_num (t_space p)).
Definition pmeet (a b : pat) : bool :=
  (t_pp a =? t_pp b) && opt_meet Bool.eqb (t_W a) (t_W b) && opt_meet Bool.eqb (t_nd a) (t_nd b) && opt_meet Bool.eqb (t_nf a) (t_nf b) && opt_meet Z.eqb (t_sc a) (t_sc b)
  && opt_meet Z.eqb (t_L a) (t_L b) && opt_meet Bool.eqb (t_67 a) (t_67 b)
  && mod_meet (t_mod a) (t_mod b).
Lemma opt_z a b x : opt_is a x -> opt_is b x -> opt_meet Z.eqb a b = true.
Proof. destruct a, b; cbn; auto. intros -> ->. apply Z.eqb_refl. Qed.
Lemma opt_b a b x : opt_is a x -> opt_is b x -> opt_meet Bool.eqb a b = true.
Proof. destruct a, b; cbn; auto. intros -> ->. apply eqb_reflx. Qed.
Lemma fits_meet a b bs : fits a bs -> fits b bs -> pkey a = pkey b /\ pmeet a b = true.
Proof.
  intros (h & r & D & (A1 & A2 & A3 & A4 & A5 & A6 & A7 & A11 & A12 & A13) & AM) (h' & r' & D' & (B1 & B2 & B3 & B4 & B5 & B6 & B7 & B11 & B12 & B13) & BM).
  rewrite D in D'. injection D' as <- <-. split; [unfold pkey; congruence|].
  unfold pmeet. rewrite <- A2, <- B2, Z.eqb_refl, (opt_b _ _ _ A5 B5), (opt_b _ _ _ A6 B6), (opt_b _ _ _ A7 B7), (opt_z _ _ _ A11 B11), (opt_z _ _ _ A12 B12), (opt_b _ _ _ A13 B13). cbn [andb].
  unfold mod_is, mod_meet in *. destruct (t_mod a) as [[[d m] k]|]; [|reflexivity]. destruct (t_mod b) as [[[d' m'] k']|]; [|reflexivity].
  destruct AM as (x & rx & -> & A8 & A9 & A10), BM as (y & ry & Q & B8 & B9 & B10). injection Q as <- <-.
  rewrite (opt_z _ _ _ A8 B8), (opt_b _ _ _ A9 B9), (opt_z _ _ _ A10 B10). reflexivity.
Qed.

(* ---- the check, grouped by opcode and map ---- *)
Section Check.
Variable ok : pat -> pat -> bool.
Definition key_bit (k : nat) (p : Z * pat) : bool := Z.testbit (fst p) (Z.of_nat k).
Fixpoint pcheck (k : nat) (l : list (Z * pat)) : bool :=
  match k with
  | O => forallb (fun a => forallb (fun b => if fst a =? fst b then if pmeet (snd a) (snd b) then ok (snd a) (snd b) else true else true) l) l
  | S k => match l with [] => true | _ => pcheck k (filter (key_bit k) l) && pcheck k (filter (fun i => negb (key_bit k i)) l) end
  end.
Lemma pcheck_ok k l : pcheck k l = true ->
  forall a b, In a l -> In b l -> fst a = fst b -> pmeet (snd a) (snd b) = true -> ok (snd a) (snd b) = true.
Proof.
  revert l. induction k as [|k IH]; intros l H a b A B E M; cbn [pcheck] in H.
  - rewrite forallb_forall in H. specialize (H _ A). rewrite forallb_forall in H. specialize (H _ B). rewrite E, Z.eqb_refl, M in H. exact H.
  - destruct l as [|x l]; [contradiction|]. set (L := x :: l) in *. clearbody L.
    apply andb_prop in H as [H1 H2]. assert (Q : key_bit k a = key_bit k b) by (unfold key_bit; now rewrite E).
    destruct (key_bit k a) eqn:K.
    + apply (IH _ H1); auto; apply filter_In; auto.
    + apply (IH _ H2); auto; apply filter_In; split; auto; [now rewrite K|now rewrite <- Q].
Qed.
End Check.

(* ---- patterns of rows ---- *)
Definition dmod (d : option Z) : option Z := option_map (fun x => x mod 8) d.
Definition widths5 := [0; 8; 16; 32; 64].
Lemma w_in5 o w : w_in o w = true -> In w widths5.
Proof. unfold widths5. destruct o; cbn; intros H; repeat (apply orb_prop in H as [H|H]); apply Z.eqb_eq in H; subst; auto 6. Qed.
Definition wbit (o : wsize) (w : Z) : option bool :=
  match o with OsN | Os8 | Os64 => None | Os0 => Some false | Os1 => Some true | _ => Some (w =? 64) end.
Lemma wbit_ok o w W : w_W o w W = true -> opt_is (wbit o w) W.
Proof. destruct o; cbn; auto; try (intros H; apply eqb_prop in H; auto). destruct W; cbn; auto; discriminate. Qed.

(* legacy *)
Fixpoint rm_oper (l : list oper) : option bool :=
  match l with
  | [] => None
  | o :: l => match o_at o with InRm => match o_reg o, o_mem o with None, _ => Some true | _, false => Some false | _, _ => None end | _ => rm_oper l end
  end.
Definition lpats (n : string) (row : lrow) : list pat :=
  flat_map (fun w => if w_in (l_osz row) w then
    let pp := z_of (pp_is (l_pp row) P66 || w_66 (l_osz row) w) + 2 * z_of (pp_is (l_pp row) PF2) + 4 * z_of (pp_is (l_pp row) PF3) in
    let opc := w_opc (l_osz row) w (l_opc row) in
    let mk o md := mkPat n Legacy pp (l_map row) o (wbit (l_osz row) w) None None None None None md in
    if l_modrm row then [mk opc (Some (dmod (l_digit row), rm_oper (l_ops row), None))]
    else if existsb (fun o => match o_at o with InOpc => true | _ => false end) (l_ops row)
    then map (fun i => mk (opc + i) None) [0; 1; 2; 3; 4; 5; 6; 7] else [mk opc None]
    else []) widths5.
Lemma rm_oper_ok w h reg rm l ops : Forall2 (oper_ok w h reg (Some rm)) l ops -> opt_is (rm_oper l) (is_mem rm).
Proof.
  intros F. induction F as [|o op l ops H _ IH]; cbn; auto. destruct (o_at o) eqn:A; auto.
  destruct (o_reg o) eqn:R.
  - destruct (o_mem o) eqn:M; cbn; auto. destruct op as [r|a]; cbn in H; [|destruct H; congruence].
    rewrite A in H. destruct H as (_ & _ & H & _). injection H as ->. reflexivity.
  - destruct op as [r|a]; cbn in H; [destruct H as ((k & Q & _) & _); congruence|]. destruct H as (_ & _ & _ & m & Q & _). injection Q as ->. reflexivity.
Qed.
Lemma decode_fits bs h reg rm r : decode false 1 bs = Some (h, reg, rm, r) ->
  exists b r', dec_header bs = Some (h, b :: r') /\ reg = h_R h + b / 8 mod 8 /\ is_mem rm = negb (b / 64 =? 3).
Proof.
  intros D. apply decode_head in D. unfold dec_head in D. destruct (dec_header bs) as [[h' [|m r']]|]; try discriminate.
  injection D as <- <- <-. eauto 6.
Qed.
Lemma mod8_in x : In (x mod 8) [0; 1; 2; 3; 4; 5; 6; 7].
Proof. pose proof (Z.mod_pos_bound x 8 ltac:(lia)). cbn [In]. lia. Qed.
Lemma lsays_fits n row ops imm bs rest : lsays row ops imm bs rest -> exists p, In p (lpats n row) /\ fits p (bs ++ rest).
Proof.
  intros (w & h & reg & rm & opc & tail & D & (L1 & L2 & L3 & L4 & L5 & _ & _ & L6 & L7 & L8) & G & F & _).
  assert (PP : hpp h = z_of (pp_is (l_pp row) P66 || w_66 (l_osz row) w) + 2 * z_of (pp_is (l_pp row) PF2) + 4 * z_of (pp_is (l_pp row) PF3)).
  { unfold hpp. rewrite L1, L3, L4, L5. reflexivity. }
  assert (IN : forall p, In p (if w_in (l_osz row) w then
    let pp := z_of (pp_is (l_pp row) P66 || w_66 (l_osz row) w) + 2 * z_of (pp_is (l_pp row) PF2) + 4 * z_of (pp_is (l_pp row) PF3) in
    let opc := w_opc (l_osz row) w (l_opc row) in
    let mk o md := mkPat n Legacy pp (l_map row) o (wbit (l_osz row) w) None None None None None md in
    if l_modrm row then [mk opc (Some (dmod (l_digit row), rm_oper (l_ops row), None))]
    else if existsb (fun o => match o_at o with InOpc => true | _ => false end) (l_ops row)
    then map (fun i => mk (opc + i) None) [0; 1; 2; 3; 4; 5; 6; 7] else [mk opc None]
    else []) -> In p (lpats n row)).
  { intros p Hp. unfold lpats. apply in_flat_map. exists w. split; [eapply w_in5; eauto|exact Hp]. }
  rewrite L2 in IN. cbv zeta in IN.
  destruct (l_modrm row).
  - destruct D as ((r & -> & D) & ->). destruct (decode_fits _ _ _ _ _ D) as (b & r' & DH & RG & MM).
    eexists. split; [apply IN; left; reflexivity|]. exists h, (b :: r'). split; [exact DH|]. split.
    + repeat split; cbn; auto. now apply wbit_ok.
    + cbn. exists b, r'. split; auto. split; [|split; auto].
      * rewrite <- RG. destruct (l_digit row) as [d|]; cbn; auto. now rewrite (G d eq_refl).
      * rewrite <- MM. eapply rm_oper_ok; eauto.
  - destruct D as (D & -> & O). destruct (existsb _ _) eqn:X.
    + exists (mkPat n Legacy (z_of (pp_is (l_pp row) P66 || w_66 (l_osz row) w) + 2 * z_of (pp_is (l_pp row) PF2) + 4 * z_of (pp_is (l_pp row) PF3))
        (l_map row) (w_opc (l_osz row) w (l_opc row) + h_opc h mod 8) (wbit (l_osz row) w) None None None None None None).
      split. { apply IN. apply in_map_iff. exists (h_opc h mod 8). split; auto.
        apply mod8_in. }
      exists h, (tail ++ rest). split; auto. split; [|exact I]. repeat split; cbn; auto; [clear - O L8; lia|now apply wbit_ok].
    + eexists. split; [apply IN; left; reflexivity|]. exists h, (tail ++ rest). split; auto. split; [|exact I].
      repeat split; cbn; auto; [congruence|now apply wbit_ok].
Qed.

(* APX *)
Fixpoint arm_oper (l : list aoper) : option bool :=
  match l with
  | [] => None
  | o :: l => match ao_at o with AtRm => match ao_reg o, ao_mem o with None, _ => Some true | _, false => Some false | _, _ => None end | _ => arm_oper l end
  end.
Definition apats (n : string) (row : arow) : list pat :=
  flat_map (fun w => if w_in (a_osz row) w then
    [mkPat n Evex (if w_66 (a_osz row) w then 1 else pp_num (a_pp row)) (a_map row) (w_opc (a_osz row) w (a_opc row)) (wbit (a_osz row) w)
      (match a_sc row with Some _ => Some false | None => match a_ndk row with Nd0 => Some false | Nd1 => Some true | NdZU => None end end)
      (match a_sc row with Some _ => None | None => match a_nf row with NfNo => Some false | NfOpt => None | Nf1 => Some true end end)
      (a_sc row) None None (Some (dmod (a_digit row), arm_oper (a_ops row), None))]
    else []) widths5.
Lemma arm_oper_ok w h reg rm l ops : Forall2 (aoper_ok w h reg rm) l ops -> opt_is (arm_oper l) (is_mem rm).
Proof.
  intros F. induction F as [|o op l ops H _ IH]; cbn; auto. destruct (ao_at o) eqn:A; auto.
  destruct (ao_reg o) eqn:R.
  - destruct (ao_mem o) eqn:M; cbn; auto. destruct op as [r|a]; cbn in H; [|destruct H; congruence].
    rewrite A in H. destruct H as (_ & _ & ((v & ->) & _) & _). reflexivity.
  - destruct op as [r|a]; cbn in H; [destruct H as ((k & Q & _) & _); congruence|]. destruct H as (_ & _ & _ & m & -> & _). reflexivity.
Qed.
Lemma asays_fits n row ops imm dfv bs rest : asays row ops imm dfv bs rest -> exists p, In p (apats n row) /\ fits p (bs ++ rest).
Proof.
  intros (w & h & reg & rm & tail & D & (L1 & L2 & _ & _ & _ & _ & _ & L6 & L7 & L8 & L9 & _ & _ & L10) & G & F & _).
  destruct (decode_fits _ _ _ _ _ D) as (b & r' & DH & RG & MM).
  eexists. split.
  - unfold apats. apply in_flat_map. exists w. split; [eapply w_in5; eauto|]. rewrite L2. left. reflexivity.
  - exists h, (b :: r'). split; [exact DH|]. split.
    + repeat split; cbn; auto.
      * unfold hpp. now rewrite L1.
      * now apply wbit_ok.
      * destruct (a_sc row); [now destruct L10|]. destruct L10 as (Q & _). destruct (a_ndk row); cbn; auto.
      * destruct (a_sc row); [exact I|]. destruct L10 as (_ & _ & Q & _). destruct (a_nf row); cbn; auto. now destruct Q.
      * destruct (a_sc row); [|exact I]. destruct L10 as (_ & Q & _). exact Q.
    + cbn. exists b, r'. split; auto. split; [|split; auto].
      * rewrite <- RG. destruct (a_digit row) as [d|]; cbn; auto.
        rewrite <- (G d eq_refl). now rewrite Z.mod_mod by lia.
      * rewrite <- MM. eapply arm_oper_ok; eauto.
Qed.

(* VEX and EVEX *)
Definition wopt (w : wclass) : option bool := match w with W0 => Some false | W1 => Some true | _ => None end.
Definition vpat (n : string) (s : space) (f : form) (d : option Z) (m : option bool) : pat :=
  mkPat n s (pp_num (f_pp f)) (map_num (f_map f)) (f_opc f) (wopt (f_W f)) None None None None None (Some (dmod d, m, None)).
Definition vpats (k : string * vrow * option bool) : list pat :=
  let '(n, row, m) := k in
  match r_vex row with Some f => [vpat n Vex f (r_digit row) m] | None => [] end
  ++ match r_evex row with Some f => [vpat n Evex (e_form f) (r_digit row) m] | None => [] end.
Lemma is_row_fits n row m b bs : is_row row b bs -> m = None \/ m = Some b -> exists p, In p (vpats (n, row, m)) /\ fits p bs.
Proof.
  intros (h & reg & f & D & F & (O1 & O2 & O3 & O4 & _) & G) K.
  unfold dec_head in D. destruct (dec_header bs) as [[h' [|x r']]|] eqn:DH; try discriminate. injection D as <- <- <-.
  assert (FI : fits (vpat n (h_space h') f (r_digit row) m) bs).
  { exists h', (x :: r'). split; auto. split.
    - repeat split; cbn; auto.
      + unfold hpp. destruct (h_space h') eqn:S; cbn in F; [discriminate|auto|auto].
      + destruct (f_W f), (h_W h'); cbn in *; auto; discriminate.
    - cbn. exists x, r'. split; auto. split; [|split; auto].
      + destruct (r_digit row) as [d|]; cbn; auto. now rewrite (G d eq_refl).
      + destruct K as [-> | ->]; cbn; auto. }
  eexists. split; [|exact FI]. unfold vpats. apply in_app_iff.
  destruct (h_space h'); cbn in F; [discriminate|left|right].
  - rewrite F. now left.
  - destruct (r_evex row) as [e|]; [|discriminate]. injection F as ->. now left.
Qed.

(* fixed bytes *)
Definition fpats (k : string * list Z) : list pat :=
  match dec_header (snd k) with
  | Some (h, r) => [mkPat (fst k) (h_space h) (hpp h) (h_map h) (h_opc h) (Some (h_W h)) None None None (Some (h_L h)) (Some (h_67 h))
      (match r with [] => None | b :: _ => Some (Some ((h_R h + b / 8 mod 8) mod 8), Some (negb (b / 64 =? 3)), Some (b mod 8)) end)]
  | None => [] end.
Lemma scan_app p l rest : snd (scan_prefixes p l) <> [] ->
  scan_prefixes p (l ++ rest) = (fst (scan_prefixes p l), snd (scan_prefixes p l) ++ rest).
Proof.
  revert p. induction l as [|b l IH]; intros p; cbn; [congruence|]. destruct (prefix_step p b); [apply IH|reflexivity].
Qed.
Lemma dec_legacy_app p rex W R X B l rest h r : dec_legacy p rex W R X B l = Some (h, r) -> dec_legacy p rex W R X B (l ++ rest) = Some (h, r ++ rest).
Proof.
  unfold dec_legacy, dec_opcode. destruct l as [|o l]; cbn; [discriminate|]. destruct (o =? 15); [|intros H; injection H as <- <-; reflexivity].
  destruct l as [|o1 l]; cbn; [discriminate|]. destruct (o1 =? 56); [|destruct (o1 =? 58)]; try (intros H; injection H as <- <-; reflexivity);
  destruct l as [|o2 l]; cbn; try discriminate; intros H; injection H as <- <-; reflexivity.
Qed.
Lemma dec_header_app bs h r rest : dec_header bs = Some (h, r) -> dec_header (bs ++ rest) = Some (h, r ++ rest).
Proof.
  unfold dec_header. destruct (scan_prefixes pfx0 bs) as [p l] eqn:SC. destruct l as [|b l]; [discriminate|].
  rewrite scan_app; rewrite SC; cbn [fst snd app]; [|discriminate].
  destruct (_ && (b <=? 79)); [apply dec_legacy_app|].
  destruct (b =? 213); [destruct l as [|q [|o l]]; cbn; try discriminate; intros H; injection H as <- <-; reflexivity|].
  destruct (_ && _); [discriminate|].
  destruct (b =? 197); [destruct l as [|q [|o l]]; cbn; try discriminate; intros H; injection H as <- <-; reflexivity|].
  destruct (b =? 196); [destruct l as [|q [|q2 [|o l]]]; cbn; try discriminate; intros H; injection H as <- <-; reflexivity|].
  destruct (b =? 98); [destruct l as [|q [|q2 [|q3 [|o l]]]]; cbn; try discriminate; intros H; injection H as <- <-; reflexivity|].
  apply (dec_legacy_app p false false 0 0 0 (b :: l)).
Qed.
Lemma fixed_fits n bs rest : fpats (n, bs) <> [] -> exists p, In p (fpats (n, bs)) /\ fits p (bs ++ rest).
Proof.
  unfold fpats. cbn [fst snd]. destruct (dec_header bs) as [[h r]|] eqn:D; [|congruence]. intros _.
  eexists. split; [left; reflexivity|]. exists h, (r ++ rest). split; [now apply dec_header_app|]. split.
  - repeat split; cbn; auto.
  - unfold mod_is. cbn. destruct r as [|b r]; [exact I|]. exists b, (r ++ rest). repeat split.
Qed.
Definition xpat (k : string * xform * Z * Z) : pat :=
  let '(n, _, b1, b2) := k in mkPat n Legacy 0 0 b1 (Some false) None None None None None (Some (Some (b2 / 8 mod 8), Some false, None)).
Definition xcheck (k : string * xform * Z * Z) : bool :=
  let '(n, _, b1, b2) := k in (0xD8 <=? b1) && (b1 <=? 0xDF) && (0xC0 <=? b2) && (b2 <=? 0xF8) && (b2 mod 8 =? 0).
Lemma sdm_x87_check : forallb xcheck sdm_x87 = true. Proof. reflexivity. Qed.
Lemma x87_fits n ops bs rest : x87_is n ops bs -> Forall (fun i => 0 <= i < 8) ops -> exists p, In p (map xpat sdm_x87) /\ t_name p = n /\ fits p (bs ++ rest).
Proof.
  intros (form & b1 & b2 & i & HI & -> & E) FO.
  assert (Hi : 0 <= i < 8). { subst ops. destruct form; inversion FO as [|? ? Q1 Q2]; auto; inversion Q2; auto. }
  pose proof sdm_x87_check as CK. rewrite forallb_forall in CK. specialize (CK _ HI). cbn in CK.
  repeat (apply andb_prop in CK as [CK ?]). 
  assert (D : dec_header ([b1; b2 + i] ++ rest) = Some (leg_header pfx0 false 0 false 0 0 0 b1, b2 + i :: rest)).
  { assert (K : In b1 [0xD8; 0xD9; 0xDA; 0xDB; 0xDC; 0xDD; 0xDE; 0xDF]) by (cbn [In]; lia).
    cbn [In] in K. repeat destruct K as [<-|K]; try contradiction; reflexivity. }
  exists (xpat (n, form, b1, b2)). split; [now apply in_map|]. split; [reflexivity|].
  eexists; eexists; split; [exact D|]. split; [repeat split|]. cbn. exists (b2 + i), rest. split; auto.
  assert (E8 : b2 = 8 * (b2 / 8)) by (pose proof (Z.div_mod b2 8); lia).
  split; [|split; [|exact I]].
  - rewrite Z.mod_mod by lia. f_equal. rewrite E8 at 1. replace (8 * (b2 / 8) + i) with (i + b2 / 8 * 8) by lia.
    rewrite Z.div_add by lia. rewrite (Z.div_small i 8) by lia. reflexivity.
  - replace ((b2 + i) / 64) with 3; [reflexivity|]. apply Z.div_unique with (r := b2 + i - 192); lia.
Qed.

(* ---- names of the same instruction ---- *)
Definition suffixes : list (list string) := [["b"; "c"; "nae"]; ["nb"; "nc"; "ae"]; ["e"; "z"]; ["ne"; "nz"]; ["be"; "na"]; ["a"; "nbe"];
  ["p"; "pe"]; ["np"; "po"]; ["l"; "nge"]; ["ge"; "nl"]; ["le"; "ng"]; ["g"; "nle"]]%string.
Definition synonyms : list (list string) :=
  [["sal"; "shl"]; ["wait"; "fwait"]; ["pushf"; "pushfq"]; ["popf"; "popfq"]]%string
  ++ flat_map (fun f => map (map (fun c => (fst f ++ c ++ snd f)%string)) suffixes)
       [("j", ""); ("set", ""); ("cmov", ""); ("cfcmov", ""); ("ccmp", ""); ("ctest", ""); ("cmp", "xadd")]%string.
Definition same_insn (a b : string) : bool :=
  if String.eqb a b then true else existsb (fun g => existsb (String.eqb a) g && existsb (String.eqb b) g) synonyms.
(* ---- the calls ---- *)
(* prefixes, and instructions that begin with WAIT on purpose, are not instructions of their own *)
Definition not_alone : list string := ["lock"; "rep"; "repe"; "repz"; "repne"; "repnz"; "bnd"; "fclex"; "finit"]%string.
Definition alone (n : string) : bool := negb (existsb (String.eqb n) not_alone).
(* methods with immediates only, and their opcodes *)
Definition imm_methods : list (string * (Z -> Z -> E unit)) := [
  ("int", fun n _ => i_int_ n); ("ret", fun n _ => i_ret n); ("retf", fun n _ => i_retf n); ("enter", i_enter);
  ("xabort", fun n _ => i_xabort n); ("xbegin", fun n _ => i_xbegin n)]%string.
Definition imm_heads : list (string * list Z) := [
  ("int", [0xCD]); ("ret", [0xC3]); ("ret", [0xC2]); ("retf", [0xCB]); ("retf", [0xCA]); ("enter", [0xC8]); ("xabort", [0xC6; 0xF8]); ("xbegin", [0xC7; 0xF8])]%string.
(* branches: what the methods of C38 and the jmp and call of a label or an address emit starts so *)
Definition cc_names : list (string * Z) := [("o", 0); ("no", 1); ("b", 2); ("nb", 3); ("e", 4); ("ne", 5); ("be", 6); ("a", 7);
  ("s", 8); ("ns", 9); ("p", 10); ("np", 11); ("l", 12); ("ge", 13); ("le", 14); ("g", 15)]%string.
Definition branch_heads : list (string * list Z) :=
  flat_map (fun c => [(("j" ++ fst c)%string, [0x70 + snd c]); (("j" ++ fst c)%string, [0x0F; 0x80 + snd c])]) cc_names
  ++ [("jmp", [0xEB]); ("jmp", [0xE9]); ("call", [0xE8]); ("loopne", [0xE0]); ("loope", [0xE1]); ("loop", [0xE2]); ("jecxz", [0x67; 0xE3]); ("jrcxz", [0xE3])]%string.
(* bs starts with what a successful call of method n with operands of the documented kinds emits *)
Inductive emitted_all (enc : PreferredEncoding) : string -> list Z -> Prop :=
| ea_vex n bs : emitted enc n bs -> emitted_all enc (mnemonic n) bs
| ea_plain e s ops imm act env pos its rest u : In e (kmov_table ++ tile_table) ->
    en_fun e ops imm = Some act -> Forall2 arg_ok (en_sig e) ops -> Forall plain ops ->
    emits act env pos its u -> emitted_all enc (mnemonic (en_name e)) (render s its ++ rest)
| ea_leg e s ops imm act env pos its rest u : In e (legacy_table ++ gpr_table) ->
    le_fun e ops imm = Some act -> Forall2 larg_ok (le_sig e) ops -> Forall lbare ops -> high_ok ops ->
    Forall (fun row => imm_in (l_imm row) imm) (le_rows e) ->
    emits act env pos its u -> emitted_all enc (mnemonic (le_name e)) (render s its ++ rest)
| ea_mix e s ops imm act env pos its rest u : In e (mix_table ++ mix2_table) ->
    me_fun e ops imm = Some act -> Forall2 marg_ok (me_sig e) ops -> Forall lbare ops ->
    Forall (fun row => imm_in (l_imm row) imm) (me_rows e) ->
    emits act env pos its u -> emitted_all enc (mnemonic (me_name e)) (render s its ++ rest)
| ea_apx e s ops imm dfv act env pos its rest u : In e apx_table ->
    ae_fun e ops imm dfv = Some act -> Forall2 aarg_ok (ae_sig e) ops -> same_size (ae_sig e) ops -> Forall lbare ops ->
    ext_ok (ae_ext e) ops = true -> - 2 ^ 31 <= dfv < 2 ^ 31 ->
    (wants_zu ops = true -> Forall (fun row => a_ndk row <> Nd0) (ae_rows e)) ->
    Forall (fun row => imm_in (a_immk row) imm) (ae_rows e) ->
    emits act env pos its u -> emitted_all enc (mnemonic (ae_name e)) (render s its ++ rest)
| ea_fixed n f s env pos its rest u : In (n, f) fixed_methods -> alone n = true ->
    emits f env pos its u -> emitted_all enc n (render s its ++ rest)
| ea_imm n f x y s env pos its rest u : In (n, f) imm_methods -> 0 <= x < 2 ^ 16 -> (n = "int" \/ n = "xabort" -> x < 256)%string -> 0 <= y < 256 ->
    emits (f x y) env pos its u -> emitted_all enc n (render s its ++ rest)
| ea_x87_2 n f r1 r2 s env pos its rest u : In (n, f) (x87_two ++ x87_to0) -> fpu_reg r1 -> fpu_reg r2 ->
    (regno r1 = 0 \/ regno r2 <> 0 \/ In (n, f) x87_two) ->
    emits (f r1 r2) env pos its u -> emitted_all enc n (render s its ++ rest)
| ea_x87_1 n f r s env pos its rest u : In (n, f) (x87_one ++ x87_onep ++ x87_single) -> fpu_reg r ->
    emits (f r) env pos its u -> emitted_all enc n (render s its ++ rest)
| ea_branch n bs rest : In (n, bs) branch_heads -> emitted_all enc n (bs ++ rest).

Definition all_pats (enc : PreferredEncoding) : list pat :=
  flat_map vpats (keys enc ++ map key (kmov_table ++ tile_table))
  ++ flat_map (fun e => flat_map (lpats (le_name e)) (le_rows e)) (legacy_table ++ gpr_table)
  ++ flat_map (fun e => flat_map (lpats (me_name e)) (me_rows e)) (mix_table ++ mix2_table)
  ++ flat_map (fun e => flat_map (apats (ae_name e)) (ae_rows e)) apx_table
  ++ flat_map fpats (filter (fun k => alone (fst k)) sdm_fixed ++ imm_heads ++ branch_heads)
  ++ map xpat sdm_x87.
Definition named (p : pat) : Z * pat := (pkey p, mkPat (mnemonic (t_name p)) (t_space p) (t_pp p) (t_map p) (t_opc p) (t_W p) (t_nd p) (t_nf p) (t_sc p) (t_L p) (t_67 p) (t_mod p)).
Lemma all_checked : pcheck (fun a b => same_insn (t_name a) (t_name b)) 13 (map named (all_pats DefaultEncoding)) = true.
Proof. vm_compute. reflexivity. Qed.

(* ---- every call fits a pattern of its name ---- *)
Definition has_pat (enc : PreferredEncoding) (n : string) (bs : list Z) : Prop :=
  exists p, In p (all_pats enc) /\ mnemonic (t_name p) = n /\ fits p bs.
Lemma lpats_name n row p : In p (lpats n row) -> t_name p = n.
Proof.
  unfold lpats. rewrite in_flat_map. intros (w & _ & H). destruct (w_in _ _); [|contradiction]. destruct (l_modrm row).
  - destruct H as [<-|[]]. reflexivity.
  - destruct (existsb _ _); [apply in_map_iff in H as (i & <- & _); reflexivity|destruct H as [<-|[]]; reflexivity].
Qed.
Lemma apats_name n row p : In p (apats n row) -> t_name p = n.
Proof. unfold apats. rewrite in_flat_map. intros (w & _ & H). destruct (w_in _ _); [|contradiction]. destruct H as [<-|[]]. reflexivity. Qed.
Lemma vpats_name n row m p : In p (vpats (n, row, m)) -> t_name p = n.
Proof. unfold vpats. rewrite in_app_iff. destruct (r_vex row), (r_evex row); cbn; intuition (subst; reflexivity). Qed.
Lemma fpats_name k p : In p (fpats k) -> t_name p = fst k.
Proof. unfold fpats. destruct (dec_header _) as [[h r]|]; [|contradiction]. intros [<-|[]]. reflexivity. Qed.
Ltac in_part := unfold all_pats; rewrite !in_app_iff.
Lemma vex_part enc n row m b bs : In (n, row, m) (keys enc ++ map key (kmov_table ++ tile_table)) -> is_row row b bs -> m = None \/ m = Some b ->
  has_pat enc (mnemonic n) bs.
Proof.
  intros HI R K. destruct (is_row_fits n row m b bs R K) as (p & P & F). exists p. split; [|split; [now rewrite (vpats_name _ _ _ _ P)|exact F]].
  in_part. left. apply in_flat_map. eauto.
Qed.
Lemma fixed_part enc n bs rest : In (n, bs) (filter (fun k => alone (fst k)) sdm_fixed ++ imm_heads ++ branch_heads) -> has_pat enc (mnemonic n) (bs ++ rest).
Proof.
  intros HI. assert (NE : fpats (n, bs) <> []).
  { assert (CK : forallb (fun k => match fpats k with [] => false | _ => true end) (filter (fun k => alone (fst k)) sdm_fixed ++ imm_heads ++ branch_heads) = true) by (vm_compute; reflexivity).
    rewrite forallb_forall in CK. specialize (CK _ HI). intros Q. rewrite Q in CK. discriminate. }
  destruct (fixed_fits n bs rest NE) as (p & P & F). exists p. split; [|split; [now rewrite (fpats_name _ _ P)|exact F]].
  in_part. do 4 right. left. apply in_flat_map. eauto.
Qed.
Lemma x87_part enc n ops bs rest : x87_is n ops bs -> Forall (fun i => 0 <= i < 8) ops -> has_pat enc (mnemonic n) (bs ++ rest).
Proof.
  intros X FO. destruct (x87_fits n ops bs rest X FO) as (p & P & N & F). exists p. split; [|split; [now rewrite N|exact F]].
  in_part. do 5 right. exact P.
Qed.
Lemma bytes_are f bs s env pos its u : emits_bytes f bs -> emits f env pos its u -> render s its = bs.
Proof. intros B (_ & E). destruct (B s env pos) as (its' & E' & R). rewrite E in E'. injection E' as <- _. exact R. Qed.
Lemma rejects_not f e env pos its u : rejects f e -> emits f env pos its u -> False.
Proof. intros R (N & E). rewrite (R env pos N) in E. discriminate. Qed.
Lemma fpu8 r : fpu_reg r -> 0 <= regno r < 8.
Proof. intros H. pose proof (fpu_range _ H) as Q. cbn [In] in Q. lia. Qed.
Lemma plain_name n : In n (map fst (fixed_methods)) \/ In n (map fst imm_methods) \/ In n (map fst branch_heads) \/ In n (map fst (x87_two ++ x87_to0))
  \/ In n (map fst (x87_one ++ x87_onep ++ x87_single)) -> mnemonic n = n.
Proof.
  assert (CK : forallb (fun n => String.eqb (mnemonic n) n) (map fst (fixed_methods) ++ map fst imm_methods ++ map fst branch_heads ++ map fst (x87_two ++ x87_to0)
    ++ map fst (x87_one ++ x87_onep ++ x87_single)) = true) by (vm_compute; reflexivity).
  rewrite forallb_forall in CK. intros H. apply String.eqb_eq, CK. rewrite !in_app_iff. exact H.
Qed.
Lemma imm_bytes n f x y s env pos its u : In (n, f) imm_methods -> 0 <= x < 2 ^ 16 -> (n = "int" \/ n = "xabort" -> x < 256)%string -> 0 <= y < 256 ->
  emits (f x y) env pos its u -> exists hd tail, In (n, hd) imm_heads /\ render s its = hd ++ tail.
Proof.
  intros HI X XB Y H. unfold imm_methods in HI. cbn [In] in HI.
  assert (Go : forall bs hd tail, emits_bytes (f x y) bs -> bs = hd ++ tail -> In (n, hd) imm_heads ->
    exists hd tail, In (n, hd) imm_heads /\ render s its = hd ++ tail).
  { intros bs hd tail B E J. exists hd, tail. split; auto. rewrite (bytes_are _ _ s _ _ _ _ B H). exact E. }
  destruct HI as [Q|[Q|[Q|[Q|[Q|[Q|[]]]]]]]; injection Q as <- <-; cbv beta in *.
  - specialize (XB (or_introl eq_refl)). apply (Go _ [0xCD] [x] (int_bytes x ltac:(lia)) eq_refl). cbn; auto.
  - pose proof (ret_bytes x X) as B. destruct (x =? 0); [apply (Go _ [0xC3] [] B eq_refl)|apply (Go _ [0xC2] (le2 x) B eq_refl)]; cbn; auto.
  - pose proof (retf_bytes x X) as B. destruct (x =? 0); [apply (Go _ [0xCB] [] B eq_refl)|apply (Go _ [0xCA] (le2 x) B eq_refl)]; cbn; auto 6.
  - apply (Go _ [0xC8] _ (enter_bytes x y X Y) eq_refl). cbn; auto 8.
  - specialize (XB (or_intror eq_refl)). apply (Go _ [0xC6; 0xF8] [x] (xabort_bytes x ltac:(lia)) eq_refl). cbn; auto 10.
  - apply (Go _ [0xC7; 0xF8] _ (xbegin_bytes x) eq_refl). cbn; auto 10.
Qed.
Lemma emitted_pat enc n bs : emitted_all enc n bs -> has_pat enc n bs.
Proof.
  intros H. destruct H as [n bs H
    |e s ops imm act env pos its rest u HI F A P E
    |e s ops imm act env pos its rest u HI F A B HO IM E
    |e s ops imm act env pos its rest u HI F A B IM E
    |e s ops imm dfv act env pos its rest u HI F A SS B X DF ZU IM E
    |n f s env pos its rest u HI AL E
    |n f x y s env pos its rest u HI X XB Y E
    |n f r1 r2 s env pos its rest u HI R1 R2 G E
    |n f r s env pos its rest u HI R E
    |n bs rest HI].
  - destruct (emitted_row _ _ _ H) as (row & m & b & HI & R & K). eapply vex_part; [apply in_app_iff; left; exact HI|exact R|exact K].
  - assert (S : says (en_row e) (vl_of (en_vl e) (en_row e) ops) ops imm (render s its) rest).
    { destruct (in_app_or _ _ _ HI) as [HJ|HJ]; [pose proof kmov_all as T|pose proof tile_all as T]; rewrite Forall_forall in T; eapply (T _ HJ); eauto. }
    destruct (says_is_row _ _ _ _ _ _ _ A S) as (b & R & K).
    eapply vex_part; [apply in_app_iff; right; exact (in_map key _ _ HI)|exact R|exact K].
  - assert (S : Exists (fun row => lsays row ops imm (render s its) rest) (le_rows e)).
    { destruct (in_app_or _ _ _ HI) as [HJ|HJ]; [pose proof legacy_table_ok as T|pose proof gpr_table_ok as T]; rewrite Forall_forall in T; eapply (T _ HJ); eauto. }
    apply Exists_exists in S as (row & HR & S). destruct (lsays_fits (le_name e) _ _ _ _ _ S) as (p & P & FI).
    exists p. split; [|split; [now rewrite (lpats_name _ _ _ P)|exact FI]]. in_part. right; left. apply in_flat_map. exists e. split; [exact HI|]. apply in_flat_map. eauto.
  - assert (S : Exists (fun row => lsays row ops imm (render s its) rest) (me_rows e)).
    { destruct (in_app_or _ _ _ HI) as [HJ|HJ]; [pose proof mix_all as T|pose proof mix2_all as T]; rewrite Forall_forall in T; eapply (T _ HJ); eauto. }
    apply Exists_exists in S as (row & HR & S). destruct (lsays_fits (me_name e) _ _ _ _ _ S) as (p & P & FI).
    exists p. split; [|split; [now rewrite (lpats_name _ _ _ P)|exact FI]]. in_part. do 2 right; left. apply in_flat_map. exists e. split; [exact HI|]. apply in_flat_map. eauto.
  - assert (S : Exists (fun row => asays row ops imm dfv (render s its) rest) (ae_rows e)).
    { pose proof apx_table_ok as T; rewrite Forall_forall in T; eapply (T _ HI); eauto. }
    apply Exists_exists in S as (row & HR & S). destruct (asays_fits (ae_name e) _ _ _ _ _ _ S) as (p & P & FI).
    exists p. split; [|split; [now rewrite (apats_name _ _ _ P)|exact FI]]. in_part. do 3 right; left. apply in_flat_map. exists e. split; [exact HI|]. apply in_flat_map. eauto.
  - rewrite <- (plain_name n) by (left; exact (in_map fst _ _ HI)).
    pose proof fixed_all as T. rewrite Forall_forall in T. destruct (T _ HI) as (bs & J & B). cbn [fst snd] in *. rewrite (bytes_are _ _ s _ _ _ _ B E).
    apply fixed_part. apply in_app_iff; left. apply filter_In. auto.
  - rewrite <- (plain_name n) by (right; left; exact (in_map fst _ _ HI)).
    destruct (imm_bytes _ _ _ _ s _ _ _ _ HI X XB Y E) as (hd & tail & J & ->). rewrite <- app_assoc.
    apply fixed_part. rewrite !in_app_iff. auto.
  - rewrite <- (plain_name n) by (do 3 right; left; exact (in_map fst _ _ HI)).
    assert (FO : Forall (fun i => 0 <= i < 8) [regno r1; regno r2]) by (apply Forall_cons; [now apply fpu8|apply Forall_cons; [now apply fpu8|apply Forall_nil]]).
    assert (S : emits_x87 (f r1 r2) n [regno r1; regno r2] \/ rejects (f r1 r2) ERR_BAD_ST_COMBINATION).
    { destruct (in_app_or _ _ _ HI) as [J|J].
      - pose proof x87_two_all as T. rewrite Forall_forall in T. destruct (T _ J r1 r2 R1 R2) as [Q|(Q & _)]; auto.
      - destruct G as [G|[G|G]].
        + pose proof x87_to0_all as T. rewrite Forall_forall in T. destruct (T _ J r1 r2 R1 R2 (or_introl G)) as [Q|(Q & _)]; auto.
        + pose proof x87_to0_all as T. rewrite Forall_forall in T. destruct (T _ J r1 r2 R1 R2 (or_intror G)) as [Q|(Q & _)]; auto.
        + pose proof x87_two_all as T. rewrite Forall_forall in T. destruct (T _ G r1 r2 R1 R2) as [Q|(Q & _)]; auto. }
    destruct S as [(bs & B & X)|S]; [|destruct (rejects_not _ _ _ _ _ _ S E)].
    rewrite (bytes_are _ _ s _ _ _ _ B E). eapply x87_part; eauto.
  - rewrite <- (plain_name n) by (do 4 right; exact (in_map fst _ _ HI)). pose proof (fpu8 _ R) as R8.
    assert (S : (exists ops, Forall (fun i => 0 <= i < 8) ops /\ emits_x87 (f r) n ops) \/ rejects (f r) ERR_BAD_ST_COMBINATION).
    { rewrite !in_app_iff in HI. destruct HI as [J|[J|J]].
      - pose proof x87_one_all as T. rewrite Forall_forall in T. left. eexists. split; [|exact (T _ J r R)]. repeat constructor; lia.
      - pose proof x87_onep_all as T. rewrite Forall_forall in T. pose proof (T _ J r R) as Q. cbn [fst snd] in Q. destruct (regno r =? 0); [now right|].
        left. eexists. split; [|exact Q]. repeat constructor; lia.
      - pose proof x87_single_all as T. rewrite Forall_forall in T. left. eexists. split; [|exact (T _ J r R)]. repeat constructor; lia. }
    destruct S as [(ops & FO & bs & B & X)|S]; [|destruct (rejects_not _ _ _ _ _ _ S E)].
    rewrite (bytes_are _ _ s _ _ _ _ B E). eapply x87_part; eauto.
  - rewrite <- (plain_name n) by (do 2 right; left; exact (in_map fst _ _ HI)). apply fixed_part. rewrite !in_app_iff. auto.
Qed.
Lemma pats_enc enc : all_pats enc = all_pats DefaultEncoding.
Proof. unfold all_pats. now rewrite keys_enc. Qed.
Lemma share_all enc n1 n2 bs : emitted_all enc n1 bs -> emitted_all enc n2 bs -> same_insn n1 n2 = true.
Proof.
  intros A B. destruct (emitted_pat _ _ _ A) as (p1 & I1 & N1 & F1). destruct (emitted_pat _ _ _ B) as (p2 & I2 & N2 & F2).
  rewrite pats_enc in I1, I2. destruct (fits_meet _ _ _ F1 F2) as (K & M).
  pose proof (pcheck_ok _ _ _ all_checked _ _ (in_map named _ _ I1) (in_map named _ _ I2) K M) as H. cbn in H. rewrite N1, N2 in H. exact H.
Qed.
