(* Bytes that are an instruction of a row (says) execute as the meaning of the row with the operands as written. *)
From Coq Require Import ZArith List Bool String Lia.
From Verif Require Import Base Types Emit EmitFacts SpecX86 SpecAddr SpecIsa SpecInsn Wf SpecLeg SpecCond SpecExec SpecVec SpecVecRun.
Import ListNotations.
Open Scope list_scope.
Open Scope Z_scope.

(* ---- the decoder ---- *)
Lemma decode_header v n bs h reg rm c : decode v n bs = Some (h, reg, rm, c) -> exists r, dec_header bs = Some (h, r).
Proof.
  unfold decode. destruct (dec_header bs) as [[h0 r]|]; [|discriminate]. destruct (dec_rm _ _ _ _) as [[[? ?] ?]|]; [|discriminate].
  intros Q. injection Q as -> _ _ _. eauto.
Qed.
Lemma decode_vex n n' bs h reg rm c : decode false n bs = Some (h, reg, rm, c) -> h_space h = Vex -> decode false n' bs = Some (h, reg, rm, c).
Proof.
  intros D S. destruct (decode_header _ _ _ _ _ _ _ D) as [r Hh]. unfold decode in *. rewrite Hh in *. rewrite S in *. exact D.
Qed.
Lemma decode_reg n n' bs h reg g v c : decode false n bs = Some (h, reg, RReg g v, c) -> decode false n' bs = Some (h, reg, RReg g v, c).
Proof.
  intros D. destruct (decode_header _ _ _ _ _ _ _ D) as [r Hh]. unfold decode in *. rewrite Hh in *.
  set (k := match h_space h with Evex => n | _ => 1 end) in D. set (k' := match h_space h with Evex => n' | _ => 1 end).
  clearbody k k'. unfold dec_rm in *. destruct r as [|m r]; [discriminate|]. destruct (m / 64 =? 3) eqn:Q; [exact D|]. exfalso.
  destruct (m mod 8 =? 4).
  - destruct r as [|q r]; [discriminate|]. cbv zeta in D. destruct ((q mod 8 =? 5) && (m / 64 =? 0));
      destruct (dec_disp _ _ r) as [[? ?]|]; discriminate D.
  - destruct ((m mod 8 =? 5) && (m / 64 =? 0)); destruct (dec_disp _ _ r) as [[? ?]|]; discriminate D.
Qed.

(* ---- finding the row ---- *)
Definition wmeet (a b : wclass) : bool := match a, b with W0, W1 | W1, W0 => false | _, _ => true end.
Definition fmeet (f g : form) : bool := (pp_num (f_pp f) =? pp_num (f_pp g)) && (map_num (f_map f) =? map_num (f_map g)) && (f_opc f =? f_opc g) && wmeet (f_W f) (f_W g).
Definition omeet (f g : option form) : bool := match f, g with Some f, Some g => fmeet f g | _, _ => false end.
Definition rmeet (r q : vrow) : bool := omeet (r_vex r) (r_vex q) || omeet (option_map e_form (r_evex r)) (option_map e_form (r_evex q)).
Fixpoint apart (l : list (vrow * meaning)) : bool :=
  match l with [] => true | p :: l => forallb (fun q => negb (rmeet (fst p) (fst q))) l && apart l end.
Lemma form_okb_ok f h : form_okb f h = true <-> form_ok f h.
Proof.
  unfold form_okb, form_ok. split.
  - intros H. repeat (apply andb_prop in H as [H ?]). destruct (h_66 h), (h_F2 h), (h_F3 h), (h_lock h); try discriminate. destruct (h_seg h); [discriminate|].
    repeat split; auto; now apply Z.eqb_eq.
  - intros (-> & -> & -> & -> & -> & -> & -> & -> & ->). now rewrite !Z.eqb_refl.
Qed.
Lemma fmeet_ok f g h : form_ok f h -> form_ok g h -> fmeet f g = true.
Proof.
  intros (A1 & A2 & A3 & A4 & _) (B1 & B2 & B3 & B4 & _). unfold fmeet. rewrite <- A1, <- A2, <- A4, <- B1, <- B2, <- B4, !Z.eqb_refl. cbn.
  destruct (f_W f), (f_W g), (h_W h); auto; discriminate.
Qed.
Lemma is_row_meet h r q : is_row h r = true -> is_row h q = true -> rmeet r q = true.
Proof.
  unfold is_row, form_of, rmeet. destruct (h_space h); try discriminate.
  - destruct (r_vex r) as [f|]; [|discriminate]. destruct (r_vex q) as [g|]; [|discriminate]. intros A B. apply form_okb_ok in A, B. cbn. now rewrite (fmeet_ok f g h A B).
  - destruct (r_evex r) as [f|]; [|discriminate]. destruct (r_evex q) as [g|]; [|discriminate]. cbn [option_map]. intros A B. apply form_okb_ok in A, B. cbn. now rewrite (fmeet_ok _ _ h A B), orb_true_r.
Qed.
Lemma find_row l h row m : apart l = true -> In (row, m) l -> is_row h row = true -> find (fun p => is_row h (fst p)) l = Some (row, m).
Proof.
  induction l as [|p l IH]; [contradiction|]. intros A Hin R. cbn [apart] in A. apply andb_prop in A as [A1 A2]. cbn [find].
  destruct (is_row h (fst p)) eqn:P.
  - destruct Hin as [-> |Hin]; [reflexivity|]. rewrite forallb_forall in A1. specialize (A1 _ Hin). cbn [fst] in A1.
    rewrite (is_row_meet _ _ _ P R) in A1. discriminate A1.
  - destruct Hin as [-> |Hin]; [|auto]. cbn [fst] in P. congruence.
Qed.

(* ---- modifiers ---- *)
Lemma pick_common l v : Forall (fun x => 0 <= x) l -> common l v -> pick l = v.
Proof.
  intros P [F V]. assert (0 <= v) as Hv by (destruct V as [-> |V]; [lia|]; rewrite Forall_forall in P; auto).
  assert (pick l <= v /\ 0 <= pick l) as [U L].
  { clear V. unfold pick. induction F as [|x l Hx F IH]; cbn [fold_right]; [lia|]. inversion P; subst. specialize (IH ltac:(assumption)). lia. }
  destruct V as [V|V]; [lia|]. assert (v <= pick l); [|lia].
  clear - V. unfold pick. induction l as [|x l IH]; [contradiction|]. cbn [fold_right]. destruct V as [-> |V]; [lia|]. specialize (IH V). lia.
Qed.
Lemma pick_zero {A} (f : A -> Z) l : Forall (fun o => f o = 0) l -> pick (map f l) = 0.
Proof. intros F. unfold pick. induction F as [|x l Hx F IH]; [reflexivity|]. cbn [map fold_right]. rewrite Hx, IH. reflexivity. Qed.

(* ---- rows whose meaning can be executed ---- *)
Definition full_L (c : lclass) : bool := match c with Lx | Ly | Lz | Lxy | Lyz | Lxyz => true | _ => false end.
Definition is_LIG (c : lclass) : bool := match c with LIG => true | _ => false end.
Definition fixed (t : tuple) : bool := match t with TFixed _ => true | _ => false end.
Definition good_L (m : meaning) (c : lclass) : bool := full_L c || (is_LIG c && one_lane m).
Definition encb (e : list slot) : bool :=
  match e with [SR; SV; SM] | [SR; SM] | [SM; SR] | [SR; SV; SM; SI] | [SR; SM; SI] => true | _ => false end.
Definition good (row : vrow) (m : meaning) : bool :=
  match r_digit row with None => true | Some _ => false end && encb (r_enc row)
  && match r_vex row with Some f => good_L m (f_L f) | None => true end
  && match r_evex row with
     | Some f => good_L m (f_L (e_form f)) && (full_L (f_L (e_form f)) || fixed (e_tuple f))
                 && match e_bcast f with None => true | Some n => (8 * n =? esize m) && negb (one_lane m) end
     | None => true end.
Lemma vlen_full c vl L : full_L c = true -> L_ok c vl L = true -> vlen L = vl /\ L < 3.
Proof.
  intros F H. assert (vl_in c vl && (L =? (if vl =? 128 then 0 else if vl =? 256 then 1 else 2)) = true) as K by (destruct c; try discriminate F; exact H).
  apply andb_prop in K as [V K]. apply Z.eqb_eq in K. unfold vlen.
  assert (vl = 128 \/ vl = 256 \/ vl = 512) as Q by (destruct c; try discriminate F; cbn in V; lia).
  destruct Q as [-> |[-> | ->]]; subst L; cbn; lia.
Qed.
(* the operands in the slots *)
Definition shaped (m : meaning) (e : list slot) (ops : list Operand) : Prop :=
  let reg o := exists r, o = OReg r /\ opmask r = false in
  let vec o := match o with OReg r => vector r = true /\ opmask r = false /\ is_one m = false | OMem _ => True end in
  let dst o := exists r, o = OReg r /\ opmask r = kdest m in
  match e, ops with
  | [SR; SV; SM], [d; a; b] | [SR; SV; SM; SI], [d; a; b] => dst d /\ reg a /\ vec b
  | [SR; SM], [d; b] | [SR; SM; SI], [d; b] => dst d /\ vec b
  | [SM; SR], [d; b] => vec d /\ reg b /\ kdest m = false
  | _, _ => False end.

Lemma perform_one m vl vl' rnd imm k z bc d src s : one_lane m = true -> perform m vl rnd imm k z bc d src s = perform m vl' rnd imm k z bc d src s.
Proof. destruct m; intros H; try discriminate H; reflexivity. Qed.

Definition slots (row : vrow) : list slot := filter (fun sl => negb (slot_eqb SI sl)) (r_enc row).
Lemma places row m ops h reg rm rip x : shaped m (r_enc row) ops -> encb (r_enc row) = true ->
  reg = slot_reg (at_slot SR (r_enc row) ops) -> h_V h = slot_reg (at_slot SV (r_enc row) ops) ->
  rm_is (match at_slot SM (r_enc row) ops with Some op => op | None => OReg noReg end) h rm ->
  exists ds ss d os, slots row = ds :: ss /\ ops = d :: os /\ place m h reg rm rip x ds = where_ x d
    /\ map (place m h reg rm rip x) ss = map (where_ x) os
    /\ at_slot S4 (r_enc row) ops = None /\ is_one m && (match rm with RReg _ _ => true | RMem _ => false end) = false
    /\ existsb bcast ops = bcast (match at_slot SM (r_enc row) ops with Some op => op | None => OReg noReg end)
    /\ (existsb (slot_eqb SV) (r_enc row) = false -> h_V h = 0).
Proof.
  unfold slots. intros Sh En Hreg HV Hrm.
  assert (forall b h rm, match b with OReg r => vector r = true /\ opmask r = false /\ is_one m = false | OMem _ => True end -> rm_is b h rm ->
    place m h reg rm rip x SM = where_ x b /\ is_one m && (match rm with RReg _ _ => true | RMem _ => false end) = false) as PM.
  { clear. intros b h rm Hb H. destruct b as [r|a], rm as [g v|mm0]; cbn in H |- *; try contradiction.
    - destruct Hb as (Hv & Ho & Hn). rewrite Hv in H. now rewrite Ho, H, Hn.
    - now rewrite (H (rg x) rip), andb_false_r. }
  assert (forall r, opmask r = kdest m -> place m h (regno r) rm rip x SR = where_ x (OReg r)) as PR.
  { intros r Hr. cbn. now rewrite Hr. }
  assert (forall r, opmask r = false -> h_V h = regno r -> place m h reg rm rip x SV = where_ x (OReg r)) as PV.
  { intros r Hr Hq. cbn. now rewrite Hr, Hq. }
  destruct (r_enc row) as [|[] [|[] [|[] [|[] [|? ?]]]]]; try discriminate En; cbn [shaped] in Sh;
    destruct ops as [|d [|a [|b [|? ?]]]]; try contradiction; cbn [at_slot slot_eqb slot_reg] in *;
    cbn [filter negb slot_eqb existsb orb].
  - destruct Sh as ((rd & -> & Hd) & (ra & -> & Ha) & Hb). cbn [slot_reg] in *. subst reg.
    exists SR, [SV; SM], (OReg rd), [OReg ra; b]. cbn [map]. destruct (PM _ _ _ Hb Hrm) as [-> PO]. rewrite (PR _ Hd), (PV _ Ha HV), orb_false_r. repeat split; auto. discriminate.
  - destruct Sh as ((rd & -> & Hd) & (ra & -> & Ha) & Hb). cbn [slot_reg] in *. subst reg.
    exists SR, [SV; SM], (OReg rd), [OReg ra; b]. cbn [map]. destruct (PM _ _ _ Hb Hrm) as [-> PO]. rewrite (PR _ Hd), (PV _ Ha HV), orb_false_r. repeat split; auto. discriminate.
  - destruct Sh as ((rd & -> & Hd) & Hb). cbn [slot_reg] in *. subst reg.
    exists SR, [SM], (OReg rd), [a]. cbn [map]. destruct (PM _ _ _ Hb Hrm) as [-> PO]. rewrite (PR _ Hd), orb_false_r. repeat split; auto.
  - destruct Sh as ((rd & -> & Hd) & Hb). cbn [slot_reg] in *. subst reg.
    exists SR, [SM], (OReg rd), [a]. cbn [map]. destruct (PM _ _ _ Hb Hrm) as [-> PO]. rewrite (PR _ Hd), orb_false_r. repeat split; auto.
  - destruct Sh as (Hb & (ra & -> & Ha) & Hk). cbn [slot_reg] in *. subst reg.
    exists SM, [SR], d, [OReg ra]. cbn [map]. destruct (PM _ _ _ Hb Hrm) as [-> PO]. rewrite (PR ra) by congruence. cbn [bcast]. rewrite !orb_false_r. repeat split; auto.
Qed.

Theorem says_exec isa row m vl ops imm bs rest rip x :
  apart isa = true -> In (row, m) isa -> good row m = true -> shaped m (r_enc row) ops ->
  Forall (fun o => 0 <= omask o /\ 0 <= ornd o <= 5) ops -> zero_ok ops ->
  (pick (map ornd ops) <> 0 -> vl = 512 \/ one_lane m = true) ->
  says row vl ops imm bs rest ->
  vexec isa rip (bs ++ rest) x = Some (rest, means m vl (if existsb (slot_eqb SI) (r_enc row) then imm else 0) ops x).
Proof.
  intros Ap Hin G Sh Hm Hz Hr Hs. unfold good in G. apply andb_prop in G as [G Ge]. apply andb_prop in G as [G Gv]. apply andb_prop in G as [Gd Gn].
  unfold says in Hs. destruct (r_digit row) eqn:Hd; [discriminate Gd|]. clear Gd.
  assert (forall L vl', good_L m L = true -> forall vl, (full_L L = true -> vl' = vl) -> forall rnd imm k z bc d src s,
     perform m vl' rnd imm k z bc d src s = perform m vl rnd imm k z bc d src s) as Pvl.
  { intros L vl' Hg vl0 Hf rnd im k z bc d src s. unfold good_L in Hg. destruct (full_L L); [now rewrite Hf|].
    cbn in Hg. apply andb_prop in Hg as [_ Hg]. now apply perform_one. }
  destruct Hs as [(f & h & rm & Hrow & Hdec & Hsp & Hf & HL & HV & Hrm & Hb & Hmods) | (f & h & rm & rnd & Hrow & Hdec & Hsp & Hf & HV & Hrm & Hvl & Hbc & Hk & Hzz & Hrn & Hro & Hr0 & Hr5 & Hr4)].
  - (* VEX *)
    destruct (decode_header _ _ _ _ _ _ _ Hdec) as [r Hh]. unfold vexec. rewrite Hh.
    assert (form_of h row = Some f) as Fo by (unfold form_of; rewrite Hsp; exact Hrow).
    assert (is_row h row = true) as Ir by (unfold is_row; rewrite Fo; now apply form_okb_ok).
    rewrite (find_row _ _ _ _ Ap Hin Ir).
    rewrite (decode_vex _ (match r_evex row with Some f0 => disp8_factor (e_tuple f0) (vlen (h_L h)) (if h_b h then match r_evex row with Some f1 => e_bcast f1 | None => None end else None) | None => 1 end) _ _ _ _ _ Hdec Hsp).
    destruct (places row m ops h _ rm rip x Sh Gn eq_refl HV Hrm) as (ds & ss & d & os & Hss & Hops & Pd & Ps & P4 & PO & Pb & PV).
    fold (slots row). rewrite Hss. assert (is_vexs h = true) as Vx by (unfold is_vexs; now rewrite Hsp). rewrite Vx. cbn [negb andb].
    rewrite P4 in Hdec |- *.
    assert ((3 <=? h_L h) && negb (ignores_L h row) = false) as U1.
    { rewrite Hrow in Gv. unfold ignores_L. rewrite Fo. unfold good_L in Gv. destruct (full_L (f_L f)) eqn:F.
      - destruct (vlen_full _ _ _ F HL) as [_ Q]. now replace (3 <=? h_L h) with false by lia.
      - cbn in Gv. apply andb_prop in Gv as [Gv _]. destruct (f_L f); try discriminate Gv. cbn. apply andb_false_r. }
    rewrite andb_true_r, U1.
    assert (negb (existsb (slot_eqb SV) (r_enc row)) && negb (h_V h =? 0) = false) as U2.
    { destruct (existsb (slot_eqb SV) (r_enc row)); [reflexivity|]. now rewrite PV. }
    rewrite U2, PO. clear U1 U2.
    assert (pick (map omask ops) = 0) as K0. { apply pick_zero. eapply Forall_impl; [|exact Hmods]. cbn. tauto. }
    assert (pick (map ornd ops) = 0) as R0. { apply pick_zero. eapply Forall_impl; [|exact Hmods]. cbn. tauto. }
    rewrite Hrow in Gv. unfold means. rewrite Hops. rewrite <- Hops, K0, R0, Pb, Hb. cbn [Z.eqb negb andb]. rewrite <- Pd, <- Ps.
    destruct (existsb (slot_eqb SI) (r_enc row)); cbn [app]; do 2 f_equal; apply (Pvl (f_L f)); auto; intros F; apply (vlen_full _ _ _ F HL).
  - (* EVEX *)
    rewrite Hrow in Ge. apply andb_prop in Ge as [Ge Gb]. apply andb_prop in Ge as [Ge Gt].
    destruct (decode_header _ _ _ _ _ _ _ Hdec) as [r Hh]. unfold vexec. rewrite Hh.
    assert (form_of h row = Some (e_form f)) as Fo by (unfold form_of; rewrite Hsp, Hrow; reflexivity).
    assert (is_row h row = true) as Ir by (unfold is_row; rewrite Fo; now apply form_okb_ok).
    rewrite (find_row _ _ _ _ Ap Hin Ir), Hrow.
    destruct (places row m ops h _ rm rip x Sh Gn eq_refl HV Hrm) as (ds & ss & d & os & Hss & Hops & Pd & Ps & P4 & PO & Pb & PV).
    set (op := match at_slot SM (r_enc row) ops with Some op => op | None => OReg noReg end) in *.
    set (inreg := match rm with RReg _ _ => true | RMem _ => false end).
    assert (inreg = match op with OReg _ => true | OMem _ => false end) as Hin2.
    { unfold inreg, rm_is in *. destruct op, rm; try contradiction; reflexivity. }
    assert (pick (map omask ops) = h_aaa h) as K0.
    { apply pick_common; [|exact Hk]. apply Forall_map. eapply Forall_impl; [|exact Hm]. cbn. tauto. }
    assert (pick (map ornd ops) = rnd) as R0.
    { apply pick_common; [|exact Hrn]. apply Forall_map. eapply Forall_impl; [|exact Hm]. cbn. lia. }
    assert (0 <= rnd <= 5) as Rr.
    { destruct Hrn as [_ [-> |Hi]]; [lia|]. apply in_map_iff in Hi as (o & <- & Ho). rewrite Forall_forall in Hm. apply Hm in Ho. lia. }
    assert (h_b h && inreg = negb (rnd =? 0)) as Hbi.
    { destruct (Z.eqb_spec rnd 0) as [Q|Q]; cbn [negb].
      - destruct (Hr0 Q) as [-> _]. rewrite Hin2. destruct op; [reflexivity|apply andb_false_r].
      - destruct (Hro Q) as [ro Ho]. rewrite Hin2, Ho, andb_true_r. destruct (Z.eqb_spec rnd 5) as [Q5|Q5]; [apply (Hr5 Q5)|apply Hr4; lia]. }
    assert (h_b h && negb inreg = bcast op) as Hbm.
    { rewrite Hin2. destruct op as [ro|a] eqn:Eo; cbn [negb]; [rewrite andb_false_r; reflexivity|]. rewrite andb_true_r.
      destruct (Z.eq_dec rnd 0) as [Q|Q]; [apply (Hr0 Q)|]. destruct (Hro Q); discriminate. }
    assert (full_L (f_L (e_form f)) = true -> rnd = 0 -> vlen (h_L h) = vl /\ h_L h < 3) as HL.
    { intros F Q. apply (vlen_full _ _ _ F). apply (Hr0 Q). }
    assert (decode false (disp8_factor (e_tuple f) (vlen (h_L h)) (if h_b h then e_bcast f else None)) (bs ++ rest) = Some (h, slot_reg (at_slot SR (r_enc row) ops), rm, (match at_slot S4 (r_enc row) ops with
              | Some (OReg r) => [16 * regno r]
              | _ => if existsb (slot_eqb SI) (r_enc row) then [imm] else [] end) ++ rest)) as Hdec2.
    { destruct rm as [g v|mo]; [exact (decode_reg _ _ _ _ _ _ _ _ Hdec)|]. destruct op as [ro|a] eqn:Eo; [contradiction|].
      assert (rnd = 0) as Q by (destruct (Z.eq_dec rnd 0) as [Q|Q]; [exact Q|destruct (Hro Q); discriminate]).
      destruct (Hr0 Q) as [Qb QL]. rewrite Qb. rewrite <- Hdec. f_equal. destruct (full_L (f_L (e_form f))) eqn:F.
      - now rewrite (proj1 (HL eq_refl Q)).
      - cbn in Gt. destruct (e_tuple f); try discriminate Gt. reflexivity. }
    rewrite Hdec2, P4. fold (slots row). rewrite Hss. fold inreg.
    assert (is_vexs h = false) as Vx by (unfold is_vexs; now rewrite Hsp). rewrite Vx. cbn [negb andb]. rewrite Hbi, Hbm.
    assert ((3 <=? h_L h) && negb (negb (rnd =? 0)) && negb (ignores_L h row) = false) as U1.
    { rewrite negb_involutive. destruct (Z.eqb_spec rnd 0) as [Q|Q]; [|now rewrite andb_false_r]. rewrite andb_true_r.
      unfold ignores_L. rewrite Fo. unfold good_L in Ge. destruct (full_L (f_L (e_form f))) eqn:F.
      - destruct (HL eq_refl Q) as [_ Q']. now replace (3 <=? h_L h) with false by lia.
      - cbn in Ge. apply andb_prop in Ge as [Ge _]. destruct (f_L (e_form f)); try discriminate Ge. cbn. apply andb_false_r. }
    assert (negb (existsb (slot_eqb SV) (r_enc row)) && negb (h_V h =? 0) = false) as U2.
    { destruct (existsb (slot_eqb SV) (r_enc row)); [reflexivity|]. now rewrite PV. }
    assert (h_z h && ((h_aaa h =? 0) || match place m h (slot_reg (at_slot SR (r_enc row) ops)) rm rip x ds with XReg _ => false | _ => true end) = false) as U3.
    { rewrite Hzz, Pd. destruct (h_aaa h =? 0); [reflexivity|]. cbn [negb andb orb]. destruct (existsb ozero ops) eqn:Z0; [|reflexivity].
      specialize (Hz Z0). rewrite Hops in Hz. destruct d as [rd|]; [|contradiction]. cbn. now rewrite Hz. }
    assert (negb (rnd =? 0) && match e_rc f with NoRc => true | _ => false end = false) as U4.
    { destruct (Z.eqb_spec rnd 0) as [Q|Q]; [reflexivity|]. destruct (Z.eqb_spec rnd 5) as [Q5|Q5]; [destruct (Hr5 Q5) as [-> _]|destruct Hr4 as [-> _]; [lia|]]; reflexivity. }
    assert (bcast op && match e_bcast f with None => true | _ => false end = false) as U5.
    { destruct (bcast op); [|reflexivity]. destruct (e_bcast f); [reflexivity|]. destruct Hbc; auto. }
    fold inreg in PO. rewrite U1, U2, U3, U4, U5, PO. clear U1 U2 U3 U4 U5.
    assert ((if negb (rnd =? 0) then match e_rc f with Er => h_L h + 1 | Sae => 5 | NoRc => 0 end else 0) = rnd) as Qr.
    { destruct (Z.eqb_spec rnd 0) as [Q|Q]; [auto|]. cbn. destruct (Z.eqb_spec rnd 5) as [Q5|Q5]; [destruct (Hr5 Q5) as [-> _]; auto|destruct Hr4 as (-> & _ & ->); lia]. }
    rewrite Qr. unfold means. rewrite Hops. rewrite <- Hops, K0, R0, Pb, <- Pd, <- Ps, Hzz.
    assert (forall im, perform m (if negb (rnd =? 0) then 512 else vlen (h_L h)) rnd im (h_aaa h) (negb (h_aaa h =? 0) && existsb ozero ops) (bcast op)
       (place m h (slot_reg (at_slot SR (r_enc row) ops)) rm rip x ds) (map (place m h (slot_reg (at_slot SR (r_enc row) ops)) rm rip x) ss) x =
       perform m vl rnd im (h_aaa h) (negb (h_aaa h =? 0) && existsb ozero ops) (bcast op)
       (place m h (slot_reg (at_slot SR (r_enc row) ops)) rm rip x ds) (map (place m h (slot_reg (at_slot SR (r_enc row) ops)) rm rip x) ss) x) as Pp.
    { intros im. destruct (Z.eqb_spec rnd 0) as [Q|Q]; cbn [negb].
      - apply (Pvl (f_L (e_form f))); auto. intros F. apply (HL F Q).
      - rewrite R0 in Hr. destruct (Hr Q) as [-> |Ho]; [reflexivity|]. now apply perform_one. }
    destruct (existsb (slot_eqb SI) (r_enc row)); cbn [app]; rewrite Pp; reflexivity.
Qed.
