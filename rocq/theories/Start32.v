(* The 32-bit build: what the encoder helpers emit begins alike in both modes. *)
From Coq Require Import ZArith List Bool Lia.
From Verif Require Import Base Types Emit EmitFacts MemFacts LegacyFacts SpecX86 Encode Encode32 Spec32 SpecB32 SpecStart32 Sim32 Sim32b.
Import ListNotations.
Open Scope Z_scope.

(* ---- decoding ---- *)
Lemma scan_leg bs : forall p, starts_leg bs = true -> p_67 p = false ->
  exists p' b r, scan_prefixes p bs = (p', b :: r) /\ p_67 p' = false /\ plain b = true.
Proof.
  induction bs as [|b r IH]; intros p H P; [discriminate H|]. cbn [starts_leg] in H. cbn [scan_prefixes].
  destruct ((b =? 102) || (b =? 242) || (b =? 243)) eqn:Q.
  - apply orb_true_iff in Q as [Q|Q]; [apply orb_true_iff in Q as [Q|Q]|]; apply Z.eqb_eq in Q; subst b; cbn; apply IH; auto.
  - exists p, b, r. split; [|auto]. assert (prefix_step p b = None) as ->; [|reflexivity].
    unfold plain in H. apply andb_true_iff in H as [_ H]. apply negb_true_iff in H. cbn [existsb] in H. repeat (apply orb_false_iff in H as [? H]).
    unfold prefix_step. repeat match goal with K : (b =? _) = false |- _ => rewrite K; clear K end. reflexivity.
Qed.
Lemma vexbits q : is_byte q = true -> tb q 7 = true -> tb q 6 = true -> (0xC0 <=? q) = true /\ 15 - q / 8 mod 16 = 7 - q / 8 mod 8.
Proof.
  intros B H7 H6. unfold is_byte in B. apply andb_true_iff in B as [B1 B2]. apply Z.leb_le in B1. apply Z.ltb_lt in B2.
  assert (K : forallb (fun n => let q := Z.of_nat n in negb (tb q 7 && tb q 6) || ((0xC0 <=? q) && (15 - q / 8 mod 16 =? 7 - q / 8 mod 8))) (seq 0 256) = true) by (vm_compute; reflexivity).
  rewrite forallb_forall in K. specialize (K (Z.to_nat q)). cbv zeta in K. rewrite Z2Nat.id in K by lia.
  rewrite H7, H6 in K. specialize (K ltac:(apply in_seq; lia)). cbn in K. apply andb_true_iff in K as [K1 K2]. split; [exact K1|now apply Z.eqb_eq].
Qed.
Lemma vvvv q : is_byte q = true -> tb q 6 = true -> 15 - q / 8 mod 16 = 7 - q / 8 mod 8.
Proof.
  intros B H6. unfold is_byte in B. apply andb_true_iff in B as [B1 B2]. apply Z.leb_le in B1. apply Z.ltb_lt in B2.
  assert (K : forallb (fun n => let q := Z.of_nat n in negb (tb q 6) || (15 - q / 8 mod 16 =? 7 - q / 8 mod 8)) (seq 0 256) = true) by (vm_compute; reflexivity).
  rewrite forallb_forall in K. specialize (K (Z.to_nat q)). cbv zeta in K. rewrite Z2Nat.id in K by lia.
  rewrite H6 in K. specialize (K ltac:(apply in_seq; lia)). cbn in K. now apply Z.eqb_eq.
Qed.
Lemma some_pair {A B} (a c : A) (b d : B) : Some (a, b) = Some (c, d) -> a = c /\ b = d. Proof. intros H. injection H as -> ->. auto. Qed.
Lemma header_alike bs h r : starts32 bs = true -> dec_header bs = Some (h, r) -> dec_header32 bs = Some (no_rex h, r).
Proof.
  intros H. unfold starts32 in H. destruct (starts_leg bs) eqn:L.
  - destruct (scan_leg bs pfx0 L eq_refl) as (p & b & t & E0 & P & B). unfold dec_header, dec_header32. rewrite E0, P.
    unfold plain in B. apply andb_true_iff in B as [B1 B]. apply negb_true_iff in B1, B. cbn [existsb] in B. repeat (apply orb_false_iff in B as [? B]).
    rewrite B1. repeat match goal with K : (b =? _) = false |- _ => rewrite K; clear K end. cbn [orb andb]. rewrite andb_false_r.
    unfold dec_legacy. destruct (dec_opcode (b :: t)) as [[[m o] t']|]; [|discriminate]. intros K. apply some_pair in K as [<- <-]. reflexivity.
  - cbn [orb] in H. clear L. destruct bs as [|b bs]; [discriminate H|]. destruct bs as [|q1 bs]; [discriminate H|]. cbn [starts_vex] in H.
    destruct (Z.eqb_spec b 0xC5) as [->|N5].
    { apply andb_true_iff in H as [H H6]. apply andb_true_iff in H as [B H7]. destruct (vexbits q1 B H7 H6) as [C V].
      unfold dec_header, dec_header32. cbn [scan_prefixes]. change (prefix_step pfx0 197) with (@None prefixes). cbn -[tb Z.div Z.modulo Z.sub]; fold (192 <=? q1) in *. rewrite C. cbn -[tb Z.div Z.modulo Z.sub].
      destruct bs as [|o t]; [discriminate|]. intros K. apply some_pair in K as [<- <-]. rewrite H7, V. reflexivity. }
    destruct bs as [|q2 bs]; [discriminate H|]. destruct (Z.eqb_spec b 0xC4) as [->|N4].
    { repeat match goal with K : _ && _ = true |- _ => apply andb_true_iff in K as [K ?] end.
      destruct (vexbits q1) as [C _]; auto. pose proof (vvvv q2) as V. unfold dec_header, dec_header32. cbn [scan_prefixes].
      change (prefix_step pfx0 196) with (@None prefixes). cbn -[tb Z.div Z.modulo Z.sub]; fold (192 <=? q1) in *. rewrite C. cbn -[tb Z.div Z.modulo Z.sub].
      destruct bs as [|o t]; [discriminate|]. intros K. apply some_pair in K as [<- <-].
      specialize (V ltac:(auto) ltac:(auto)). repeat match goal with K : tb _ _ = true |- _ => rewrite K end. cbn -[tb Z.div Z.modulo Z.sub]. repeat match goal with K : tb _ _ = true |- _ => rewrite K end. cbn -[tb Z.div Z.modulo Z.sub]. rewrite V. reflexivity. }
    destruct bs as [|q3 bs]; [discriminate H|]. repeat match goal with K : _ && _ = true |- _ => apply andb_true_iff in K as [K ?] end.
    apply Z.eqb_eq in H; subst b. destruct (vexbits q1) as [C _]; auto. pose proof (vvvv q2) as V. unfold dec_header, dec_header32. cbn [scan_prefixes].
    change (prefix_step pfx0 98) with (@None prefixes). cbn -[tb Z.div Z.modulo Z.sub]; fold (192 <=? q1) in *. rewrite C. cbn -[tb Z.div Z.modulo Z.sub].
    destruct bs as [|o t]; [discriminate|]. intros K. apply some_pair in K as [<- <-].
    specialize (V ltac:(auto) ltac:(auto)). repeat match goal with K : tb _ _ = true |- _ => rewrite K end.
    repeat match goal with K : negb _ = true |- _ => apply negb_true_iff in K; rewrite K end. cbn -[tb Z.div Z.modulo Z.sub]. rewrite V. reflexivity.
Qed.
Lemma leg_norex bs h r : starts32 bs = true -> dec_header bs = Some (h, r) -> h_space h = Legacy -> h_rex h = false.
Proof.
  intros H. unfold starts32 in H. destruct (starts_leg bs) eqn:L.
  - destruct (scan_leg bs pfx0 L eq_refl) as (p & b & t & E0 & P & B). unfold dec_header. rewrite E0.
    unfold plain in B. apply andb_true_iff in B as [B1 B]. apply negb_true_iff in B1, B. cbn [existsb] in B. repeat (apply orb_false_iff in B as [? B]).
    rewrite B1. repeat match goal with K : (b =? _) = false |- _ => rewrite K; clear K end. cbn [orb andb]. rewrite andb_false_r.
    unfold dec_legacy. destruct (dec_opcode (b :: t)) as [[[m o] t']|]; [|discriminate]. intros K. apply some_pair in K as [<- <-]. reflexivity.
  - cbn [orb] in H. clear L. destruct bs as [|b bs]; [discriminate H|]. destruct bs as [|q1 bs]; [discriminate H|]. cbn [starts_vex] in H.
    unfold dec_header. destruct (Z.eqb_spec b 0xC5) as [->|N5].
    { cbn [scan_prefixes]. change (prefix_step pfx0 197) with (@None prefixes). cbn -[tb Z.div Z.modulo Z.sub].
      destruct bs as [|o t]; [discriminate|]. intros K. apply some_pair in K as [<- <-]. discriminate. }
    destruct bs as [|q2 bs]; [discriminate H|]. destruct (Z.eqb_spec b 0xC4) as [->|N4].
    { cbn [scan_prefixes]. change (prefix_step pfx0 196) with (@None prefixes). cbn -[tb Z.div Z.modulo Z.sub].
      destruct bs as [|o t]; [discriminate|]. intros K. apply some_pair in K as [<- <-]. discriminate. }
    destruct bs as [|q3 bs]; [discriminate H|]. repeat match goal with K : _ && _ = true |- _ => apply andb_true_iff in K as [K ?] end.
    apply Z.eqb_eq in H; subst b. cbn [scan_prefixes]. change (prefix_step pfx0 98) with (@None prefixes). cbn -[tb Z.div Z.modulo Z.sub].
    destruct bs as [|o t]; [discriminate|].
    repeat match goal with |- context [if ?b then _ else _] => destruct b; try discriminate end; intros K; apply some_pair in K as [<- <-]; discriminate.
Qed.
Lemma alike_of m : (forall s env pos its u, emits m env pos its u -> forall rest, starts32 (render s its ++ rest) = true) -> alike m.
Proof.
  intros S s env pos its J rest h t D. specialize (S s env pos its tt J rest). split; [exact (header_alike _ _ _ S D)|].
  exact (leg_norex _ _ _ S D).
Qed.
Lemma alike_both m : alike m -> alike m /\ alike_operands m.
Proof.
  intros A. split; [exact A|]. intros s env pos its J rest vsib n8 h reg rm tl D. unfold decode in D. unfold decode32.
  destruct (dec_header (render s its ++ rest)) as [[h0 t]|] eqn:Q; [|discriminate D]. destruct (A _ _ _ _ J _ _ _ Q) as [-> _].
  change (h_space (no_rex h0)) with (h_space h0). change (dec_rm (no_rex h0)) with (dec_rm h0).
  destruct (dec_rm h0 vsib _ t) as [[[rg m0] t']|]; [|discriminate D]. injection D as <- <- <- <-. reflexivity.
Qed.

(* ---- predicates ---- *)
Definition T {A} (m : E A) (Q : list Z -> A -> Prop) : Prop := forall s env pos its a, emits m env pos its a -> Q (render s its) a.
Definition pfx (b : Z) : bool := (b =? 0x66) || (b =? 0xF2) || (b =? 0xF3).
Definition Nn {A} (m : E A) (P : A -> Prop) : Prop := T m (fun bs a => bs = [] /\ P a).             (* emits nothing *)
Definition Pp {A} (m : E A) (P : A -> Prop) : Prop := T m (fun bs a => forallb pfx bs = true /\ P a). (* emits prefixes *)
Definition SL {A} (m : E A) : Prop := T m (fun bs _ => forall rest, starts_leg (bs ++ rest) = true).
Definition SS {A} (m : E A) : Prop := T m (fun bs _ => forall rest, starts32 (bs ++ rest) = true).

Lemma T_fn {A} (d : A) m Q : T m Q -> T (fn d m) Q.
Proof. intros H s env pos its a J. apply emits_fn in J. exact (H _ _ _ _ _ J). Qed.
Lemma T_throw {A} e (Q : list Z -> A -> Prop) : T (throw e) Q.
Proof. intros s env pos its a J. destruct (emits_throw _ _ _ _ _ J). Qed.
Lemma SL_SS {A} (m : E A) : SL m -> SS m.
Proof. intros H s env pos its a J rest. unfold starts32. now rewrite (H _ _ _ _ _ J). Qed.
Lemma SL_head {A B} (m : E A) (f : A -> E B) : SL m -> SL (bind m f).
Proof. intros H s env pos its a J rest. ebind J i1 i2 x J1 J2. rewrite render_app, <- app_assoc. exact (H _ _ _ _ _ J1 _). Qed.
Lemma SS_head {A B} (m : E A) (f : A -> E B) : SS m -> SS (bind m f).
Proof. intros H s env pos its a J rest. ebind J i1 i2 x J1 J2. rewrite render_app, <- app_assoc. exact (H _ _ _ _ _ J1 _). Qed.
Lemma pfx_leg l rest : forallb pfx l = true -> starts_leg rest = true -> starts_leg (l ++ rest) = true.
Proof. induction l as [|b l IH]; [auto|]. cbn [forallb app starts_leg]. unfold pfx at 1. intros H R. apply andb_true_iff in H as [-> H]. auto. Qed.
Lemma SL_pre {A B} (m : E A) P (f : A -> E B) : Pp m P -> (forall x, P x -> SL (f x)) -> SL (bind m f).
Proof. intros H F s env pos its a J rest. ebind J i1 i2 x J1 J2. destruct (H s _ _ _ _ J1) as [Q1 Q2]. rewrite render_app, <- app_assoc. apply pfx_leg; [exact Q1|]. exact (F x Q2 _ _ _ _ _ J2 _). Qed.
Lemma SL_N {A B} (m : E A) P (f : A -> E B) : Nn m P -> (forall x, P x -> SL (f x)) -> SL (bind m f).
Proof. intros H F s env pos its a J rest. ebind J i1 i2 x J1 J2. destruct (H s _ _ _ _ J1) as [Q1 Q2]. rewrite render_app, Q1. exact (F x Q2 _ _ _ _ _ J2 _). Qed.
Lemma SS_N {A B} (m : E A) P (f : A -> E B) : Nn m P -> (forall x, P x -> SS (f x)) -> SS (bind m f).
Proof. intros H F s env pos its a J rest. ebind J i1 i2 x J1 J2. destruct (H s _ _ _ _ J1) as [Q1 Q2]. rewrite render_app, Q1. exact (F x Q2 _ _ _ _ _ J2 _). Qed.
Lemma Pp_bind {A B} (m : E A) P (f : A -> E B) Q : Pp m P -> (forall x, P x -> Pp (f x) Q) -> Pp (bind m f) Q.
Proof. intros H F s env pos its a J. ebind J i1 i2 x J1 J2. destruct (H s _ _ _ _ J1) as [Q1 Q2]. destruct (F x Q2 s _ _ _ _ J2) as [Q3 Q4]. rewrite render_app, forallb_app, Q1, Q3. auto. Qed.
Lemma Nn_bind {A B} (m : E A) P (f : A -> E B) Q : Nn m P -> (forall x, P x -> Nn (f x) Q) -> Nn (bind m f) Q.
Proof. intros H F s env pos its a J. ebind J i1 i2 x J1 J2. destruct (H s _ _ _ _ J1) as [Q1 Q2]. destruct (F x Q2 s _ _ _ _ J2) as [Q3 Q4]. rewrite render_app, Q1, Q3. auto. Qed.
Lemma Nn_ret {A} (x : A) (P : A -> Prop) : P x -> Nn (ret x) P.
Proof. intros H s env pos its a J. apply emits_ret in J as [-> ->]. auto. Qed.
Lemma Pp_ret {A} (x : A) (P : A -> Prop) : P x -> Pp (ret x) P.
Proof. intros H s env pos its a J. apply emits_ret in J as [-> ->]. auto. Qed.
Lemma Pp_db b (P : unit -> Prop) : pfx (w8 b) = true -> P tt -> Pp (db b) P.
Proof. intros H K s env pos its [] J. apply EmitFacts.emits_db in J as ->. cbn. rewrite H. auto. Qed.
Lemma Pp_when (c : bool) b : pfx (w8 b) = true -> Pp (when c do db b) (fun _ => True).
Proof. intros H. destruct c; [now apply Pp_db|now apply Pp_ret]. Qed.
Lemma SL_db b : pfx (w8 b) = false -> plain (w8 b) = true -> SL (db b).
Proof. intros H K s env pos its u J rest. apply EmitFacts.emits_db in J as ->. cbn [render render1 app starts_leg]. unfold pfx in H. now rewrite H. Qed.
Lemma SS_alike m : SS m -> alike m.
Proof. intros H. apply alike_of. exact H. Qed.

(* ---- registers ---- *)
Definition low (r : Reg) : Prop := 0 <= idx_ r < 8.
Lemma low_getIdx r : low r -> getIdx r = idx_ r.
Proof. intros [H1 H2]. unfold getIdx. change 31 with (Z.ones 5). rewrite Z.land_ones by lia. apply Z.mod_small; lia. Qed.
Lemma low_cases (P : Z -> Prop) r : low r -> P 0 -> P 1 -> P 2 -> P 3 -> P 4 -> P 5 -> P 6 -> P 7 -> P (idx_ r).
Proof. intros H. unfold low in H. assert (idx_ r = 0 \/ idx_ r = 1 \/ idx_ r = 2 \/ idx_ r = 3 \/ idx_ r = 4 \/ idx_ r = 5 \/ idx_ r = 6 \/ idx_ r = 7) as Q by lia. intuition congruence. Qed.
Ltac lowc r := let H := fresh in assert (H : low r) by auto; rewrite ?(low_getIdx r H); revert H; generalize (idx_ r).
Lemma low_ext r : low r -> isExtIdx r = false.
Proof. intros H. unfold isExtIdx. rewrite low_getIdx by exact H. now apply (low_cases (fun i => has i 8 = false)). Qed.
Lemma low_ext2 r : low r -> isExtIdx2 r = false.
Proof. intros H. unfold isExtIdx2. rewrite low_getIdx by exact H. now apply (low_cases (fun i => has i 16 = false)). Qed.
Lemma low_ext8 r : low r -> isExt8bit r = false.
Proof. intros H. unfold isExt8bit. now apply (low_cases (fun i => has i EXT8BIT = false)). Qed.
Lemma low_bit3 r : low r -> hasIdxBit r 3 = false.
Proof. intros H. unfold hasIdxBit. now apply (low_cases (fun i => has i (1 <<< 3) = false)). Qed.
Lemma low_rex2 r : low r -> regHasRex2 r = false.
Proof. intros H. unfold regHasRex2. rewrite low_ext2 by exact H. apply andb_false_r. Qed.
Lemma low_noReg : low noReg. Proof. split; cbn; lia. Qed.
Lemma low_base r : base32 r -> low r. Proof. intros [->|(_ & _ & H)]; [apply low_noReg|exact H]. Qed.
Lemma low_index r : index32 r -> low r. Proof. intros [H|[H _]]; [now apply low_base|exact H]. Qed.
Lemma rexRXB_0 r b x : low r -> low b -> low x -> rexRXB 3 false r b x = 0.
Proof. intros R B X. unfold rexRXB. now rewrite !low_bit3. Qed.
Lemma getRegExp_low a : addr32 a -> low (e_base (getRegExp a)) /\ low (e_index (getRegExp a)).
Proof. intros H. destruct (getRegExp_32 a H) as (B & X & _). split; [now apply low_base|now apply low_index]. Qed.
Lemma addr_rex2 a : addr32 a -> addrHasRex2 a = false.
Proof. intros H. unfold addrHasRex2. destruct H as (_ & _ & _ & _ & (B & X & _)). now rewrite !low_rex2 by (auto using low_base, low_index). Qed.

(* an operand without modifiers; a general register has at most 32 bits *)
Definition okr (r : Reg) : Prop := low r /\ nomods r /\ isREGb r 64 = false.
Definition oka (a : Address) : Prop := addr32 a /\ nomods_addr a.
Definition oko (o : Operand) : Prop := match o with OReg r => okr r | OMem a => oka a end.
Lemma oko_bare o : oko o -> nomods (ob o). Proof. destruct o as [r|a]; intros H; [apply H|]. destruct H as (_ & H & _). exact H. Qed.
Lemma oko_rex2 o : oko o -> hasRex2 o = false.
Proof. destruct o as [r|a]; intros H; cbn; [apply low_rex2|apply addr_rex2]; apply H. Qed.
Lemma oko_nfzu o : oko o -> hasRex2NFZU o = false.
Proof. intros H. unfold hasRex2NFZU. rewrite oko_rex2 by exact H. destruct (oko_bare o H) as (_ & -> & ->). reflexivity. Qed.
Lemma okr_noReg : okr noReg. Proof. repeat split; cbn; lia. Qed.
#[global] Hint Resolve low_noReg okr_noReg low_base low_index : st.

Lemma Pp_rex o1 o2 t : oko o1 -> oko o2 -> Pp (rex o1 o2 t) (fun x => x = false).
Proof.
  intros H1 H2. apply T_fn. destruct (oko_bare o1 H1) as (_ & -> & ->), (oko_bare o2 H2) as (_ & -> & ->). cbn [orb].
  assert (Q : forall p1 p2, oko p1 -> oko p2 -> Pp (if isMEM p1 then throw ERR_BAD_COMBINATION else
     let p66 := (oBit o1 16 && negb (oBit o2 i32e)) || (oBit o2 16 && negb (oBit o1 i32e)) in
     when has t T_66 || p66 do db 0x66 ;;; when has t T_F2 do db 0xF2 ;;; when has t T_F3 do db 0xF3 ;;;
     let is0F := has t T_0F in
     match p2 with
     | OMem addr =>
       let r := ob p1 in let e := getRegExp addr in let base := e_base e in let idx := e_index e in
       let rx := rexRXB 3 (isREGb r 64) r base idx in
       if regHasRex2 r || addrHasRex2 addr then
         (if has t (T_0F38 ||| T_0F3A) then throw ERR_CANT_USE_REX2 else rex2 is0F rx r base idx ;;; ret true)
       else
         let rx := if negb (rx =? 0) || isExt8bit r then rx ||| 0x40 else rx in when negb (rx =? 0) do db rx ;;; ret false
     | OReg _ =>
       let r1 := ob o1 in let r2 := ob o2 in
       let rx := rexRXB 3 (isREGb r1 64 || isREGb r2 64) r2 r1 noReg in
       if regHasRex2 r1 || regHasRex2 r2 then
         (if has t (T_0F38 ||| T_0F3A) then throw ERR_CANT_USE_REX2 else rex2 is0F rx r2 r1 noReg ;;; ret true)
       else
         let rx := if negb (rx =? 0) || isExt8bit r1 || isExt8bit r2 then rx ||| 0x40 else rx in when negb (rx =? 0) do db rx ;;; ret false
     end) (fun x => x = false)).
  { intros p1 p2 P1 P2. destruct p1 as [r|a]; cbn [isMEM]; [|apply T_throw]. cbv zeta. do 3 (eapply Pp_bind; [apply Pp_when; reflexivity|intros _ _]).
    destruct p2 as [q|a].
    - assert (K : forall o, oko o -> low (ob o) /\ isREGb (ob o) 64 = false). { clear. intros [r|a] H; [split; apply H|]. destruct H as ((K & R & _) & _). cbn [ob]. split; [apply R|now apply isREGb_64]. }
      destruct (K o1 H1) as [L1 W1], (K o2 H2) as [L2 W2]. rewrite W1, W2, rexRXB_0, !low_rex2, !low_ext8 by auto with st. cbn. now apply Pp_ret.
    - destruct P1 as (L & _ & W), P2 as (A & _). cbn [ob]. destruct (getRegExp_low a A) as [B X]. rewrite W, rexRXB_0, low_rex2, low_ext8, addr_rex2 by auto. cbn. now apply Pp_ret. }
  destruct (isMEM o1); [now apply (Q o2 o1)|now apply (Q o1 o2)].
Qed.
(* the opcode: with an escape byte, or plain with and without bit 0 *)
Definition codeok (t c : Z) : bool := negb (has t T_APX) && has t (T_0F ||| T_0F38 ||| T_0F3A) || (let c1 := w8 c in let c2 := w8 (c ||| 1) in negb (pfx c1) && negb (pfx c2) && plain c1 && plain c2).
Lemma SL_ret {A B} (x : A) (f : A -> E B) : SL (f x) -> SL (bind (ret x) f).
Proof. intros H. eapply SL_N; [apply (Nn_ret x (fun y => y = x) eq_refl)|]. intros y ->. exact H. Qed.
Lemma SS_ret {A B} (x : A) (f : A -> E B) : SS (f x) -> SS (bind (ret x) f).
Proof. intros H. eapply SS_N; [apply (Nn_ret x (fun y => y = x) eq_refl)|]. intros y ->. exact H. Qed.
Lemma SL_writeCode t r c : codeok t c = true -> SL (writeCode t r c false).
Proof.
  intros H. unfold writeCode. rewrite orb_false_r. unfold codeok in H.
  assert (P : SL (db 0x0F)) by (apply SL_db; reflexivity).
  assert (R : (let c1 := w8 c in let c2 := w8 (c ||| 1) in negb (pfx c1) && negb (pfx c2) && plain c1 && plain c2) = true -> forall b,
    SL (ret tt;;; db (c ||| b2z b))).
  { cbv zeta. intros K b. apply SL_ret. apply andb_true_iff in K as [K K4]. apply andb_true_iff in K as [K K3]. apply andb_true_iff in K as [K1 K2]. apply negb_true_iff in K1, K2. destruct b; cbn [b2z].
    - now apply SL_db.
    - rewrite Z.lor_0_r. now apply SL_db. }
  destruct (has t T_APX) eqn:X; cbn [negb andb orb] in *; [now apply R|].
  destruct (has t T_0F) eqn:A1; [now apply SL_head|]. destruct (has t T_0F38) eqn:A2; [now apply SL_head, SL_head|]. destruct (has t T_0F3A) eqn:A3; [now apply SL_head, SL_head|].
  apply R. replace (has t (T_0F ||| T_0F38 ||| T_0F3A)) with false in H; [exact H|]. symmetry. unfold has in *. apply negb_false_iff, Z.eqb_eq in A1, A2, A3. apply negb_false_iff, Z.eqb_eq.
  now rewrite !Z.land_lor_distr_r, A1, A2, A3.
Qed.
(* ---- VEX and EVEX ---- *)
Lemma SS_db2 {B} a b (f : unit -> E B) : (forall rest, starts32 (w8 a :: w8 b :: rest) = true) -> SS (bind (db a ;;; db b) f).
Proof. intros H. apply SS_head. intros s env pos its u J rest. ebind J i1 i2 x J1 J2. apply EmitFacts.emits_db in J1 as ->, J2 as ->. apply H. Qed.
Lemma SS_db3 {B} a b c (f : unit -> E B) : (forall rest, starts32 (w8 a :: w8 b :: w8 c :: rest) = true) -> SS (bind (db a ;;; db b ;;; db c) f).
Proof. intros H. apply SS_head. intros s env pos its u J rest. ebind J i1 i2 x J1 J2. ebind J2 i3 i4 y J2 J3. apply EmitFacts.emits_db in J1 as ->, J2 as ->, J3 as ->. apply H. Qed.
Lemma SS_db4 {B} a b c d (f : unit -> E B) : (forall rest, starts32 (w8 a :: w8 b :: w8 c :: w8 d :: rest) = true) -> SS (db a ;;; db b ;;; db c ;;; bind (db d) f).
Proof. intros H s env pos its u J rest. ebind J i1 i2 x J1 J2. ebind J2 i3 i4 y J2 J3. ebind J3 i5 i6 z J3 J4. ebind J4 i7 i8 w J4 J5. apply EmitFacts.emits_db in J1 as ->, J2 as ->, J3 as ->, J4 as ->. rewrite !render_app. cbn [render render1 app]. apply H. Qed.
Lemma pp_cases (P : Z -> Prop) t : P 0 -> P 1 -> P 2 -> P 3 -> P (getPP t).
Proof. intros. unfold getPP. destruct (has t T_66), (has t T_F3), (has t T_F2); assumption. Qed.
Lemma map_cases (P : Z -> Prop) t : P 0 -> P 1 -> P 2 -> P 3 -> P (getMap t).
Proof. intros. unfold getMap. destruct (has t T_0F), (has t T_0F38), (has t T_0F3A); assumption. Qed.
Lemma land7_cases (P : Z -> Prop) a : P 0 -> P 1 -> P 2 -> P 3 -> P 4 -> P 5 -> P 6 -> P 7 -> P (a &&& 7).
Proof. intros. change 7 with (Z.ones 3). rewrite Z.land_ones by lia. pose proof (Z.mod_pos_bound a (2 ^ 3) ltac:(lia)) as Q. change (2 ^ 3) with 8 in *.
  assert (a mod 8 = 0 \/ a mod 8 = 1 \/ a mod 8 = 2 \/ a mod 8 = 3 \/ a mod 8 = 4 \/ a mod 8 = 5 \/ a mod 8 = 6 \/ a mod 8 = 7) as K by lia. intuition congruence. Qed.
Definition lowv (v : option Reg) : Prop := match v with Some v => low v | None => True end.
Definition barev (v : option Reg) : Prop := match v with Some v => nomods v | None => True end.
Lemma lowv_cases (P : Z -> Prop) v : lowv v -> P 0 -> P 1 -> P 2 -> P 3 -> P 4 -> P 5 -> P 6 -> P 7 -> P (match v with Some v => getIdx v | None => 0 end).
Proof. intros H. destruct v as [v|]; [|auto]. rewrite low_getIdx by exact H. now apply low_cases. Qed.
Lemma SS_vex reg base v t c : low reg -> low base -> lowv v -> SS (vex reg base v t c false).
Proof.
  intros R B V. apply T_fn. rewrite !low_ext by assumption. cbv zeta. destruct (16 <=? _); [apply T_throw|].
  generalize (if has t T_L1 then true else if has t T_L0 then false else isYMM reg) as l. intros l.
  cbn [negb andb]. destruct ((b2z (has t T_W1) =? 0) && has t T_0F).
  - apply SS_db2. intros rest. apply (lowv_cases (fun i => starts32 (w8 197 :: w8 (128 ||| ((Z.lnot i &&& 15) <<< 3 ||| (if l then 4 else 0) ||| getPP t)) :: rest) = true) v V);
      apply (pp_cases (fun p => starts32 (w8 197 :: w8 (128 ||| (_ <<< 3 ||| (if l then 4 else 0) ||| p)) :: rest) = true)); destruct l; reflexivity.
  - apply SS_db3. intros rest. 
    apply (lowv_cases (fun i => starts32 (w8 196 :: w8 (128 ||| 64 ||| 32 ||| getMap t) :: w8 (b2z (has t T_W1) <<< 7 ||| ((Z.lnot i &&& 15) <<< 3 ||| (if l then 4 else 0) ||| getPP t)) :: rest) = true) v V);
      apply (pp_cases (fun p => starts32 (w8 196 :: w8 (128 ||| 64 ||| 32 ||| getMap t) :: w8 (b2z (has t T_W1) <<< 7 ||| (_ <<< 3 ||| (if l then 4 else 0) ||| p)) :: rest) = true));
      apply (map_cases (fun m => starts32 (w8 196 :: w8 (128 ||| 64 ||| 32 ||| m) :: w8 (b2z (has t T_W1) <<< 7 ||| (_ <<< 3 ||| (if l then 4 else 0) ||| _)) :: rest) = true)); destruct l, (has t T_W1); reflexivity.
Qed.
Definition mapok (t : Z) : bool := negb (getMap t ||| (if has t T_FP16 then 4 else 0) =? 4).
Lemma Nn_dup a b c e : Nn (verifyDuplicate a b c e) (fun v => v = a ||| b ||| c).
Proof. apply T_fn. cbv zeta. destruct (_ || _); [apply T_throw|]. now apply Nn_ret. Qed.
Lemma q1ok (t : Z) : mapok t = true -> let q := w8 (128 ||| 64 ||| 32 ||| 16 ||| 0 ||| (getMap t ||| (if has t T_FP16 then 4 else 0))) in
  is_byte q && tb q 7 && tb q 6 && tb q 5 && tb q 4 && negb (tb q 3) && negb (q mod 8 =? 4) = true.
Proof. unfold mapok. apply (map_cases (fun m => negb (m ||| (if has t T_FP16 then 4 else 0) =? 4) = true -> let q := w8 (128 ||| 64 ||| 32 ||| 16 ||| 0 ||| (m ||| (if has t T_FP16 then 4 else 0))) in
  is_byte q && tb q 7 && tb q 6 && tb q 5 && tb q 4 && negb (tb q 3) && negb (q mod 8 =? 4) = true)); destruct (has t T_FP16); intros H; try discriminate H; reflexivity. Qed.
Lemma q2ok (w : bool) v t : lowv v -> let q := w8 ((if w then 128 else 0) ||| ((Z.lnot (match v with Some v => getIdx v | None => 0 end) &&& 15) <<< 3) ||| 4 ||| (getPP t &&& 3)) in
  is_byte q && tb q 6 && tb q 2 = true.
Proof. intros V. apply (lowv_cases (fun i => let q := w8 ((if w then 128 else 0) ||| ((Z.lnot i &&& 15) <<< 3) ||| 4 ||| (getPP t &&& 3)) in is_byte q && tb q 6 && tb q 2 = true) v V);
  apply (pp_cases (fun p => let q := w8 ((if w then 128 else 0) ||| (_ <<< 3) ||| 4 ||| (p &&& 3)) in is_byte q && tb q 6 && tb q 2 = true)); destruct w; reflexivity. Qed.
Lemma q3ok (z b : bool) L a : L = 0 \/ L = 1 \/ L = 2 -> let q := w8 ((if z then 128 else 0) ||| ((L &&& 3) <<< 5) ||| (if b then 16 else 0) ||| 8 ||| (a &&& 7)) in is_byte q && tb q 3 = true.
Proof. intros H. apply (land7_cases (fun i => let q := w8 ((if z then 128 else 0) ||| ((L &&& 3) <<< 5) ||| (if b then 16 else 0) ||| 8 ||| i) in is_byte q && tb q 3 = true)); destruct H as [->|[->| ->]], z, b; reflexivity. Qed.
Lemma vex4 q1 q2 q3 rest : is_byte q1 && tb q1 7 && tb q1 6 && tb q1 5 && tb q1 4 && negb (tb q1 3) && negb (q1 mod 8 =? 4) = true -> is_byte q2 && tb q2 6 && tb q2 2 = true -> is_byte q3 && tb q3 3 = true ->
  starts32 (0x62 :: q1 :: q2 :: q3 :: rest) = true.
Proof.
  intros H1 H2 H3. unfold is_byte in *. unfold starts32. apply orb_true_iff. right. unfold starts_vex, is_byte. change (98 =? 197) with false. change (98 =? 196) with false. change (98 =? 98) with true. cbv iota.
  repeat match goal with K : _ && _ = true |- _ => apply andb_true_iff in K as [K ?] end. repeat (apply andb_true_iff; split); try assumption; try reflexivity.
Qed.
Lemma SS_evex reg base v t c x b0 aaa0 VL : low reg -> low base -> lowv v -> lowv x -> nomods reg -> nomods base -> barev v -> mapok t = true -> SS (evex reg base v t c x b0 aaa0 VL false).
Proof.
  intros R B V X (R0 & _) (B0 & _) V0 Mp. apply T_fn. destruct (negb (has t _)); [apply T_throw|]. cbv zeta. rewrite !low_ext, !low_ext2, R0, B0 by assumption.
  rewrite !andb_false_r, ?orb_false_r. assert (rounding0 : match v with Some v => rounding_ v | None => 0 end = 0) by (destruct v; [apply V0|reflexivity]). rewrite rounding0.
  assert ((match x with Some x => isExtIdx x | None => false end) = false) as -> by (destruct x; [now apply low_ext|reflexivity]).
  assert ((match x with Some x => isREG x && isExtIdx2 x | None => false end) = false) as -> by (destruct x as [x|]; [rewrite low_ext2 by exact X; apply andb_false_r|reflexivity]).
  assert ((match v with Some x => isExtIdx2 x | None => false end) = false) as -> by (destruct v as [y|]; [now apply low_ext2|reflexivity]).
  eapply SS_N; [apply Nn_dup|intros rnd ->]. change (0 ||| 0 ||| 0) with 0. cbn [Z.eqb negb]. apply SS_ret.
  eapply SS_N; [instantiate (1 := fun _ => True); destruct (aaa0 =? 0); [intros s env pos its a J; destruct (Nn_dup _ _ _ _ s env pos its a J); auto|now apply Nn_ret]|intros aaa _].
  apply SS_db4. intros rest. change (w8 98) with 98. apply vex4; [apply (q1ok t Mp)|apply (q2ok _ v t V)|apply q3ok].
  destruct (_ =? 512); [auto|]. destruct (_ =? 256); auto.
Qed.
