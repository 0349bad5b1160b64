(* sample/quantize.cpp:62-140: the calls that udiv and the constructor of Quantize make, and what the generated function does. *)
From Coq Require Import ZArith List Bool Lia.
From Verif Require Import Base SpecDiv Udiv.
Import ListNotations.
Open Scope Z_scope.

(* quantize.cpp:64, 73-78, 109-120: the calls, in order; int(m) is a 32-bit int *)
Definition udiv_code (p : plan) (offset : Z) : list ins :=
  Load EAX ESI offset ::
  match p with
  | Shr_ e => if e =? 0 then [] else [ShrI EAX e]
  | Mul_ m a len => [MovI EDX (s32 m); Mul EDX] ++ (if a then [AddI EAX (s32 m); AdcI EDX 0] else []) ++ (if len =? 0 then [] else [ShrI EDX len]) ++ [MovR EAX EDX]
  end.
(* quantize.cpp:132-135: the loop from i on *)
Fixpoint body (fuel : nat) (i : Z) (qTbl : list Z) : option (list ins) :=
  match qTbl with
  | [] => Some []
  | d :: qTbl => match udiv_plan fuel d, body fuel (i + 1) qTbl with Plan p, Some l => Some (udiv_code p (i * 4) ++ [Store EDI (i * 4) EAX] ++ l) | _, _ => None end
  end.
(* quantize.cpp:125-139; None: udiv does not return, or shifts 1 by 31 *)
Definition quantize (fuel : nat) (qTbl : list Z) : option (list ins) :=
  match body fuel 0 qTbl with
  | Some l => Some ([Push ESI; Push EDI; Load EDI ESP (4 * 2 + 4); Load ESI ESP (4 * 2 + 8)] ++ l ++ [Pop EDI; Pop ESI; Ret])
  | None => None end.

(* ---- memory ---- *)
Definition u32 (v : Z) : Prop := 0 <= v < 2 ^ 32.
Lemma at32_id v : u32 v -> at32 v = v.
Proof. intros H. apply Z.mod_small. exact H. Qed.
Lemma at32_u v : u32 (at32 v).
Proof. apply Z.mod_pos_bound. reflexivity. Qed.
Lemma get32_u m a : u32 (get32 m a).
Proof.
  unfold u32, get32. pose proof (Z.mod_pos_bound (m (at32 a)) 256 ltac:(lia)). pose proof (Z.mod_pos_bound (m (at32 (a + 1))) 256 ltac:(lia)).
  pose proof (Z.mod_pos_bound (m (at32 (a + 2))) 256 ltac:(lia)). pose proof (Z.mod_pos_bound (m (at32 (a + 3))) 256 ltac:(lia)). lia.
Qed.
Lemma get_put_same m a v : u32 v -> get32 (put32 m a v) a = v.
Proof.
  intros H. unfold get32, put32. assert (forall k, 0 <= k < 4 -> at32 (at32 (a + k) - a) = k) as D.
  { intros k Hk. unfold at32. rewrite Zminus_mod_idemp_l. replace (a + k - a) with k by ring. apply Z.mod_small. lia. }
  pose proof (D 0 ltac:(lia)) as D0. rewrite Z.add_0_r in D0. rewrite D0, !D by lia. cbn [Z.ltb Z.compare Pos.compare Pos.compare_cont].
  rewrite !Z.mod_mod by lia. change (256 ^ 0) with 1. change (256 ^ 1) with 256. change (256 ^ 2) with (256 * 256). change (256 ^ 3) with (256 * 256 * 256).
  rewrite Z.div_1_r, <- !Z.div_div by lia. unfold u32 in H.
  pose proof (Z.div_mod v 256 ltac:(lia)). pose proof (Z.div_mod (v / 256) 256 ltac:(lia)). pose proof (Z.div_mod (v / 256 / 256) 256 ltac:(lia)).
  assert (v / 256 / 256 / 256 mod 256 = v / 256 / 256 / 256) as E. { apply Z.mod_small. rewrite !Z.div_div by lia. split; [apply Z.div_pos; lia|apply Z.div_lt_upper_bound; lia]. }
  lia.
Qed.
(* [a, a + 4) and [b, b + 4) do not meet *)
Definition apart (a b : Z) : Prop := a + 4 <= b \/ b + 4 <= a.
Definition word (a : Z) : Prop := 0 <= a /\ a + 4 <= 2 ^ 32.
Lemma get_put_other m a b v : word a -> word b -> apart a b -> get32 (put32 m a v) b = get32 m b.
Proof.
  intros Ha Hb H. unfold get32, put32. assert (forall k, 0 <= k < 4 -> (at32 (at32 (b + k) - a) <? 4) = false) as D.
  { intros k Hk. rewrite (at32_id (b + k)) by (unfold u32, word in *; lia). apply Z.ltb_ge. unfold at32. unfold word in *. destruct H.
    - rewrite Z.mod_small; lia.
    - rewrite <- (Z.mod_unique (b + k - a) (2 ^ 32) (-1) (b + k - a + 2 ^ 32)); lia. }
  pose proof (D 0 ltac:(lia)) as D0. rewrite Z.add_0_r in D0. rewrite D0, !D by lia. reflexivity.
Qed.

(* ---- udiv ---- *)
Lemma s32_at v : u32 v -> at32 (s32 v) = v.
Proof.
  intros H. unfold s32, w32, at32, u32 in *. change (2 ^ 32) with 4294967296 in *. rewrite (Z.mod_small v) by lia. destruct (v <? 2147483648); [apply Z.mod_small; lia|].
  replace (v - 4294967296) with (v + (-1) * 4294967296) by ring. rewrite Z.mod_add by lia. apply Z.mod_small; lia.
Qed.
Lemma carry x m : u32 x -> u32 m -> x * m / 2 ^ 32 + (if 2 ^ 32 <=? x * m mod 2 ^ 32 + m then 1 else 0) = (x * m + m) / 2 ^ 32.
Proof.
  unfold u32. intros Hx Hm. pose proof (Z.div_mod (x * m) (2 ^ 32) ltac:(lia)) as D. pose proof (Z.mod_pos_bound (x * m) (2 ^ 32) ltac:(lia)) as B.
  destruct (Z.leb_spec (2 ^ 32) (x * m mod 2 ^ 32 + m)); [apply (Z.div_unique _ _ _ (x * m mod 2 ^ 32 + m - 2 ^ 32))|apply (Z.div_unique _ _ _ (x * m mod 2 ^ 32 + m))]; lia.
Qed.
Lemma run_app a b s : run (a ++ b) s = run b (run a s).
Proof. apply fold_left_app. Qed.
Definition same (s t : mach) : Prop := byte t = byte s /\ ip t = ip s /\ reg t ESP = reg s ESP /\ reg t ESI = reg s ESI /\ reg t EDI = reg s EDI
  /\ forall r, r <> EAX -> r <> EDX -> reg t r = reg s r.
Lemma udiv_runs p off s : plan_ok p -> let t := run (udiv_code p off) s in reg t EAX = value p (get32 (byte s) (reg s ESI + off)) /\ same s t.
Proof.
  intros H. pose proof (get32_u (byte s) (reg s ESI + off)) as Hx. set (x := get32 (byte s) (reg s ESI + off)) in *.
  assert (forall f r v i, i <> r -> set_reg f r v i = f i) as NE by (intros f r v i N; unfold set_reg; destruct (Z.eqb_spec i r); [contradiction|reflexivity]).
  assert (forall f r v, set_reg f r v r = v) as EQ by (intros f r v; unfold set_reg; now rewrite Z.eqb_refl).
  destruct p as [e|m a len]; cbn [plan_ok] in H; unfold udiv_code.
  - destruct (Z.eqb_spec e 0) as [->|N].
    + cbn [run fold_left step reg byte ip value]. fold x. split; [now rewrite EQ, Z.div_1_r|]. repeat split; try reflexivity. intros r A B. apply NE, A.
    + cbn [run fold_left step]. rewrite (Z.mod_small e) by lia. destruct (Z.eqb_spec e 0); [lia|]. cbn [reg byte ip value cf]. fold x. rewrite !EQ. split; [reflexivity|]. repeat split; try reflexivity. intros r A B. cbn [reg]. now rewrite !NE.
  - destruct H as [Hm Hl]. assert (u32 m) as Um by (unfold u32; lia). pose proof (s32_at m Um) as Em. set (im := s32 m) in *.
    set (s1 := run [Load EAX ESI off; MovI EDX im; Mul EDX] s).
    assert (reg s1 EDX = x * m / 2 ^ 32 /\ reg s1 EAX = x * m mod 2 ^ 32 /\ same s s1) as (D1 & A1 & S1).
    { unfold s1. cbn [run fold_left step reg byte ip cf]. unfold set_reg at 1 3. cbn [Z.eqb EAX EDX Pos.eqb]. unfold set_reg. cbn. fold x. rewrite Em. split; [reflexivity|]. split; [reflexivity|].
      repeat split; try reflexivity. intros r A B. cbn. unfold EAX, EDX in *. destruct (Z.eqb_spec r 2); [contradiction|]. destruct (Z.eqb_spec r 0); [contradiction|reflexivity]. }
    change (run (Load EAX ESI off :: [MovI EDX im; Mul EDX] ++ ?l) s) with (run l s1).
    set (la := if a then [AddI EAX im; AdcI EDX 0] else []).
    assert (x * m / 2 ^ 32 < 2 ^ 32 /\ 0 <= x * m / 2 ^ 32) as B1. { unfold u32 in *. split; [apply Z.div_lt_upper_bound; nia|apply Z.div_pos; nia]. }
    assert (same_trans : forall q t, same s q -> byte t = byte q -> ip t = ip q -> (forall r, r <> EAX -> r <> EDX -> reg t r = reg q r) -> same s t).
    { intros q t (a1 & a2 & a3 & a4 & a5 & a6) b c K. repeat split; try congruence; try (rewrite K by discriminate; assumption). intros r A B. rewrite K by assumption. now apply a6. }
    set (s2 := run la s1). assert (reg s2 EDX = (x * m + if a then m else 0) / 2 ^ 32 /\ same s s2) as (D2 & S2).
    { unfold s2, la. destruct a; [|cbn [run fold_left]; rewrite Z.add_0_r; split; assumption].
      cbn [run fold_left step reg cf byte ip]. split.
      - unfold set_reg at 1. cbn [Z.eqb EDX Pos.eqb]. rewrite NE by discriminate. rewrite D1, A1, Em. change (at32 0) with 0. rewrite Z.add_0_r, carry by assumption. apply at32_id.
        unfold u32 in *. split; [apply Z.div_pos; nia|apply Z.div_lt_upper_bound; nia].
      - apply (same_trans s1); [exact S1|reflexivity|reflexivity|]. intros r A B. cbn [reg]. now rewrite !NE. }
    rewrite !run_app. fold s2. set (s3 := run (if len =? 0 then [] else [ShrI EDX len]) s2).
    assert (reg s3 EDX = (x * m + if a then m else 0) / 2 ^ 32 / 2 ^ len /\ same s s3) as (D3 & S3).
    { unfold s3. destruct (Z.eqb_spec len 0) as [->|N]; [cbn [run fold_left]; rewrite Z.pow_0_r, Z.div_1_r; split; assumption|].
      cbn [run fold_left step]. rewrite (Z.mod_small len) by lia. destruct (Z.eqb_spec len 0); [lia|]. split; [cbn [reg]; now rewrite EQ, D2|].
      apply (same_trans s2); [exact S2|reflexivity|reflexivity|]. intros r A B. cbn [reg]. now rewrite !NE. }
    cbn [run fold_left step]. split; [cbn [reg]; rewrite EQ; exact D3|]. apply (same_trans s3); [exact S3|reflexivity|reflexivity|]. intros r A B. cbn [reg]. now rewrite !NE.
Qed.

(* ---- the whole function ---- *)
Lemma put_out m a v i : word a -> u32 i -> i < a \/ a + 4 <= i -> put32 m a v i = m i.
Proof.
  intros Ha Hi H. unfold put32. replace (at32 (i - a) <? 4) with false; [reflexivity|]. symmetry. apply Z.ltb_ge. unfold at32, word, u32 in *. destruct H.
  - rewrite <- (Z.mod_unique (i - a) (2 ^ 32) (-1) (i - a + 2 ^ 32)); lia.
  - rewrite Z.mod_small; lia.
Qed.
Lemma get_ext m m' a : word a -> (forall i, a <= i < a + 4 -> m i = m' i) -> get32 m a = get32 m' a.
Proof. intros Ha H. unfold get32, word in *. rewrite !at32_id by (unfold u32; lia). now rewrite !H by lia. Qed.
(* n words from a on *)
Definition words (a n : Z) : Prop := 0 <= a /\ a + 4 * n <= 2 ^ 32.
(* writing word a of the table at D does not change a later word of the table at S *)
Definition forward (D S i n : Z) : Prop := forall a b, i <= a -> a < b -> b < i + n -> apart (D + 4 * a) (S + 4 * b).
Lemma set_same f r v : set_reg f r v r = v.
Proof. unfold set_reg. now rewrite Z.eqb_refl. Qed.
Lemma set_other f r v i : i <> r -> set_reg f r v i = f i.
Proof. intros N. unfold set_reg. destruct (Z.eqb_spec i r); [contradiction|reflexivity]. Qed.

Lemma body_some fuel q : Forall divisor q -> (64 <= fuel)%nat -> forall i, exists l, body fuel i q = Some l.
Proof.
  intros H Hf. induction H as [|d q Hd Hq IH]; intros i; [now exists []|]. cbn [body]. destruct (udiv_plan_ok fuel d Hd Hf) as (p & -> & _). destruct (IH (i + 1)) as [l ->]. eauto.
Qed.
Lemma body_runs fuel q : Forall divisor q -> (64 <= fuel)%nat -> forall i l s, body fuel i q = Some l -> 0 <= i ->
  let n := Z.of_nat (length q) in let D := reg s EDI in let S := reg s ESI in let t := run l s in
  words D (i + n) -> words S (i + n) -> forward D S i n ->
  (forall k d, nth_error q k = Some d -> get32 (byte t) (D + 4 * (i + Z.of_nat k)) = get32 (byte s) (S + 4 * (i + Z.of_nat k)) / d)
  /\ (forall a, u32 a -> a < D + 4 * i \/ D + 4 * (i + n) <= a -> byte t a = byte s a)
  /\ ip t = ip s /\ (forall r, r <> EAX -> r <> EDX -> reg t r = reg s r).
Proof.
  intros H Hf. induction H as [|d q Hd Hq IH]; intros i l s Hb Hi n D S t HD HS Fw.
  - injection Hb as <-. cbn in t. subst t. split; [intros [|k] v E; discriminate E|]. repeat split; reflexivity.
  - cbn [body] in Hb. destruct (udiv_plan_ok fuel d Hd Hf) as (p & Ep & Pp & Pv). rewrite Ep in Hb. destruct (body fuel (i + 1) q) as [l'|] eqn:Eb; [|discriminate Hb].
    assert (l = udiv_code p (i * 4) ++ ([Store EDI (i * 4) EAX] ++ l')) as El by congruence. clear Hb.
    assert (n = Z.of_nat (length q) + 1) as En by (unfold n; cbn [length]; lia). clearbody n. set (n' := Z.of_nat (length q)) in *. assert (0 <= n') by lia.
    destruct (udiv_runs p (i * 4) s Pp) as (Ev & Eby & Eip & _ & _ & _ & Erg). set (s1 := run (udiv_code p (i * 4)) s) in *.
    set (s2 := step s1 (Store EDI (i * 4) EAX)). assert (t = run l' s2) as Et by (unfold t; rewrite El, !run_app; reflexivity). clearbody t. subst t.
    assert (S + i * 4 = S + 4 * i) as E4 by lia. assert (D + i * 4 = D + 4 * i) as E5 by lia.
    rewrite Pv in Ev by apply get32_u. fold S in Ev. rewrite E4 in Ev. assert (0 < d) as Pd by (destruct Hd as [|[]]; lia).
    pose proof (get32_u (byte s) (S + 4 * i)) as Ux. assert (u32 (get32 (byte s) (S + 4 * i) / d)) as Uv.
    { unfold u32 in *. split; [apply Z.div_pos; lia|]. apply Z.le_lt_trans with (get32 (byte s) (S + 4 * i)); [|lia]. apply Z.div_le_upper_bound; nia. }
    assert (byte s2 = put32 (byte s) (D + 4 * i) (get32 (byte s) (S + 4 * i) / d)) as B2.
    { unfold s2. cbn [step byte]. rewrite Ev, Eby, Erg by discriminate. fold D. rewrite E5. reflexivity. }
    assert (reg s2 = reg s1) as R2 by reflexivity. assert (reg s2 EDI = D) as RD by (rewrite R2; apply Erg; discriminate). assert (reg s2 ESI = S) as RS by (rewrite R2; apply Erg; discriminate).
    unfold words in HD, HS.
    destruct (IH (i + 1) l' s2 Eb ltac:(lia)) as (V & O & I' & R).
    { rewrite RD. fold n'. unfold words. lia. } { rewrite RS. fold n'. unfold words. lia. } { rewrite RD, RS. fold n'. intros a b Ha Hab Hb'. apply Fw; lia. }
    rewrite RD, RS in *. fold n' in O. split; [|split; [|split]].
    + intros [|k] v Hk; cbn in Hk.
      * injection Hk as <-. change (Z.of_nat 0) with 0. rewrite Z.add_0_r. rewrite (get_ext _ (byte s2)); [rewrite B2; now apply get_put_same|unfold word; lia|]. intros a Ha. apply O; [unfold u32; lia|lia].
      * assert (Z.of_nat k < n') as Bk by (apply inj_lt, nth_error_Some; now rewrite Hk). replace (i + Z.of_nat (Datatypes.S k)) with (i + 1 + Z.of_nat k) by lia. rewrite (V _ _ Hk). f_equal. rewrite B2.
        apply get_put_other; [unfold word; lia|unfold word; lia|]. apply Fw; lia.
    + intros a Ua Ha. rewrite O by (try assumption; lia). rewrite B2. apply put_out; [unfold word; lia|exact Ua|lia].
    + rewrite I'. unfold s2. cbn [step ip]. exact Eip.
    + intros r A B. rewrite R by assumption. rewrite R2. now apply Erg.
Qed.

(* how the function may be called: the stack holds the return address and the two arguments, the two words below are free *)
Record call (s : mach) (n dest src ret : Z) : Prop := {
  c_sp : 8 <= reg s ESP /\ reg s ESP + 12 <= 2 ^ 32;
  c_ret : get32 (byte s) (reg s ESP) = ret; c_dest : get32 (byte s) (reg s ESP + 4) = dest; c_src : get32 (byte s) (reg s ESP + 8) = src;
  c_esi : u32 (reg s ESI); c_edi : u32 (reg s EDI);
  c_dst : words dest n; c_srcw : words src n;
  c_dst_stack : dest + 4 * n <= reg s ESP - 8 \/ reg s ESP + 4 <= dest;
  c_src_stack : src + 4 * n <= reg s ESP - 8 \/ reg s ESP <= src;
  c_fwd : forward dest src 0 n }.
Lemma quantize_ok fuel q : Forall divisor q -> (64 <= fuel)%nat -> exists l, quantize fuel q = Some l /\
  forall s dest src ret, let n := Z.of_nat (length q) in call s n dest src ret -> let t := run l s in
    (forall k d, nth_error q k = Some d -> get32 (byte t) (dest + 4 * Z.of_nat k) = get32 (byte s) (src + 4 * Z.of_nat k) / d)
    /\ (forall a, u32 a -> a < dest \/ dest + 4 * n <= a -> a < reg s ESP - 8 \/ reg s ESP <= a -> byte t a = byte s a)
    /\ ip t = Some ret /\ reg t ESP = at32 (reg s ESP + 4) /\ (forall r, r <> EAX -> r <> EDX -> r <> ESP -> reg t r = reg s r).
Proof.
  intros H Hf. destruct (body_some fuel q H Hf 0) as [l El]. unfold quantize. rewrite El. eexists. split; [reflexivity|]. intros s dest src ret Hc. set (n := Z.of_nat (length q)) in *. destruct Hc as [SP R0 R1 R2 Usi Udi Wd Ws Ds Ss Fw]. set (t := run (_ ++ l ++ _) s).
  set (E := reg s ESP) in *. assert (0 <= n) as Pn by (unfold n; lia). unfold words in Wd, Ws.
  set (s1 := run [Push ESI; Push EDI; Load EDI ESP (4 * 2 + 4); Load ESI ESP (4 * 2 + 8)] s).
  set (m1 := put32 (put32 (byte s) (E - 4) (reg s ESI)) (E - 8) (reg s EDI)).
  assert (at32 (E - 4) = E - 4) as A4 by (apply at32_id; unfold u32; lia). assert (at32 (E - 4 - 4) = E - 8) as A8 by (replace (E - 4 - 4) with (E - 8) by ring; apply at32_id; unfold u32; lia).
  assert (forall a, u32 a -> a < E - 8 \/ E <= a -> m1 a = byte s a) as M1. { intros a Ua Ha. unfold m1. rewrite !put_out; try (unfold word; lia); try assumption; try lia. }
  assert (forall a, word a -> a + 4 <= E - 8 \/ E <= a -> get32 m1 a = get32 (byte s) a) as G1. { intros a Wa Ha. apply get_ext; [exact Wa|]. unfold word in Wa. intros i Hi. apply M1; [unfold u32; lia|lia]. }
  assert (byte s1 = m1 /\ ip s1 = ip s /\ reg s1 ESP = E - 8 /\ reg s1 EDI = dest /\ reg s1 ESI = src /\ forall r, r <> ESP -> r <> ESI -> r <> EDI -> reg s1 r = reg s r) as (B1 & I1 & P1 & D1 & S1 & O1).
  { unfold s1. cbn [run fold_left step reg byte ip cf]. rewrite ?set_same, ?(set_other _ ESP _ EDI), ?(set_other _ ESP _ ESI), ?(set_other _ EDI _ ESP), ?(set_other _ ESI _ ESP) by discriminate.
    rewrite ?set_same. fold E. rewrite A4, A8. fold m1. split; [reflexivity|]. split; [reflexivity|]. split; [now rewrite ?set_same|].
    split; [rewrite (set_other _ ESI _ EDI) by discriminate; rewrite set_same; replace (E - 8 + (4 * 2 + 4)) with (E + 4) by ring; rewrite G1; [exact R1|unfold word; lia|lia]|].
    split; [replace (E - 8 + (4 * 2 + 8)) with (E + 8) by ring; rewrite G1; [exact R2|unfold word; lia|lia]|].
    intros r X Y W. now rewrite !set_other by assumption. }
  destruct (body_runs fuel q H Hf 0 l s1 El ltac:(lia)) as (V & O & I2 & R).
  { rewrite D1. fold n. unfold words. lia. } { rewrite S1. fold n. unfold words. lia. } { rewrite D1, S1. fold n. exact Fw. }
  rewrite D1, S1, B1 in *. fold n in O. set (s2 := run l s1) in *.
  assert (t = run [Pop EDI; Pop ESI; Ret] s2) as Et by (unfold t; rewrite !run_app; reflexivity). clearbody t.
  assert (forall a, word a -> E - 8 <= a -> a + 4 <= E + 4 -> get32 (byte s2) a = get32 m1 a) as G2. { intros a Wa X Y. apply get_ext; [exact Wa|]. unfold word in Wa. intros i Hi. apply O; [unfold u32; lia|lia]. }
  assert (get32 (byte s2) (E - 8) = reg s EDI) as Q8. { rewrite G2 by (unfold word; lia). unfold m1. now apply get_put_same. }
  assert (get32 (byte s2) (E - 4) = reg s ESI) as Q4. { rewrite G2 by (unfold word; lia). unfold m1. rewrite get_put_other by (unfold word, apart; lia). now apply get_put_same. }
  assert (get32 (byte s2) E = ret) as Q0. { rewrite G2 by (unfold word; lia). rewrite G1; [exact R0|unfold word; lia|lia]. }
  assert (reg s2 ESP = E - 8) as P2 by (rewrite R by discriminate; exact P1).
  assert (at32 (E - 8 + 4) = E - 4) as A2 by (replace (E - 8 + 4) with (E - 4) by ring; exact A4). assert (at32 (E - 4 + 4) = E) as A3 by (replace (E - 4 + 4) with E by ring; apply at32_id; unfold u32; lia).
  assert (byte t = byte s2 /\ ip t = Some ret /\ reg t = set_reg (set_reg (set_reg (set_reg (set_reg (reg s2) ESP (E - 4)) EDI (reg s EDI)) ESP E) ESI (reg s ESI)) ESP (at32 (E + 4))) as (Bt & It & Rt).
  { rewrite Et. cbn [run fold_left step reg byte ip cf]. rewrite ?(set_other _ EDI _ ESP), ?(set_other _ ESI _ ESP) by discriminate. rewrite ?set_same. rewrite ?(set_other _ EDI _ ESP), ?(set_other _ ESI _ ESP) by discriminate.
    rewrite ?set_same, P2, A2, A3, Q0, Q4, Q8. repeat split; reflexivity. }
  split; [|split; [|split; [exact It|split]]].
  - intros k d Hk. rewrite Bt. pose proof (V k d Hk) as Vk. cbn [Z.add] in Vk. rewrite Vk. f_equal. assert (Z.of_nat k < n) as Bk by (apply inj_lt, nth_error_Some; now rewrite Hk). apply G1; [unfold word; lia|lia].
  - intros a Ua X Y. rewrite Bt, O by (try assumption; lia). now apply M1.
  - rewrite Rt. apply set_same.
  - intros r X Y W. rewrite Rt. rewrite (set_other _ ESP) by exact W. destruct (Z.eq_dec r ESI) as [->|NS]; [now rewrite set_same|]. rewrite (set_other _ ESI), (set_other _ ESP) by assumption.
    destruct (Z.eq_dec r EDI) as [->|ND]; [now rewrite set_same|]. rewrite (set_other _ EDI), (set_other _ ESP) by assumption. rewrite R by assumption. now apply O1.
Qed.
