(* Register conversions (xbyak.h:738-784, 802, 927-962). *)
From Coq Require Import ZArith List Bool Lia.
From Verif Require Import Base Types Emit SpecX86 SpecAddr Wf SpecReg BitFacts LegacyFacts.
Import ListNotations.
Open Scope Z_scope.

Definition env0 := mkEnv false 0 false false DefaultEncoding DefaultEncoding.
Definition cb (r : Reg) (b : Z) : res Reg := snd (changeBit r b env0 0).
Ltac cases := repeat match goal with |- context [if ?c then _ else _] => destruct c end.
Lemma cb_ok r b env pos : env_noexc env = false -> changeBit r b env pos = ([], cb r b).
Proof. intros E. unfold cb, changeBit, setBit, fn, throw, ret. rewrite E. change (env_noexc env0) with false. cbv zeta. cases; reflexivity. Qed.

Definition kind_of (b : Z) : Z := if b =? 128 then XMM else if b =? 256 then YMM else if b =? 512 then ZMM else REG.
Definition high (r : Reg) : bool := (kind_ r =? REG) && (bit_ r =? 8) && (idx_ r <? 32) && (4 <=? regno r) && (regno r <? 8).
Definition resized (r : Reg) (b : Z) : Reg :=
  let n := regno r in
  mkReg (if (b =? 8) && (4 <=? n) && (n <? 8) then n + 32 else n) (kind_of b) b (zero_ r)
    (if 128 <=? b then mask_ r else 0) (if 128 <=? b then rounding_ r else 0) (NF_ r) (ZU_ r).
Definition std (r : Reg) : Prop := gpr r \/ vec_reg r.
Lemma std_cases r : std r -> 
  (kind_ r = REG /\ (bit_ r = 8 \/ bit_ r = 16 \/ bit_ r = 32 \/ bit_ r = 64) \/ kind_ r = XMM /\ bit_ r = 128 \/ kind_ r = YMM /\ bit_ r = 256 \/ kind_ r = ZMM /\ bit_ r = 512)
  /\ (0 <= idx_ r < 32 \/ 36 <= idx_ r < 40 /\ bit_ r = 8).
Proof. unfold std, gpr, vec_reg. intuition. Qed.
Lemma ext_low i : 0 <= i < 32 -> has i EXT8BIT = false.
Proof.
  intros H. assert (Q : forallb (fun i => negb (has i EXT8BIT)) (map Z.of_nat (seq 0 32)) = true) by reflexivity.
  rewrite forallb_forall in Q. apply negb_true_iff, Q, in_map_iff. exists (Z.to_nat i). split; [lia|]. apply in_seq. lia.
Qed.
Lemma ext_hi i : 36 <= i < 40 -> has i EXT8BIT = true.
Proof. intros H. assert (C : i = 36 \/ i = 37 \/ i = 38 \/ i = 39) by lia. destruct C as [-> | [-> | [-> | ->]]]; reflexivity. Qed.
Lemma or32 n : 4 <= n < 8 -> n ||| EXT8BIT = n + 32.
Proof. intros H. assert (C : n = 4 \/ n = 5 \/ n = 6 \/ n = 7) by lia. destruct C as [-> | [-> | [-> | ->]]]; reflexivity. Qed.
Lemma cb_form r b : std r -> In b (gpr_widths ++ vec_widths) ->
  cb r b = if bit_ r =? b then Ok r else if high r then Err ERR_CANT_CONVERT else Ok (resized r b).
Proof.
  intros S B. destruct (std_cases _ S) as [K I].
  assert (N : 0 <= regno r < 32) by (unfold regno; apply Z.mod_pos_bound; lia).
  assert (X : has (idx_ r) EXT8BIT = negb (idx_ r <? 32)).
  { destruct I as [I|[I _]]; [rewrite ext_low by lia|rewrite ext_hi by lia]; lia. }
  unfold cb, changeBit, setBit, fn, throw, ret, isBit, isREGb, is_, isExt8bit, getBit, high, resized. cbn [env0 env_noexc snd]. cbv zeta.
  rewrite X, regno_getIdx. destruct r as [i k w z m rd nf zu]. cbn [idx_ kind_ bit_ zero_ mask_ rounding_ NF_ ZU_] in *.
  set (n := regno _) in *. assert (E32 : (32 <=? n) = false) by lia. rewrite E32.
  clearbody n.
  assert (O : (if (4 <=? n) && (n <? 8) then n ||| EXT8BIT else n) = if (4 <=? n) && (n <? 8) then n + 32 else n).
  { destruct ((4 <=? n) && (n <? 8)) eqn:Q; auto. apply or32. lia. }
  rewrite O. clear O X N I S E32.
  cbn in B. destruct B as [<-|[<-|[<-|[<-|[<-|[<-|[<-|[]]]]]]]];
    (destruct K as [[-> [-> | [-> | [-> | ->]]]]|[[-> ->]|[[-> ->]|[-> ->]]]]); cbn -[Z.leb Z.ltb Z.add];
    try reflexivity;
    destruct (4 <=? n); destruct (n <? 8); destruct (i <? 32); reflexivity.
Qed.

Lemma high_iff r : gpr r -> high r = true <-> is_high r.
Proof.
  intros (K & _). unfold high, is_high, gpr_meaning, byte_meaning. rewrite K. change (REG =? REG) with true; cbn [andb]. cbv zeta.
  destruct (bit_ r =? 8); cbn [andb]; [|split; [discriminate|intros [? H]; discriminate]].
  destruct ((idx_ r <? 32) && (4 <=? regno r) && (regno r <? 8)); split.
  - intros _. eauto.
  - reflexivity.
  - discriminate.
  - intros [? H]. discriminate.
Qed.
Lemma gw b : In b gpr_widths -> In b (gpr_widths ++ vec_widths). Proof. intros; apply in_or_app; auto. Qed.
Lemma vw b : In b vec_widths -> In b (gpr_widths ++ vec_widths). Proof. intros; apply in_or_app; auto. Qed.
Lemma gpr_low r : gpr r -> high r = false -> gpr_meaning r = BLow (regno r).
Proof.
  intros (K & _). unfold high, gpr_meaning, byte_meaning. rewrite K. change (REG =? REG) with true; cbn [andb]. cbv zeta. destruct (bit_ r =? 8); auto. cbn [andb].
  intros ->. reflexivity.
Qed.
Lemma regno_lt r : 0 <= regno r < 32. Proof. unfold regno. apply Z.mod_pos_bound; lia. Qed.
Lemma resized_gpr r b : In b gpr_widths -> same_gpr (resized r b) (resized r b) b /\ gpr_meaning (resized r b) = BLow (regno r) /\ regno (resized r b) = regno r.
Proof.
  intros B. pose proof (regno_lt r) as N. unfold same_gpr, gpr, gpr_meaning, byte_meaning, resized. cbv zeta. cbn [idx_ kind_ bit_].
  set (n := regno r) in *. unfold regno. cbn [idx_]. clearbody n.
  cbn in B. destruct B as [<-|[<-|[<-|[<-|[]]]]]; cbn [Z.eqb Pos.eqb andb kind_of Z.leb Z.compare Pos.compare Pos.compare_cont];
    try (rewrite Z.mod_small by lia; intuition; fail).
  destruct ((4 <=? n) && (n <? 8)) eqn:Q.
  - replace ((n + 32) mod 32) with n.
    2:{ rewrite <- (Z.mod_small n 32) at 1 by lia. rewrite <- (Z_mod_plus_full n 1 32). reflexivity. }
    replace (n + 32 <? 32) with false by lia. cbn [andb]. repeat split; auto. right. lia.
  - rewrite Z.mod_small by lia. rewrite <- andb_assoc, Q, andb_false_r. repeat split; auto; left; lia.
Qed.
Lemma same_trans r q b : gpr q -> bit_ q = b -> gpr_meaning q = gpr_meaning r -> same_gpr r q b. Proof. repeat split; auto; apply H. Qed.

(* C34: to another width of the general registers *)
Lemma gpr_resize r b env pos : gpr r -> In b gpr_widths -> env_noexc env = false ->
  (is_high r /\ b <> 8 -> fails (changeBit r b) env pos ERR_CANT_CONVERT)
  /\ (~ (is_high r /\ b <> 8) -> exists q, returns (changeBit r b) env pos q /\ same_gpr r q b).
Proof.
  intros G B E. unfold fails, returns. rewrite (cb_ok _ _ _ _ E), cb_form by (unfold std; auto using gw).
  assert (HB : high r = true -> bit_ r = 8) by (unfold high; lia).
  split.
  - intros [H N]. apply (high_iff _ G) in H. rewrite H, (HB H). destruct (8 =? b) eqn:Q; [lia|reflexivity].
  - intros N. destruct (bit_ r =? b) eqn:Q.
    + eexists. split; [reflexivity|]. apply Z.eqb_eq in Q. repeat split; auto; apply G.
    + destruct (high r) eqn:H.
      * exfalso. apply N. split; [apply (high_iff _ G); auto|]. rewrite (HB eq_refl) in Q. lia.
      * eexists. split; [reflexivity|]. destruct (resized_gpr r b B) as ((Q1 & Q2 & _) & Q3 & _). rewrite <- (gpr_low r) in Q3 by auto. repeat split; auto; apply Q1.
Qed.
(* and back *)
Lemma gpr_back r b env pos q : gpr r -> bare r -> In b gpr_widths -> env_noexc env = false ->
  returns (changeBit r b) env pos q -> returns (changeBit q (bit_ r)) env pos r.
Proof.
  intros G (Bm & Br & _) B E. unfold returns. rewrite !(cb_ok _ _ _ _ E), cb_form by (unfold std; auto using gw).
  destruct (std_cases r (or_introl G)) as [K I].
  assert (W : In (bit_ r) gpr_widths) by (destruct G as (_ & [[Q _]|[-> _]]); cbn; intuition).
  destruct (bit_ r =? b) eqn:Q.
  - intros H. injection H as <-. rewrite cb_form by (unfold std; auto using gw). rewrite Z.eqb_refl. reflexivity.
  - destruct (high r) eqn:H; [discriminate|]. intros X. injection X as <-.
    destruct (resized_gpr r b B) as ((Q1 & Q2 & _) & Q3 & Q4). rewrite cb_form by (unfold std; auto using gw). rewrite Q2. rewrite Z.eqb_sym, Q.
    replace (high (resized r b)) with false.
    2:{ symmetry. apply not_true_is_false. intros Hh. apply (high_iff _ Q1) in Hh as [n Hh]. congruence. }
    do 2 f_equal. unfold resized at 1. rewrite Q4. pose proof (regno_lt r). clear Q1 Q2 Q3 Q4.
    destruct G as (Kr & G). unfold high in H. rewrite Kr in H. change (REG =? REG) with true in H; cbn [andb] in H.
    destruct r as [i k w z m rd nf zu]. cbn [idx_ kind_ bit_ zero_ mask_ rounding_ NF_ ZU_ resized] in *. subst m rd k.
    assert (R : regno (mkReg i REG w z 0 0 nf zu) = i mod 32) by reflexivity. rewrite R in *.
    cbn in W. f_equal.
    + destruct G as [[Gb Gi]|[Gb Gi]].
      * rewrite Z.mod_small in * by lia. destruct W as [<-|[<-|[<-|[<-|[]]]]]; cbn [Z.eqb Pos.eqb andb] in *; try reflexivity.
        replace (i <? 32) with true in H by lia. cbn [andb] in H. rewrite H. reflexivity.
      * subst w. cbn [Z.eqb Pos.eqb andb]. assert (C : i = 36 \/ i = 37 \/ i = 38 \/ i = 39) by lia. destruct C as [-> | [-> | [-> | ->]]]; reflexivity.
    + destruct W as [<-|[<-|[<-|[<-|[]]]]]; reflexivity.
    + destruct (128 <=? w); destruct (128 <=? b); reflexivity.
    + destruct (128 <=? w); destruct (128 <=? b); reflexivity.
Qed.
(* vector registers *)
Lemma vec_resize r b env pos : vec_reg r -> In b vec_widths -> env_noexc env = false ->
  exists q, returns (changeBit r b) env pos q /\ vec_reg q /\ bit_ q = b /\ idx_ q = idx_ r
    /\ mask_ q = mask_ r /\ rounding_ q = rounding_ r /\ zero_ q = zero_ r
    /\ returns (changeBit q (bit_ r)) env pos r.
Proof.
  intros G B E. unfold returns. rewrite (cb_ok _ _ _ _ E), cb_form by (unfold std; auto using vw).
  destruct (bit_ r =? b) eqn:Q.
  - exists r. apply Z.eqb_eq in Q. repeat match goal with |- _ /\ _ => split end; auto. rewrite (cb_ok _ _ _ _ E), cb_form by (unfold std; rewrite ?Q; auto using vw). rewrite Z.eqb_refl. reflexivity.
  - assert (H : high r = false) by (unfold high; destruct G as [[[-> _]|[[-> _]|[-> _]]] _]; reflexivity). rewrite H.
    exists (resized r b). split; [reflexivity|].
    assert (I : regno r = idx_ r) by (unfold regno; apply Z.mod_small; apply G).
    assert (V : vec_reg (resized r b) /\ idx_ (resized r b) = idx_ r /\ bit_ (resized r b) = b /\ mask_ (resized r b) = mask_ r /\ rounding_ (resized r b) = rounding_ r).
    { unfold vec_reg, resized. rewrite I. cbn [idx_ kind_ bit_ mask_ rounding_]. destruct G as [_ G]. cbn in B. destruct B as [<-|[<-|[<-|[]]]]; cbn; intuition. }
    destruct V as (V1 & V2 & V3 & V4 & V5). repeat match goal with |- _ /\ _ => split end; auto.
    assert (W : In (bit_ r) vec_widths) by (destruct G as [[[_ ->]|[[_ ->]|[_ ->]]] _]; cbn; auto).
    rewrite (cb_ok _ _ _ _ E), cb_form by (unfold std; auto using vw). rewrite V3, Z.eqb_sym, Q.
    replace (high (resized r b)) with false by (unfold high; destruct V1 as [[[-> _]|[[-> _]|[-> _]]] _]; reflexivity).
    do 2 f_equal. unfold resized at 1. rewrite V4, V5. replace (regno (resized r b)) with (idx_ r) by (unfold regno; rewrite V2; symmetry; apply Z.mod_small; apply G).
    clear V1 V2 V3 V4 V5 I H W Q. destruct r as [i k w z m rd nf zu]. unfold vec_reg in G. cbn [idx_ kind_ bit_ zero_ mask_ rounding_ NF_ ZU_ resized] in *.
    destruct G as [[[-> ->]|[[-> ->]|[-> ->]]] _]; reflexivity.
Qed.
(* between the files: the number is kept *)
Lemma gpr_to_vec r b env pos : gpr r -> In b vec_widths -> env_noexc env = false ->
  (is_high r -> fails (changeBit r b) env pos ERR_CANT_CONVERT)
  /\ (~ is_high r -> exists q, returns (changeBit r b) env pos q /\ vec_reg q /\ bit_ q = b /\ BLow (idx_ q) = gpr_meaning r).
Proof.
  intros G B E. unfold fails, returns. rewrite (cb_ok _ _ _ _ E), cb_form by (unfold std; auto using vw).
  replace (bit_ r =? b) with false by (destruct G as (_ & [[[->|[->|[->| ->]]] _]|[-> _]]); cbn in B; destruct B as [<-|[<-|[<-|[]]]]; reflexivity).
  split.
  - intros H. apply (high_iff _ G) in H. rewrite H. reflexivity.
  - intros H. destruct (high r) eqn:Q; [exfalso; apply H, (high_iff _ G); auto|]. eexists. split; [reflexivity|].
    rewrite (gpr_low _ G Q). pose proof (regno_lt r). unfold vec_reg, resized. cbn [idx_ kind_ bit_]. cbn in B. destruct B as [<-|[<-|[<-|[]]]]; cbn; intuition.
Qed.
Lemma vec_to_gpr r b env pos : vec_reg r -> In b gpr_widths -> env_noexc env = false ->
  exists q, returns (changeBit r b) env pos q /\ gpr q /\ bit_ q = b /\ gpr_meaning q = BLow (idx_ r).
Proof.
  intros G B E. unfold returns. rewrite (cb_ok _ _ _ _ E), cb_form by (unfold std; auto using gw).
  replace (bit_ r =? b) with false by (destruct G as [[[_ ->]|[[_ ->]|[_ ->]]] _]; cbn in B; destruct B as [<-|[<-|[<-|[<-|[]]]]]; reflexivity).
  assert (H : high r = false) by (unfold high; destruct G as [[[-> _]|[[-> _]|[-> _]]] _]; reflexivity). rewrite H.
  eexists. split; [reflexivity|]. destruct (resized_gpr r b B) as ((Q1 & Q2 & _) & Q3 & _). repeat split; auto; try apply Q1.
  rewrite Q3. f_equal. unfold regno. apply Z.mod_small. apply G.
Qed.
Lemma bad_width r b env pos : ~ In b (gpr_widths ++ vec_widths ++ [8192]) -> env_noexc env = false -> fails (changeBit r b) env pos ERR_CANT_CONVERT.
Proof.
  intros N E. unfold fails, changeBit, setBit, fn, throw. rewrite E. cbn in N.
  replace (negb _) with true; [reflexivity|]. symmetry. apply negb_true_iff. repeat (apply orb_false_iff; split); apply Z.eqb_neq; intuition.
Qed.
(* cvt8 .. cvt64 *)
Definition cvt (b : Z) (r : Reg) : E Reg := if b =? 8 then cvt8 r else if b =? 16 then cvt16 r else if b =? 32 then cvt32 r else cvt64 r.
Definition cvtv (b : Z) (r : Reg) : E Reg := if b =? 128 then cvt128 r else if b =? 256 then cvt256 r else cvt512 r.
Lemma cvt_change r b env pos : gpr r -> bare r -> NF_ r = false -> ZU_ r = false -> In b gpr_widths -> env_noexc env = false ->
  cvt b r env pos = changeBit r b env pos.
Proof.
  intros G (Bm & Br & Bz) Nf Zu B E. 
  assert (Q : cvt b r env pos = ([], match cb r b with Ok q => Ok (regOf (getIdx q) REG b (if b =? 8 then isExt8bit q else false)) | Err e => Err e end)).
  { unfold cvt. cbn in B. destruct B as [<-|[<-|[<-|[<-|[]]]]]; cbn [Z.eqb Pos.eqb]; unfold cvt8, cvt16, cvt32, cvt64, bind; rewrite (cb_ok _ _ _ _ E); destruct (cb r _); reflexivity. }
  rewrite Q, (cb_ok _ _ _ _ E), cb_form by (unfold std; auto using gw).
  assert (P : forall q, gpr q -> bit_ q = b -> bare q -> NF_ q = false -> ZU_ q = false -> regOf (getIdx q) REG b (if b =? 8 then isExt8bit q else false) = q).
  { intros q (Kq & Gq) Bq (M & R & Z0) Nq Uq. rewrite regno_getIdx. destruct q as [i k w z m rd nf zu]. cbn [idx_ kind_ bit_ zero_ mask_ rounding_ NF_ ZU_] in *. subst.
    unfold isExt8bit, regno, regOf. cbn [idx_].
    destruct Gq as [[_ Gi]|[-> Gi]].
    - rewrite ext_low by auto. replace (if b =? 8 then false else false) with false by (destruct (b =? 8); auto). rewrite (Z.mod_small i 32) by lia.
      cbv iota. rewrite Z.lor_0_r || idtac. f_equal; [rewrite Z.mod_small; lia|cbn in B; destruct B as [<-|[<-|[<-|[<-|[]]]]]; reflexivity].
    - cbn [Z.eqb Pos.eqb]. assert (C : i = 36 \/ i = 37 \/ i = 38 \/ i = 39) by lia. destruct C as [-> | [-> | [-> | ->]]]; reflexivity. }
  destruct (bit_ r =? b) eqn:Eb; [rewrite P; auto; [lia|repeat split; auto]|]. destruct (high r); [reflexivity|].
  rewrite P; auto; [apply (resized_gpr r b B)|].
  unfold bare, resized. cbn [mask_ rounding_ zero_]. rewrite Bm, Br, Bz. destruct (128 <=? b); auto.
Qed.
