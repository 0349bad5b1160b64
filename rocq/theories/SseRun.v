(* The SSE methods execute as the instructions of their names. *)
From Coq Require Import ZArith List Bool String Lia.
From Verif Require Import Base Types Emit EmitFacts SpecX86 SpecAddr SpecIsa SpecInsn SpecLeg SpecMix Wf SpecExec SpecVec SpecSse SpecSseRun SseIsa VecExec LegShapes LegTables MixTables.
Import ListNotations.
Open Scope list_scope.
Open Scope Z_scope.

Definition pp_eqb (a b : ppfx) : bool := pp_num a =? pp_num b.
Definition smeet (a b : sserow) : bool := pp_eqb (q_pp a) (q_pp b) && (q_map a =? q_map b) && (q_opc a =? q_opc b).
Fixpoint sapart (l : list sserow) : bool := match l with [] => true | p :: l => forallb (fun q => negb (smeet p q)) l && sapart l end.
Lemma is_sse_parts h q : is_sse h q = true -> h_space h = Legacy /\ h_seg h = None /\ h_lock h = false
  /\ h_66 h = pp_is (q_pp q) P66 /\ h_F2 h = pp_is (q_pp q) PF2 /\ h_F3 h = pp_is (q_pp q) PF3 /\ h_map h = q_map q /\ h_opc h = q_opc q.
Proof.
  unfold is_sse. intros H. do 5 apply andb_prop in H as [H ?]. destruct (h_space h); try discriminate. destruct (h_seg h); try discriminate.
  destruct (h_lock h); try discriminate. repeat match goal with Q : Bool.eqb _ _ = true |- _ => apply eqb_prop in Q | Q : (_ =? _) = true |- _ => apply Z.eqb_eq in Q end. repeat split; auto.
Qed.
Lemma is_sse_meet h p q : is_sse h p = true -> is_sse h q = true -> smeet p q = true.
Proof.
  intros A B. apply is_sse_parts in A as (_ & _ & _ & A1 & A2 & A3 & A4 & A5). apply is_sse_parts in B as (_ & _ & _ & B1 & B2 & B3 & B4 & B5).
  unfold smeet. rewrite <- A4, <- B4, <- A5, <- B5, !Z.eqb_refl, !andb_true_r. rewrite A1 in B1. rewrite A2 in B2. rewrite A3 in B3.
  destruct (q_pp p), (q_pp q); try reflexivity; discriminate.
Qed.
Lemma find_sse l h q : sapart l = true -> In q l -> is_sse h q = true -> find (is_sse h) l = Some q.
Proof.
  induction l as [|p l IH]; [contradiction|]. intros A Hin R. cbn [sapart] in A. apply andb_prop in A as [A1 A2]. cbn [find].
  destruct (is_sse h p) eqn:P.
  - destruct Hin as [-> |Hin]; [reflexivity|]. rewrite forallb_forall in A1. specialize (A1 _ Hin). rewrite (is_sse_meet _ _ _ P R) in A1. discriminate A1.
  - destruct Hin as [-> |Hin]; [congruence|auto].
Qed.

(* the row of the instruction *)
Definition lrow_of (q : sserow) : lrow :=
  mkL (q_pp q) (q_map q) (q_opc q) true None (match q_form q with Store => [m_ Sany; r_ KX Sany] | _ => [r_ KX Sany; rm_ KX true Sany] end)
      (match q_form q with Store => Os0 | _ => OsN end) (if q_imm q then I_8 else I_none).
Lemma xmm_where k r s : k = KX -> in_file k r -> where_ s (OReg r) = XReg (regno r).
Proof. intros -> (K & _). cbn. unfold opmask. now rewrite K. Qed.
Lemma mem_where s rip h a m : denotes (a_e a) h m -> XMem (eff_addr (rg s) rip (h_67 h) m) = where_ s (OMem a).
Proof. intros D. cbn. now rewrite (D (rg s) rip). Qed.
Theorem lsays_sexec isa q ops imm bs rest rip x : sapart isa = true -> In q isa -> 0 <= imm < 256 ->
  lsays (lrow_of q) ops imm bs rest -> sexec isa rip (bs ++ rest) x = Some (rest, smeans q imm ops x).
Proof.
  intros Ap Hin Hi (w & h & reg & rm & opc & tail & D & Hd & _ & F & _ & Im). cbn [lrow_of l_modrm] in D. destruct D as [(r & -> & D) ->].
  destruct Hd as (H1 & Hw & H2 & H3 & H4 & H5 & H6 & H7 & _ & H8). cbn [lrow_of l_pp l_map l_opc l_osz l_ops l_imm] in *.
  assert (h_opc h = q_opc q) as H8' by (rewrite H8; destruct (q_form q); reflexivity).
  assert (h_66 h = pp_is (q_pp q) P66) as H2' by (rewrite H2; destruct (q_form q); cbn; apply orb_false_r).
  assert (is_sse h q = true) as Q.
  { unfold is_sse. rewrite H1, H2', H3, H4, H5, H6, H7, H8', !Z.eqb_refl, !eqb_reflx. reflexivity. }
  destruct (decode_header _ _ _ _ _ _ _ D) as [c Hh]. unfold sexec. rewrite Hh, (find_sse _ _ _ Ap Hin Q), D. cbv zeta.
  assert (exists d o, ops = [d; o]
    /\ (let m := match r with RReg n _ => XReg n | RMem a => XMem (eff_addr (rg x) rip (h_67 h) a) end in
        forall i, match q_form q with Store => sse_do q i m (XReg reg) x | _ => sse_do q i (XReg reg) m x end = sse_do q i (where_ x d) (where_ x o) x)) as (d & o & -> & R).
  { assert (forall o, oper_ok w h reg (Some r) (r_ KX Sany) o -> XReg reg = where_ x o) as PR.
    { intros [b|a] P; cbn in P; [|now destruct P as (P & _)]. destruct P as ((k & K & If) & _ & -> & _). injection K as <-. symmetry. exact (xmm_where _ _ _ eq_refl If). }
    destruct (q_form q); inversion F as [|p1 d ps l P1 F1]; subst; inversion F1 as [|p2 o ps2 l2 P2 F2]; subst; inversion F2; subst; exists d, o; (split; [reflexivity|]).
    - intros m i. rewrite (PR _ P1). f_equal. unfold m. destruct o as [b|a]; cbn [oper_ok rm_ o_reg o_at o_mem o_size] in P2.
      + destruct P2 as ((k & K & If) & _ & Rr & _). injection K as <-. injection Rr as ->. symmetry. exact (xmm_where _ _ _ eq_refl If).
      + destruct P2 as (_ & _ & _ & m0 & Rr & Dn). injection Rr as ->. now apply mem_where.
    - intros m i. rewrite (PR _ P1). f_equal. unfold m. destruct o as [b|a]; cbn [oper_ok rm_ o_reg o_at o_mem o_size] in P2.
      + destruct P2 as ((k & K & If) & _ & Rr & _). injection K as <-. injection Rr as ->. symmetry. exact (xmm_where _ _ _ eq_refl If).
      + destruct P2 as (_ & _ & _ & m0 & Rr & Dn). injection Rr as ->. now apply mem_where.
    - intros m i. rewrite (PR _ P2). f_equal. unfold m. destruct d as [b|a]; cbn [oper_ok m_ o_reg o_at o_mem o_size] in P1.
      + destruct P1 as ((k & K & If) & _). discriminate K.
      + destruct P1 as (_ & _ & _ & m0 & Rr & Dn). injection Rr as ->. now apply mem_where. }
  cbv zeta in R. rewrite !R. unfold smeans. destruct Im as (Hl & Hb & Hv). destruct (q_imm q); cbn [imm_len] in Hl.
  - destruct tail as [|b [|? ?]]; cbn [List.length] in Hl; try lia. cbn [app]. cbn [le_val] in Hv. rewrite R. rewrite Z.mod_small in Hv by lia.
    replace b with imm by lia. reflexivity.
  - destruct tail; [reflexivity|cbn [List.length] in Hl; lia].
Qed.

(* ---- the methods ---- *)
Definition lrow_eq (a b : lrow) : {a = b} + {a <> b}. Proof. repeat decide equality. Defined.
Definition mmx_row (row : lrow) : bool := match l_ops row with mkOper _ (Some KM) false _ :: _ => true | _ => false end.
Definition is_store (q : sserow) : bool := match q_form q with Store => true | _ => false end.
Definition sig_okb (l : list lcls) : bool := match l with [tX; tOx] | [tM; tOx] => true | _ => false end.
Definition le_okb (e : lentry) : bool :=
  match sse_named (le_name e) with
  | Some q => forallb (fun row => if lrow_eq row (lrow_of q) then true else mmx_row row) (le_rows e) && sig_okb (le_sig e)
              && forallb (fun row => match l_imm row with I_none | I_8 => true | _ => false end) (le_rows e)
  | None => true end.
Definition me_okb (e : mentry) : bool :=
  match sse_named (me_name e) with
  | Some q => forallb (fun row => if lrow_eq row (lrow_of q) then true else false) (me_rows e)
  | None => true end.
Lemma sse_apart : sapart sse_proc = true. Proof. vm_compute. reflexivity. Qed.
Lemma leg_check : forallb le_okb legacy_table = true. Proof. vm_compute. reflexivity. Qed.
Lemma mix_check : forallb me_okb mix_table = true. Proof. vm_compute. reflexivity. Qed.
Lemma sse_named_in n q : sse_named n = Some q -> In q sse_proc.
Proof.
  unfold sse_named, sse_proc. destruct (find _ _) as [[n' q']|] eqn:F; [|discriminate]. apply find_some in F as [F _].
  intros H. injection H as <-. exact (in_map _ _ _ F).
Qed.
Lemma sig_high sg ops : sig_okb sg = true -> Forall2 larg_ok sg ops -> not_mmx ops -> high_ok ops.
Proof.
  intros S0 F N.
  assert (exists r o, ops = [OReg r; o] /\ vec_reg r /\ larg_ok tOx o) as (r & o & -> & Hr & Ho).
  { destruct sg as [|[] [|[] [|? ?]]]; try discriminate S0; inversion F as [|? d ? l P1 F1]; subst; inversion F1 as [|? o ? l2 P2 F2]; subst; inversion F2; subst;
      destruct d as [r|a]; try contradiction; exists r, o; (split; [reflexivity|]); (split; [|exact P2]); cbn in P1; [exact P1|].
    destruct P1 as [P1|P1]; auto. exfalso. apply (N r); cbn; auto. }
  intros Hh. assert (bit_ r <> 64 /\ bit_ r <> 8) as [A B].
  { destruct Hr as [K _]. lia. }
  inversion Hh as [? ? H|? ? H]; subst; [cbn in H; lia|]. inversion H as [? ? H0|? ? H0]; subst; [|inversion H0].
  destruct o as [b|a]; [|contradiction]. cbn in H0. repeat constructor; lia.
Qed.
Theorem sse_methods e q : In e legacy_table -> sse_named (le_name e) = Some q -> sse_method sse_proc e q.
Proof.
  intros Hin N ops imm act Hf Ha Hb Hn Hi s env pos its rest u rip x He.
  pose proof leg_check as C. rewrite forallb_forall in C. specialize (C _ Hin). unfold le_okb in C. rewrite N in C.
  apply andb_prop in C as [C C3]. apply andb_prop in C as [C1 C2].
  pose proof legacy_table_ok as T. rewrite Forall_forall in T.
  assert (Exists (fun row => lsays row ops imm (render s its) rest) (le_rows e)) as X.
  { apply (T _ Hin s ops imm act env pos its rest u); auto; [eapply sig_high; eauto|].
    apply Forall_forall. intros row Hr. rewrite forallb_forall in C3. specialize (C3 _ Hr). destruct (l_imm row); try discriminate; cbn; auto. }
  apply Exists_exists in X as (row & Hr & L). rewrite forallb_forall in C1. specialize (C1 _ Hr). cbv beta in C1.
  destruct (lrow_eq row (lrow_of q)) as [-> |_].
  - apply lsays_sexec; auto using sse_apart. now apply (sse_named_in (le_name e)).
  - exfalso. destruct L as (w & h & reg & rm & opc & tail & _ & _ & _ & F & _). unfold mmx_row in C1.
    destruct (l_ops row) as [|[pl [[]|] [|] sz] l]; try discriminate. inversion F as [|? d ? l2 P _]; subst. destruct d as [r|a]; cbn in P.
    + destruct P as ((k & K & If) & _). injection K as <-. apply (Hn r); cbn; auto.
    + destruct P as (P & _). discriminate P.
Qed.
Theorem sse_stores e q : In e mix_table -> sse_named (me_name e) = Some q -> sse_store sse_proc e q.
Proof.
  intros Hin N ops imm act Hf Ha Hb Hi s env pos its rest u rip x He.
  pose proof mix_check as C. rewrite forallb_forall in C. specialize (C _ Hin). unfold me_okb in C. rewrite N in C. rewrite forallb_forall in C.
  pose proof mix_all as T. rewrite Forall_forall in T.
  assert (Exists (fun row => lsays row ops imm (render s its) rest) (me_rows e)) as X.
  { apply (T _ Hin s ops imm act env pos its rest u); auto.
    apply Forall_forall. intros row Hr. specialize (C _ Hr). cbv beta in C. destruct (lrow_eq row (lrow_of q)) as [-> |]; [|discriminate]. cbn. destruct (q_imm q); cbn; auto. }
  apply Exists_exists in X as (row & Hr & L). specialize (C _ Hr). cbv beta in C. destruct (lrow_eq row (lrow_of q)) as [-> |]; [|discriminate].
  apply lsays_sexec; auto using sse_apart. now apply (sse_named_in (me_name e)).
Qed.
(* every instruction of the table is a method *)
Lemma sse_covered_check : forallb (fun t => existsb (fun e => String.eqb (fst t) (le_name e)) legacy_table || existsb (fun e => String.eqb (fst t) (me_name e)) mix_table) sse_isa = true.
Proof. vm_compute. reflexivity. Qed.
Theorem sse_covered t : In t sse_isa -> (exists e, In e legacy_table /\ le_name e = fst t) \/ (exists e, In e mix_table /\ me_name e = fst t).
Proof.
  intros H. pose proof sse_covered_check as C. rewrite forallb_forall in C. specialize (C _ H). cbv beta in C. apply orb_prop in C as [C|C]; [left|right];
    apply existsb_exists in C as (e & He & Q); exists e; (split; [exact He|]); symmetry; now apply String.eqb_eq.
Qed.
