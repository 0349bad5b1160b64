(* Which calls are accepted, continued: sweeps over the tables of APX and of the 32-bit build. *)
From Coq Require Import ZArith List Bool String Lia.
From Verif Require Import Base Types Emit EmitFacts Encode Mnemonic SpecX86 SpecAddr SpecIsa SpecInsn SpecLeg SpecMix SpecApx Wf ArgCheck ApxTables Say32Tables SpecAccept Accept SpecAccept2.
Import ListNotations.
Open Scope list_scope.
Open Scope Z_scope.

Definition high_numbers : list Z := map (Z.add 16) numbers.
Definition acompleteb (e : aentry) : bool :=
  forallb (fun row => forallb (fun w => forallb (fun n => let l := prod (as_arows n w (a_ops row)) in
    forallb (fun ops => match ae_fun e ops (imm_for (a_immk row) w) 0 with Some m => acc m | None => true end) (l ++ flat_map (nf_zu row) l)) high_numbers) (widths (a_osz row))) (ae_rows e).
Lemma acompleteb_ok e : acompleteb e = true -> acomplete e.
Proof.
  unfold acompleteb. intros H row w n ops act Hr Hw Hn Ho Hf. rewrite forallb_forall in H. specialize (H _ Hr). rewrite forallb_forall in H. specialize (H _ Hw).
  rewrite forallb_forall in H. specialize (H n). cbv zeta in H. rewrite forallb_forall in H.
  assert (In n high_numbers) as Hi by (apply in_map_iff; exists (n - 16); split; [lia|]; unfold numbers; apply in_map_iff; exists (Z.to_nat (n - 16)); split; [lia|apply in_seq; lia]).
  specialize (H Hi ops). rewrite Hf in H. apply acc_ok, H. apply in_or_app. destruct Ho as [Ho|(ops' & Ho & Hx)]; [now left|right]. apply in_flat_map. eauto.
Qed.
Theorem apx_complete e : In e apx_table -> acomplete e.
Proof.
  assert (forallb acompleteb apx_table = true) as C by (vm_compute; reflexivity).
  intros H. rewrite forallb_forall in C. apply acompleteb_ok, C, H.
Qed.

Definition numbers32 : list Z := [0; 1; 2; 3; 4; 5; 6; 7].
Definition completeb32 (f : insn) (rows : list lrow) (ex : lrow -> Z -> list Operand -> bool) : bool :=
  forallb (fun row => forallb (fun w => if w =? 64 then true else forallb (fun n => forallb (fun ops => match f ops (imm_for (l_imm row) w) with Some m => if acc m then true else ex row w ops | None => true end)
    (prod (as_rows32 n w (l_ops row)))) numbers32) (widths (l_osz row))) rows.
Lemma completeb32_ok f rows ex : completeb32 f rows ex = true -> complete32 f rows (fun row w ops => ex row w ops = true).
Proof.
  unfold completeb32. intros H row w n ops act Hr Hw H64 Hn Ho Hx Hf. rewrite forallb_forall in H. specialize (H _ Hr). rewrite forallb_forall in H. specialize (H _ Hw).
  cbv beta in H. replace (w =? 64) with false in H by lia. rewrite forallb_forall in H. specialize (H n). rewrite forallb_forall in H. specialize (H ltac:(cbn; lia) _ Ho).
  cbv beta in H. rewrite Hf in H. destruct (acc act) eqn:A; [now apply acc_ok|contradiction].
Qed.
Theorem legacy32_complete q e : In (q, e) leg32_table -> complete32 (le_fun e) (le_rows e) (fun row w ops => not_listed (le_name e) row w ops = true).
Proof.
  assert (forallb (fun p => completeb32 (le_fun (snd p)) (le_rows (snd p)) (not_listed (le_name (snd p)))) leg32_table = true) as C by (vm_compute; reflexivity).
  intros H. rewrite forallb_forall in C. apply completeb32_ok, (C _ H).
Qed.
Theorem mix32_complete q e : In (q, e) mix32_table -> complete32 (me_fun e) (me_rows e) (fun row w ops => not_listed (me_name e) row w ops = true).
Proof.
  assert (forallb (fun p => completeb32 (me_fun (snd p)) (me_rows (snd p)) (not_listed (me_name (snd p)))) mix32_table = true) as C by (vm_compute; reflexivity).
  intros H. rewrite forallb_forall in C. apply completeb32_ok, (C _ H).
Qed.

Definition mems32 (bc : bool) (n : Z) : list Operand := flat_map (fun k => map (memory32 bc k) [0; 32; 64; 128; 256; 512]) [n; 3].
Definition cand32 (md : source_is) (n : Z) (c : cls) : list Operand :=
  match md, c with
  | AReg, (SpecInsn.cA | cMs _ | cMn _) | AMem, (cO | SpecInsn.cA | cMs _ | cMn _) => mems32 false n
  | ABroadcast, (cO | SpecInsn.cA) => mems32 true n
  | _, _ => filter exists32 (filter (arg_okb c) (vecs n ++ gprs ++ [OReg (Opmask 1); OReg (Tmm n)])) end.
Fixpoint cands32 (md : source_is) (b : Z) (l : list cls) : list (list Operand) := match l with [] => [] | c :: l => cand32 md b c :: cands32 md (b + 1) l end.
Definition simple32 (md : source_is) (n vl : Z) (c : cls) : Operand :=
  match c with
  | cX | cY | cZ | cX4 => vec n vl | cK => OReg (Opmask 1)
  | cO => match md with AMem => memory32 false n 0 | ABroadcast => memory32 true n 0 | _ => vec n vl end
  | _ => memory32 false n 0 end.
Fixpoint simples32 (md : source_is) (n vl : Z) (l : list cls) : list Operand := match l with [] => [] | c :: l => simple32 md n vl c :: simples32 md (n + 1) vl l end.
Definition good32 (e : entry) (md : source_is) (vl : Z) (ops : list Operand) : bool :=
  let v := vl_of (en_vl e) (en_row e) ops in
  if (vl =? 0) || (v =? vl) then if forallb (fun o => width o <=? v) ops then
    match en_fun e ops 1 with
    | Some m => if acc m then forallb exists32 ops && existsb (has_sourceb md) ops && forallb (numberedb 1) ops else false
    | None => false end else false else false.
Definition found32 (e : entry) (md : source_is) (vl : Z) : bool :=
  if good32 e md vl (simples32 md 1 vl (en_sig e)) then true else existsb (good32 e md vl) (prod (cands32 md 1 (en_sig e))).
Definition dues32 (e : entry) : list (source_is * Z) :=
  let mds := if memory_source e then [AReg; AMem] else [AReg] in
  match r_vex (en_row e) with Some f => list_prod mds (lengths (f_L f)) | None => [] end
  ++ match r_evex (en_row e) with
     | Some f => list_prod (mds ++ if memory_source e then match e_bcast f with Some _ => [ABroadcast] | None => [] end else []) (lengths (f_L (e_form f)))
     | None => [] end.
(* what is not taken: as in the 64-bit build, and the forms that move a 64-bit general register *)
Definition left_out32 (name : string) (md : source_is) (vl : Z) : bool :=
  left_out name md vl || match md with AReg => existsb (String.eqb name) ["vpextrq/oxi"; "vpinsrq/xxoi"]%string | _ => false end.
Lemma dues32_ok e md vl : due32 e md vl -> In (md, vl) (dues32 e).
Proof.
  intros D. unfold dues32. apply in_or_app. destruct D as [e f vl R L|e f vl R L|e f vl R L Q|e f vl R L Q|e f n vl R B L Q]; rewrite R.
  - left. apply in_prod; [destruct (memory_source e); now left|exact L].
  - right. apply in_prod; [apply in_or_app; left; destruct (memory_source e); now left|exact L].
  - left. rewrite Q. apply in_prod; [right; now left|exact L].
  - right. rewrite Q. apply in_prod; [apply in_or_app; left; right; now left|exact L].
  - right. rewrite Q, B. apply in_prod; [apply in_or_app; right; now left|exact L].
Qed.
Lemma found32_ok e md vl : found32 e md vl = true -> takes32 e md vl.
Proof.
  unfold found32. intros H. assert (exists ops, good32 e md vl ops = true) as (ops & G).
  { destruct (good32 e md vl (simples32 md 1 vl (en_sig e))) eqn:G; [eauto|]. apply existsb_exists in H as (ops & _ & H). eauto. }
  clear H. rename G into H. unfold good32 in H.
  destruct ((vl =? 0) || _) eqn:H1; [|discriminate]. destruct (forallb _ ops) eqn:H2 in H; [|discriminate]. destruct (en_fun e ops 1) as [m|] eqn:H3; [|discriminate].
  destruct (acc m) eqn:H4; [|discriminate]. apply andb_prop in H as [H H8]. apply andb_prop in H as [H6 H7].
  exists ops, m. split; [exact H3|]. split; [now apply acc_ok|]. split; [exact H6|].
  split; [apply Forall_forall; intros o Ho; rewrite forallb_forall in H2; specialize (H2 _ Ho); lia|]. split; [lia|]. split.
  - apply Exists_exists. apply existsb_exists in H7 as (o & Ho & Q). exists o. split; [exact Ho|]. destruct md, o; cbn in *; auto; try discriminate; [now apply negb_true_iff|lia].
  - apply Forall_forall. intros o Ho. rewrite forallb_forall in H8. specialize (H8 _ Ho). destruct o as [r|a]; cbn in *; [|exact Logic.I]. intros V. rewrite (vec_regb_iff _ V) in H8. lia.
Qed.
Lemma all_takes32 : forallb (fun p => forallb (fun '(md, vl) => if left_out32 (en_name (snd p)) md vl then true else found32 (snd p) md vl) (dues32 (snd p))) vex32_table = true.
Proof. vm_compute. reflexivity. Qed.
Theorem vector32_take q e md vl : In (q, e) vex32_table -> due32 e md vl -> left_out32 (en_name e) md vl = false -> takes32 e md vl.
Proof.
  intros H D L. pose proof all_takes32 as C. rewrite forallb_forall in C. specialize (C _ H). cbn [snd] in C. rewrite forallb_forall in C.
  specialize (C _ (dues32_ok _ _ _ D)). cbv beta iota in C. rewrite L in C. now apply found32_ok.
Qed.
