(* Which calls are accepted: sweeps over the tables. *)
From Coq Require Import ZArith List Bool String Lia.
From Verif Require Import Base Types Emit EmitFacts Encode Mnemonic SpecX86 SpecAddr SpecIsa SpecInsn SpecLeg SpecMix Wf ArgCheck IsaRows VexTables VmovD KTile VexMore LegTables LegTables2 MixTables MixTables2 SpecAccept.
Import ListNotations.
Open Scope list_scope.
Open Scope Z_scope.

Definition acc (m : E unit) : bool := match m env0 0 with (_ :: _, Ok _) => true | _ => false end.
Lemma acc_ok m : acc m = true -> accepted m.
Proof. unfold acc, accepted. destruct (m env0 0) as [[|i its] [[]|x]] eqn:Q; try discriminate. intros _. exists i, its. split; [reflexivity|exact Q]. Qed.

(* ---- legacy ---- *)
Definition numbers : list Z := map Z.of_nat (seq 0 16).
Definition completeb (f : insn) (rows : list lrow) (ex : lrow -> Z -> list Operand -> bool) : bool :=
  forallb (fun row => forallb (fun w => forallb (fun n => forallb (fun ops => match f ops (imm_for (l_imm row) w) with Some m => if acc m then true else ex row w ops | None => true end)
    (prod (as_rows n w (l_ops row)))) numbers) (widths (l_osz row))) rows.
Lemma completeb_ok f rows ex : completeb f rows ex = true -> complete f rows (fun row w ops => ex row w ops = true).
Proof.
  unfold completeb. intros H row w n ops act Hr Hw Hn Ho Hx Hf. rewrite forallb_forall in H. specialize (H _ Hr). rewrite forallb_forall in H. specialize (H _ Hw).
  rewrite forallb_forall in H. specialize (H n). rewrite forallb_forall in H. specialize (H ltac:(unfold numbers; apply in_map_iff; exists (Z.to_nat n); split; [lia|apply in_seq; lia]) _ Ho).
  cbv beta in H. rewrite Hf in H. destruct (acc act) eqn:A; [now apply acc_ok|contradiction].
Qed.

Theorem legacy_complete e : In e (legacy_table ++ gpr_table) -> complete (le_fun e) (le_rows e) (fun row w ops => not_listed (le_name e) row w ops = true).
Proof.
  assert (forallb (fun e => completeb (le_fun e) (le_rows e) (not_listed (le_name e))) (legacy_table ++ gpr_table) = true) as C by (vm_compute; reflexivity).
  intros H. rewrite forallb_forall in C. apply completeb_ok, C, H.
Qed.
Theorem mix_complete e : In e (mix_table ++ mix2_table ++ wait_table) -> complete (me_fun e) (me_rows e) (fun row w ops => not_listed (me_name e) row w ops = true).
Proof.
  assert (forallb (fun e => completeb (me_fun e) (me_rows e) (not_listed (me_name e))) (mix_table ++ mix2_table ++ wait_table) = true) as C by (vm_compute; reflexivity).
  intros H. rewrite forallb_forall in C. apply completeb_ok, C, H.
Qed.

(* ---- VEX and EVEX ---- *)
Definition vecs (n : Z) : list Operand := [OReg (Xmm n); OReg (Ymm n); OReg (Zmm n)].
Definition gprs : list Operand := [OReg (Reg32 1); OReg (Reg64 1); OReg (Reg16 1); OReg (Reg8 1)].
Definition mems (bc : bool) (n : Z) : list Operand := flat_map (fun k => map (memory bc k) [0; 32; 64; 128; 256; 512]) [n mod 16; 3].
Definition rounded (k : Z) (o : Operand) : Operand := match o with OReg r => OReg (set_rounding r k) | _ => o end.
Definition cand (md : source_is) (n : Z) (c : cls) : list Operand :=
  filter (arg_okb c)
   (match md, c with
    | AReg, (cA | cMs _ | cMn _) | AMem, (cO | cA | cMs _ | cMn _) => mems false n
    | ABroadcast, (cO | cA) => mems true n
    | ARounded k, cO => map (rounded k) (vecs n)
    | _, _ => vecs n ++ gprs ++ [OReg (Opmask 1); OReg (Tmm (n mod 8))] end).
Fixpoint cands (md : source_is) (b : Z) (l : list cls) : list (list Operand) := match l with [] => [] | c :: l => cand md b c :: cands md (b + 1) l end.
Definition has_sourceb (md : source_is) (o : Operand) : bool :=
  match md, o with AReg, _ => true | AMem, OMem a => negb (a_broadcast a) | ABroadcast, OMem a => a_broadcast a | ARounded k, OReg r => rounding_ r =? k | _, _ => false end.
Definition numberedb (b : Z) (o : Operand) : bool := match o with OReg r => if vec_regb r then (b <=? regno r) && (regno r <? b + 4) else true | _ => true end.
Definition good (e : entry) (md : source_is) (b vl : Z) (ops : list Operand) : bool :=
  let v := vl_of (en_vl e) (en_row e) ops in
  if (vl =? 0) || (v =? vl) then if forallb (fun o => width o <=? v) ops then
    match en_fun e ops 1 with
    | Some m => if acc m then args_okb (en_sig e) ops && forallb (fun o => match o with OMem a => mask_ (a_op a) =? 0 | _ => true end) ops && existsb (has_sourceb md) ops && forallb (numberedb b) ops else false
    | None => false end else false else false.
(* first all vector operands of one length, then all combinations *)
Definition vec (n vl : Z) : Operand := OReg (if vl =? 512 then Zmm n else if vl =? 256 then Ymm n else Xmm n).
Definition simple (md : source_is) (n vl : Z) (c : cls) : Operand :=
  match c with
  | cX | cY | cZ | cX4 => vec n vl | cK => OReg (Opmask 1)
  | cO => match md with AReg => vec n vl | AMem => memory false (n mod 16) 0 | ABroadcast => memory true (n mod 16) 0 | ARounded k => rounded k (vec n vl) end
  | _ => memory false (n mod 16) 0 end.
Fixpoint simples (md : source_is) (n vl : Z) (l : list cls) : list Operand := match l with [] => [] | c :: l => simple md n vl c :: simples md (n + 1) vl l end.
Definition found (e : entry) (md : source_is) (b vl : Z) : bool :=
  if good e md b vl (simples md b vl (en_sig e)) then true
  else if match md with ARounded _ => good e md b vl (simples md b 512 (en_sig e)) | _ => false end then true
  else existsb (good e md b vl) (prod (cands md b (en_sig e))).
Lemma vec_regb_iff r : vec_reg r -> vec_regb r = true.
Proof. unfold vec_reg, vec_regb. lia. Qed.
Lemma found_good e md b vl : found e md b vl = true -> exists ops, good e md b vl ops = true.
Proof.
  unfold found. intros H. destruct (good e md b vl (simples md b vl (en_sig e))) eqn:G; [eauto|].
  destruct (match md with ARounded _ => _ | _ => false end) eqn:G'; [destruct md; try discriminate; eauto|]. apply existsb_exists in H as (ops & _ & H). eauto.
Qed.
Lemma found_ok e md b vl : found e md b vl = true -> takes e md b vl.
Proof.
  intros H. apply found_good in H as (ops & H). unfold good in H.
  destruct ((vl =? 0) || _) eqn:H1; [|discriminate]. destruct (forallb _ ops) eqn:H2 in H; [|discriminate]. destruct (en_fun e ops 1) as [m|] eqn:H3; [|discriminate].
  destruct (acc m) eqn:H4; [|discriminate]. apply andb_prop in H as [H H8]. apply andb_prop in H as [H H7]. apply andb_prop in H as [H5 H6].
  exists ops, m. split; [exact H3|]. split; [now apply acc_ok|]. split; [now apply args_okb_ok|]. split; [now apply one_mask_none|].
  split; [apply Forall_forall; intros o Ho; rewrite forallb_forall in H2; specialize (H2 _ Ho); lia|]. split; [lia|]. split.
  - apply Exists_exists. apply existsb_exists in H7 as (o & Ho & Q). exists o. split; [exact Ho|]. destruct md, o; cbn in *; auto; try discriminate; [now apply negb_true_iff|lia].
  - apply Forall_forall. intros o Ho. rewrite forallb_forall in H8. specialize (H8 _ Ho). destruct o as [r|a]; cbn in *; [|exact Logic.I]. intros V. rewrite (vec_regb_iff _ V) in H8. lia.
Qed.

Definition methods (enc : PreferredEncoding) : list entry :=
  vex_table enc ++ vex_table_norc enc ++ movd_table enc ++ kmov_table ++ tile_table ++ evexmem_table ++ onevex_table ++ onvex_table ++ onbcast_table enc.
Definition dues (e : entry) : list (source_is * Z * Z) :=
  let mds := if memory_source e then [AReg; AMem] else [AReg] in
  match r_vex (en_row e) with Some f => list_prod (list_prod mds [1; 12]) (lengths (f_L f)) | None => [] end
  ++ match r_evex (en_row e) with
     | Some f => list_prod (list_prod (mds ++ if memory_source e then match e_bcast f with Some _ => [ABroadcast] | None => [] end else []) [17; 28]) (lengths (f_L (e_form f)))
       ++ (if memory_source e then match e_rc f with Er => map (fun k => (ARounded k, 17, 0)) [1; 2; 3; 4] | Sae => [(ARounded 5, 17, 0)] | NoRc => [] end else [])
     | None => [] end.
Lemma dues_ok e md b vl : due e md b vl -> In (md, b, vl) (dues e).
Proof.
  intros H. unfold dues. destruct H as [e f b vl R L B|e f b vl R L B T|e f b vl R L B|e f b vl R L B T|e f n b vl R W L B T|e f k R W K T|e f R W T]; rewrite R; try rewrite T.
  - apply in_or_app; left. apply in_prod; [apply in_prod|]; auto. destruct (memory_source e); now left.
  - apply in_or_app; left. apply in_prod; [apply in_prod|]; auto. now right; left.
  - apply in_or_app; right. apply in_or_app; left. apply in_prod; [apply in_prod|]; auto. apply in_or_app; left. destruct (memory_source e); now left.
  - apply in_or_app; right. apply in_or_app; left. apply in_prod; [apply in_prod|]; auto. apply in_or_app; left. now right; left.
  - apply in_or_app; right. apply in_or_app; left. apply in_prod; [apply in_prod|]; auto. apply in_or_app; right. rewrite W. now left.
  - apply in_or_app; right. apply in_or_app; right. rewrite W. apply in_map_iff. exists k. split; [reflexivity|]. cbn. lia.
  - apply in_or_app; right. apply in_or_app; right. rewrite W. now left.
Qed.
(* what is not taken *)
Definition left_out (name : string) (md : source_is) (vl : Z) : bool :=
  let is l := existsb (String.eqb name) l in
  match md with
  | AReg | AMem => is ["vsm4key4/xxo"; "vsm4rnds4/xxo"]%string && (128 <? vl)
  | ABroadcast => is ["valignd/xxoi"; "valignq/xxoi"]%string
  | ARounded k => (k =? 5) && is ["vfixupimmss/xxoi"; "vfixupimmsd/xxoi"; "vcvttps2ibs/xo"; "vcvttps2iubs/xo"; "vcvttph2ibs/xo"; "vcvttph2iubs/xo"]%string end.
Definition takesb (p : entry * entry) : bool :=
  forallb (fun '(md, b, vl) => if left_out (en_name (fst p)) md vl then true else if found (fst p) md b vl then true else found (snd p) md b vl) (dues (fst p)).
Definition pairs : list (entry * entry) := combine (methods DefaultEncoding) (methods AVX10v2Encoding).
Lemma all_takes : forallb takesb pairs = true. Proof. vm_compute. reflexivity. Qed.
Lemma pairs_length : Nat.eqb (List.length (methods DefaultEncoding)) (List.length (methods AVX10v2Encoding)) = true. Proof. vm_compute. reflexivity. Qed.
Lemma nth_combine {A B} (l : list A) (l' : list B) k a : List.length l = List.length l' -> nth_error l k = Some a -> exists b, nth_error l' k = Some b /\ In (a, b) (combine l l').
Proof.
  revert l' k. induction l as [|x l IH]; intros [|y l'] [|k] L H; try discriminate.
  - exists y. injection H as ->. split; [reflexivity|now left].
  - injection L as L. destruct (IH l' k L H) as (b & Q & J). exists b. split; [exact Q|now right].
Qed.
Theorem methods_take k e md b vl : nth_error (methods DefaultEncoding) k = Some e -> due e md b vl -> left_out (en_name e) md vl = false ->
  exists enc e', nth_error (methods enc) k = Some e' /\ takes e' md b vl.
Proof.
  intros Hk D L. destruct (nth_combine _ (methods AVX10v2Encoding) k e (proj1 (Nat.eqb_eq _ _) pairs_length) Hk) as (e' & Hk' & J).
  pose proof all_takes as C. rewrite forallb_forall in C. specialize (C _ J). unfold takesb in C. cbn [fst snd] in C. rewrite forallb_forall in C.
  specialize (C _ (dues_ok _ _ _ _ D)). cbv beta iota in C. rewrite L in C. destruct (found e md b vl) eqn:F.
  - exists DefaultEncoding, e. split; [exact Hk|now apply found_ok].
  - exists AVX10v2Encoding, e'. split; [exact Hk'|now apply found_ok].
Qed.
(* the place of a method *)
Definition index (name : string) : nat := (fix go (l : list entry) (k : nat) := match l with [] => k | e :: l => if String.eqb name (en_name e) then k else go l (S k) end) (methods DefaultEncoding) O.
