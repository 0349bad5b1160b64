(* The invariant that relates the generator state to the abstract label table (SpecLabel), and the
   ways in which the basic state changes preserve it. *)
From Coq Require Import ZArith List Bool String Arith Lia ZifyBool Permutation.
From Verif Require Import Base Types Emit EmitFacts Encode State Code Label Gen Wp CodeFacts SpecLabel LabelFacts.
Import ListNotations.
Open Scope Z_scope.

(* status of a reference: waiting for its label; saved for ready() (AutoGrow); written *)
Inductive status := Pend | Saved | Writ.
Definition gref := (ref * status)%type.

Definition jmp_of (auto : bool) (r : ref) : JmpLabel :=
  mkJmp (r_pos r + r_size r) (r_size r) (if r_rel r then LasIs else if auto then LaddTop else Labs) (r_d r).
Definition valOf (r : ref) : Z := match r_val r with Some o => o | None => 0 end.
Definition info_of (r : ref) : AddrInfo :=
  match r_tid r with
  | None => mkAI (r_pos r) (w64 (r_d r - (r_pos r + r_size r))) 4 Labs
  | Some _ => if r_rel r then mkAI (r_pos r) (w64 (valOf r - (r_pos r + r_size r) + r_d r)) (r_size r) LasIs
              else mkAI (r_pos r) (valOf r) (r_size r) LaddTop
  end.
Fixpoint infos_of (g : list gref) : list AddrInfo :=
  match g with
  | [] => []
  | (r, Saved) :: g' => info_of r :: infos_of g'
  | _ :: g' => infos_of g'
  end.
Definition pend1 {K} (key : TId -> option K) (auto : bool) (x : gref) : list (K * JmpLabel) :=
  match x with
  | (r, Pend) => match r_tid r with
      | Some t => match key t with Some k => [(k, jmp_of auto r)] | None => [] end
      | None => [] end
  | _ => []
  end.
Definition pend_of {K} (key : TId -> option K) (auto : bool) (g : list gref) : list (K * JmpLabel) :=
  flat_map (pend1 key auto) g.

Definition fkey (t : TId) : option string :=
  match t with
  | TGlobal s => Some s
  | TAnon m => Some (if Nat.even m then "@b"%string else "@f"%string)
  | _ => None end.
Definition skey (j : nat) (t : TId) : option string :=
  match t with TLocal j' s => if Nat.eqb j j' then Some s else None | _ => None end.
Definition ckey (gid : ident -> Z) (t : TId) : option Z :=
  match t with TObj i => Some (gid i) | _ => None end.

(* fields lie one after another, the newest first *)
Fixpoint layout (bound : Z) (g : list gref) : Prop :=
  match g with
  | [] => 0 <= bound
  | (r, _) :: g' => (r_size r = 1 \/ r_size r = 4 \/ r_size r = 8) /\ r_pos r + r_size r <= bound /\ layout (r_pos r) g'
  end.
Definition fits (n v : Z) : Prop := if n =? 1 then -128 <= v < 128 else if n =? 4 then -2147483648 <= v < 2147483648 else True.
(* a label-relative field holds the exact displacement *)
Definition fitsL (r : ref) (o : Z) : Prop :=
  r_tid r <> None -> r_rel r = true -> fits (r_size r) (s64 (o + r_d r - (r_pos r + r_size r))).
Definition field (c : Code) (r : ref) (o : Z) : Prop :=
  mem_has (c_mem c) (r_pos r) (le_bytes (want (c_top c) r o) (Z.to_nat (r_size r))).
Definition shape (r : ref) : Prop :=
  (r_tid r = None -> r_rel r = true) /\ (r_rel r = false -> r_size r = 8) /\ (r_rel r = true -> r_size r = 1 \/ r_size r = 4).
Definition ref_ok (c : Code) (rdy : bool) (x : gref) : Prop :=
  let r := fst x in
  shape r /\
  match snd x with
  | Pend => r_val r = None /\ r_tid r <> None
  | Saved => isAutoGrowC c = true /\ rdy = false /\
             exists o, r_val r = Some o /\ fitsL r o /\ (r_tid r = None -> r_size r = 4)
  | Writ => exists o, r_val r = Some o /\ fitsL r o /\ field c r o /\
             (isAutoGrowC c = true -> rdy = false -> r_tid r <> None /\ r_rel r = true) /\
             (isAutoGrowC c = true -> r_tid r = None -> fits (r_size r) (s64 (want (c_top c) r o)))
  end.
Record RefI (c : Code) (rdy : bool) (g : list gref) (bnd : Z) : Prop := mkRI {
  ri_layout : layout bnd g;
  ri_bnd : bnd <= c_size c;
  ri_ok : Forall (ref_ok c rdy) g;
  ri_infos : isAutoGrowC c = true -> rdy = false -> Permutation (c_infos c) (infos_of g);
  ri_called : c_called c = isAutoGrowC c && rdy }.

Record PendI (auto : bool) (lm : LabelMgr) (a : Spec) (g : list gref) (gid : ident -> Z) : Prop := mkPI {
  pi_front : Permutation (ss_undef (lm_front lm)) (pend_of fkey auto g);
  pi_scopes : Forall2 (fun j ss => Permutation (ss_undef ss) (pend_of (skey j) auto g)) (sp_scopes a) (lm_stack lm);
  pi_class : Permutation (lm_undef lm) (pend_of (ckey gid) auto g) }.

Definition special (s : string) : bool := String.eqb s "@f"%string || String.eqb s "@b"%string.
Record NameI (lm : LabelMgr) (a : Spec) : Prop := mkNI {
  ni_glob : forall s, isLocalStr s = false -> special s = false ->
            assoc String.eqb s (ss_def (lm_front lm)) = sp_defs a (TGlobal s);
  ni_f : assoc String.eqb "@f"%string (ss_def (lm_front lm)) = if Nat.odd (sp_anon a) then sp_defs a (TAnon (sp_anon a)) else None;
  ni_b : assoc String.eqb "@b"%string (ss_def (lm_front lm)) = if Nat.even (sp_anon a) then sp_defs a (TAnon (sp_anon a)) else None;
  ni_anon : forall m, sp_defs a (TAnon m) <> None <-> (1 <= m <= sp_anon a)%nat;
  ni_scopes : Forall2 (fun j ss => forall s, isLocalStr s = true -> assoc String.eqb s (ss_def ss) = sp_defs a (TLocal j s))
                (sp_scopes a) (lm_stack lm);
  ni_nodup : NoDup (sp_scopes a);
  ni_ne : sp_scopes a <> [];
  ni_lt : Forall (fun j => (j < sp_nscope a)%nat) (sp_scopes a);
  ni_new : forall j s, (sp_nscope a <= j)%nat -> sp_defs a (TLocal j s) = None }.

Definition old (a : Spec) (i : ident) : Prop :=
  match i with Fresh n => (n < sp_nlab a)%nat | AfterReset e _ => (e < sp_epoch a)%nat end.
Record ObjI (lm : LabelMgr) (lbl : LabelH -> LabelObj) (a : Spec) (gid : ident -> Z) : Prop := mkOI {
  oi_next : 1 <= lm_nextId lm;
  oi_rng : forall i, 0 <= gid i < lm_nextId lm;
  oi_inj : forall i j, gid i <> 0 -> gid i = gid j -> i = j;
  oi_def : forall i, gid i <> 0 -> option_map fst (assoc Z.eqb (gid i) (lm_def lm)) = sp_defs a (TObj i);
  oi_undef : forall i, gid i = 0 -> sp_defs a (TObj i) = None;
  oi_zero : assoc Z.eqb 0 (lm_def lm) = None;
  oi_free : forall k, lm_nextId lm <= k -> assoc Z.eqb k (lm_def lm) = None;
  oi_touched : forall i, gid i <> 0 -> In i (sp_touched a);
  oi_old : forall i, gid i <> 0 -> old a i;
  oi_labold : forall h i, labOf a h = Some i -> old a i;
  oi_lab : forall h, match labOf a h with
                     | Some i => l_alive (lbl h) = true /\ l_id (lbl h) = gid i /\ l_mgr (lbl h) = isDef a i
                     | None => l_alive (lbl h) = false end;
  oi_nodup : NoDup (map fst (sp_lab a));
  oi_one : forall i, isDef a i = false -> (countId i (sp_lab a) <= 1)%nat;
  oi_count : forall i o rc, assoc Z.eqb (gid i) (lm_def lm) = Some (o, rc) -> gid i <> 0 ->
             rc = Z.of_nat (countId i (sp_lab a)) /\ 1 <= rc;
  oi_ptrs : forall h, In h (lm_ptrs lm) <-> exists i, labOf a h = Some i /\ isDef a i = true;
  oi_pnodup : NoDup (lm_ptrs lm) }.

Definition tid_wf (a : Spec) (t : TId) : Prop :=
  match t with
  | TGlobal s => isLocalStr s = false /\ special s = false
  | TLocal j s => isLocalStr s = true /\ In j (sp_scopes a)
  | TAnon m => m = S (sp_anon a)
  | TObj _ => True
  end.
Definition TidI (a : Spec) (gid : ident -> Z) (g : list gref) : Prop :=
  Forall (fun x : gref => forall t, r_tid (fst x) = Some t ->
     (match t with TObj i => gid i <> 0 | _ => True end) /\
     (snd x = Pend -> sp_defs a t = None /\ tid_wf a t)) g.
Definition DefI (c : Code) (a : Spec) : Prop := forall t o, sp_defs a t = Some o -> 0 <= o <= c_size c.

Record Inv0 (c : Code) (lm : LabelMgr) (lbl : LabelH -> LabelObj) (a : Spec)
    (g : list gref) (gid : ident -> Z) (bnd : Z) : Prop := mkInv0 {
  iv_refs : map fst g = sp_refs a;
  iv_ref : RefI c (sp_ready a) g bnd;
  iv_pend : PendI (isAutoGrowC c) lm a g gid;
  iv_name : NameI lm a;
  iv_obj : ObjI lm lbl a gid;
  iv_tid : TidI a gid g;
  iv_def : DefI c a }.
Definition Inv (s : St) (a : Spec) : Prop :=
  ok_st s /\ exists g gid bnd, Inv0 (g_code s) (g_lm s) (g_labels s) a g gid bnd.

(* ---- equality tests ---- *)
Lemma ident_eqb_ok a b : ident_eqb a b = true <-> a = b.
Proof.
  destruct a, b; cbn [ident_eqb]; rewrite ?andb_true_iff, ?Nat.eqb_eq; split; intros H;
    try discriminate; try (inversion H; subst; auto); try (destruct H; subst; auto); auto.
Qed.
Lemma TId_eqb_ok a b : TId_eqb a b = true <-> a = b.
Proof.
  destruct a, b; cbn [TId_eqb]; rewrite ?andb_true_iff, ?Nat.eqb_eq, ?String.eqb_eq, ?ident_eqb_ok; split; intros H;
    try discriminate; try (inversion H; subst; auto); try (destruct H; subst; auto); auto.
Qed.
Lemma TId_eqb_refl t : TId_eqb t t = true.
Proof. now apply TId_eqb_ok. Qed.
Lemma TId_eqb_neq a b : a <> b -> TId_eqb a b = false.
Proof. intros H. destruct (TId_eqb a b) eqn:E; auto. apply TId_eqb_ok in E. contradiction. Qed.
Lemma updT_same f t v : updT f t v t = v.
Proof. unfold updT. now rewrite TId_eqb_refl. Qed.
Lemma updT_other f t v t' : t <> t' -> updT f t v t' = f t'.
Proof. intros H. unfold updT. now rewrite TId_eqb_neq. Qed.
Lemma is_tid_ok t r : is_tid t r = true <-> r_tid r = Some t.
Proof.
  unfold is_tid. destruct (r_tid r) as [t'|]; [|split; discriminate].
  rewrite TId_eqb_ok. split; intros H; [now subst|now inversion H].
Qed.

(* ---- layout ---- *)
Lemma layout_bnd g : forall b, layout b g -> 0 <= b.
Proof.
  induction g as [|[r st] g IH]; cbn [layout]; intros b H; auto.
  destruct H as (Hs & Hb & Hl). apply IH in Hl. lia.
Qed.
Lemma layout_mono g b b' : layout b g -> b <= b' -> layout b' g.
Proof. destruct g as [|[r st] g]; cbn [layout]; intros H Hb; [lia|]. destruct H as (H1 & H2 & H3). repeat split; auto; lia. Qed.
Lemma layout_in g : forall b x, layout b g -> In x g ->
  (r_size (fst x) = 1 \/ r_size (fst x) = 4 \/ r_size (fst x) = 8) /\ 0 <= r_pos (fst x) /\ r_pos (fst x) + r_size (fst x) <= b.
Proof.
  induction g as [|[r st] g IH]; cbn [layout]; intros b x H []; destruct H as (Hs & Hb & Hl).
  - subst x. cbn [fst]. pose proof (layout_bnd _ _ Hl). repeat split; auto.
  - destruct (IH _ _ Hl H0) as (A & B & C). repeat split; auto. lia.
Qed.
Definition rdisj (a b : ref) : Prop := r_pos a + r_size a <= r_pos b \/ r_pos b + r_size b <= r_pos a.
Lemma layout_disj g : forall b, layout b g -> ForallOrdPairs rdisj (map fst g).
Proof.
  induction g as [|[r st] g IH]; cbn [layout map fst]; intros b H; [constructor|].
  destruct H as (Hs & Hb & Hl). constructor; [|eapply IH; eauto].
  apply Forall_forall. intros r' Hr'. apply in_map_iff in Hr' as (x & <- & Hx).
  destruct (layout_in _ _ _ Hl Hx) as (_ & _ & H). right. lia.
Qed.

(* ---- code growth ---- *)
Lemma ref_ok_ext c c' rdy x bnd :
  isAutoGrowC c && rdy = false -> ext c c' -> 0 <= r_pos (fst x) -> r_pos (fst x) + r_size (fst x) <= bnd -> bnd <= c_size c ->
  0 <= r_size (fst x) ->
  ref_ok c rdy x -> ref_ok c' rdy x.
Proof.
  intros Hf E Hp Hb Hc Hs0 (Hs & H). split; [exact Hs|]. pose proof (ext_auto _ _ E) as Ha.
  destruct (snd x); rewrite ?Ha; auto.
  destruct H as (o & Ho & Hfit & Hfield & Hauto & Habs). exists o. do 2 (split; [assumption|]).
  split; [|split; [exact Hauto|]].
  2: { intros Hca Ht. rewrite Hca in Hf. destruct (Hauto Hca Hf). contradiction. }
  unfold field in *. replace (want (c_top c') (fst x) o) with (want (c_top c) (fst x) o).
  - eapply mem_has_ext; [|exact Hfield]. rewrite le_bytes_length. intros k Hk. apply (ex_mem _ _ E). lia.
  - destruct (isAutoGrowC c) eqn:Hca.
    + cbn [andb] in Hf. destruct (Hauto eq_refl Hf) as [Ht Hr]. unfold want.
      destruct (r_tid (fst x)); [|congruence]. now rewrite Hr.
    + destruct (ex_fixed _ _ E Hca) as (-> & _). reflexivity.
Qed.
Lemma RefI_ext c c' rdy g bnd :
  isAutoGrowC c && rdy = false -> ext c c' -> RefI c rdy g bnd -> RefI c' rdy g bnd.
Proof.
  intros Hf E []. pose proof (ex_size _ _ E). constructor; auto; try lia.
  - rewrite Forall_forall in *. intros x Hx. destruct (layout_in _ _ _ ri_layout0 Hx) as (A & B & C).
    eapply ref_ok_ext; eauto. lia.
  - rewrite (ext_auto _ _ E), (ex_infos _ _ E). auto.
  - rewrite (ex_called _ _ E), (ext_auto _ _ E). auto.
Qed.
Lemma Inv0_ext c c' lm lbl a g gid bnd :
  isAutoGrowC c && sp_ready a = false -> ext c c' -> Inv0 c lm lbl a g gid bnd -> Inv0 c' lm lbl a g gid bnd.
Proof.
  intros Hf E []. constructor; auto.
  - eapply RefI_ext; eauto.
  - rewrite (ext_auto _ _ E). auto.
  - intros t o Ho. apply iv_def0 in Ho. pose proof (ex_size _ _ E). lia.
Qed.
Lemma RefI_bnd c rdy g b b' : b <= b' -> b' <= c_size c -> RefI c rdy g b -> RefI c rdy g b'.
Proof. intros H1 H2 []. constructor; auto. eapply layout_mono; eauto. Qed.
Lemma Inv0_bnd c lm lbl a g gid b b' : b <= b' -> b' <= c_size c -> Inv0 c lm lbl a g gid b -> Inv0 c lm lbl a g gid b'.
Proof. intros H1 H2 []. constructor; auto. eapply RefI_bnd; eauto. Qed.

(* ---- a new reference ---- *)
Lemma Forall2_impl {A B} (P Q : A -> B -> Prop) l l' :
  (forall a b, P a b -> Q a b) -> Forall2 P l l' -> Forall2 Q l l'.
Proof. intros H. induction 1; constructor; auto. Qed.

Lemma pend_of_skip {K} (key : TId -> option K) auto r st g :
  st <> Pend -> pend_of key auto ((r, st) :: g) = pend_of key auto g.
Proof. destruct st; intros H; try reflexivity. congruence. Qed.
Lemma PendI_skip auto lm a g gid r st : st <> Pend ->
  PendI auto lm a g gid -> PendI auto lm a ((r, st) :: g) gid.
Proof.
  intros H []. constructor.
  - rewrite pend_of_skip by assumption. auto.
  - eapply Forall2_impl; [|exact pi_scopes0]. intros j ss Hj. now rewrite pend_of_skip by assumption.
  - rewrite pend_of_skip by assumption. auto.
Qed.

Lemma Inv0_add_writ c lm lbl a g gid bnd r t o :
  Inv0 c lm lbl a g gid bnd -> r_tid r = t -> bnd <= r_pos r -> r_pos r + r_size r <= c_size c -> 
  (match t with Some t => sp_defs a t = Some o | None => o = 0 end) ->
  r_val r = Some o -> (match t with Some (TObj i) => gid i <> 0 | _ => True end) ->
  shape r -> fitsL r o -> field c r o -> (isAutoGrowC c = true -> sp_ready a = false -> t <> None /\ r_rel r = true) ->
  (isAutoGrowC c = true -> t <> None) ->
  Inv0 c lm lbl (set_refs a (r :: sp_refs a)) ((r, Writ) :: g) gid (r_pos r + r_size r).
Proof.
  intros [] Ht Hb Hs Hd Hv Hg Hsh Hf Hfi Ha Ha2. subst t. constructor; cbn [set_refs sp_refs sp_ready]; auto.
  - cbn [map fst]. now rewrite iv_refs0.
  - destruct iv_ref0. constructor; auto.
    + cbn [layout]. split; [|split; [lia|eapply layout_mono; eauto]].
      destruct Hsh as (_ & H1 & H2). destruct (r_rel r); [destruct H2|right; right]; auto.
    + constructor; auto. split; [exact Hsh|]. cbn [snd fst]. exists o. do 4 (split; auto). intros H1 H2. now apply Ha2 in H1.
  - apply PendI_skip; [discriminate|]. destruct iv_pend0. constructor; auto.
  - destruct iv_name0. constructor; auto.
  - destruct iv_obj0. constructor; auto.
  - constructor; [|exact iv_tid0]. cbn [fst snd]. intros t0 Ht0. rewrite Ht0 in *. split; [|discriminate].
    destruct t0; auto.
Qed.

Lemma Inv0_add_saved c lm lbl a g gid bnd r t o :
  Inv0 c lm lbl a g gid bnd -> r_tid r = t -> bnd <= r_pos r -> r_pos r + r_size r <= c_size c -> 
  r_val r = Some o -> (match t with Some (TObj i) => gid i <> 0 | _ => True end) ->
  shape r -> fitsL r o -> isAutoGrowC c = true -> sp_ready a = false -> (t = None -> r_size r = 4) ->
  Inv0 (c_setinfos c (c_infos c ++ [info_of r])) lm lbl (set_refs a (r :: sp_refs a)) ((r, Saved) :: g) gid (r_pos r + r_size r).
Proof.
  intros [] Ht Hb Hs Hv Hg Hsh Hf Ha Hrd Hn. subst t. constructor; cbn [set_refs sp_refs sp_ready]; auto.
  - cbn [map fst]. now rewrite iv_refs0.
  - destruct iv_ref0. constructor; auto.
    + cbn [layout]. split; [|split; [lia|eapply layout_mono; eauto]].
      destruct Hsh as (_ & H1 & H2). destruct (r_rel r); [destruct H2|right; right]; auto.
    + constructor; auto. split; [exact Hsh|]. cbn [snd fst]. split; [exact Ha|]. split; [exact Hrd|].
      exists o. auto.
    + intros _ _. cbn [c_setinfos c_infos infos_of]. eapply perm_trans; [apply Permutation_app_comm|].
      cbn [app]. apply perm_skip. auto.
  - apply PendI_skip; [discriminate|]. destruct iv_pend0. constructor; auto.
  - destruct iv_name0. constructor; auto.
  - destruct iv_obj0. constructor; auto.
  - constructor; [|exact iv_tid0]. cbn [fst snd]. intros t0 Ht0. rewrite Ht0 in *. split; [|discriminate].
    destruct t0; auto.
Qed.

(* what addUndefL must be called with to wait for label t *)
Definition keyed (lbl : LabelH -> LabelObj) (a : Spec) (gid : ident -> Z) (l : LabelRef) (t : TId) : Prop :=
  match t with
  | TGlobal s => l = LStr s /\ isLocalStr s = false /\ special s = false
  | TLocal j s => l = LStr s /\ isLocalStr s = true /\ j = hd O (sp_scopes a)
  | TAnon m => l = LStr (if Nat.even m then "@b" else "@f")%string /\ (sp_defs a t = None -> m = S (sp_anon a))
  | TObj i => gid i <> 0 /\ exists h, l = LObj h /\ labOf a h = Some i
  end.
Lemma not_local_anon m : isLocalStr (if Nat.even m then "@b" else "@f")%string = false.
Proof. now destruct (Nat.even m). Qed.

Lemma pend_of_cons {K} (key : TId -> option K) auto r t g : r_tid r = Some t ->
  pend_of key auto ((r, Pend) :: g) =
    match key t with Some k => (k, jmp_of auto r) :: pend_of key auto g | None => pend_of key auto g end.
Proof. intros H. unfold pend_of. cbn [flat_map pend1]. rewrite H. now destruct (key t). Qed.

Lemma wp_addUndefL l t s a g gid bnd r (Q : St -> unit -> Prop) (X : St -> xerr -> Prop) :
  Inv0 (g_code s) (g_lm s) (g_labels s) a g gid bnd ->
  keyed (g_labels s) a gid l t -> r_tid r = Some t -> sp_defs a t = None -> r_val r = None ->
  bnd <= r_pos r -> r_pos r + r_size r <= c_size (g_code s) -> shape r ->
  (forall lm', lm_nextId lm' = lm_nextId (g_lm s) ->
     Inv0 (g_code s) lm' (g_labels s) (set_refs a (r :: sp_refs a)) ((r, Pend) :: g) gid (r_pos r + r_size r) ->
     Q (set_lm s lm') tt) ->
  wp (addUndefL l (jmp_of (isAutoGrowC (g_code s)) r)) s Q X.
Proof.
  intros HI Hk Ht Hd Hv Hb Hs Hsh HQ.
  set (auto := isAutoGrowC (g_code s)).
  assert (forall lm', lm_nextId lm' = lm_nextId (g_lm s) ->
            PendI auto lm' a ((r, Pend) :: g) gid -> NameI lm' a -> ObjI lm' (g_labels s) a gid ->
            Q (set_lm s lm') tt) as K.
  { intros lm' Hn HP HN HO. apply HQ; [exact Hn|]. destruct HI. constructor; cbn [set_refs sp_refs sp_ready]; auto.
    - cbn [map fst]. now rewrite iv_refs0.
    - destruct iv_ref0. constructor; auto.
      + cbn [layout]. split; [|split; [lia|eapply layout_mono; eauto]].
        destruct Hsh as (_ & H1 & H2). destruct (r_rel r); [destruct H2|right; right]; auto.
      + constructor; auto. split; [exact Hsh|]. cbn [snd fst]. split; [exact Hv|congruence].
    - destruct HP. constructor; auto.
    - destruct HN. constructor; auto.
    - destruct HO. constructor; auto.
    - constructor; [|exact iv_tid0]. cbn [fst snd]. intros t0 Ht0. assert (t0 = t) by congruence. subst t0.
      split.
      + destruct t; auto. apply Hk.
      + intros _. split; [exact Hd|]. unfold tid_wf. cbn [set_refs sp_scopes sp_anon]. destruct t; cbn [keyed] in Hk; auto.
        * tauto.
        * destruct Hk as (_ & Hl & ->). split; [exact Hl|]. destruct iv_name0.
          destruct (sp_scopes a); [congruence|]. now left.
        * tauto. }
  destruct HI. destruct iv_pend0, iv_obj0, iv_name0.
  destruct t as [n|j n|m|i]; cbn [keyed] in Hk.
  - destruct Hk as (-> & Hl & Hsp). cbn [addUndefL]. unfold addUndefS, with_lm. apply wp_put.
    unfold setUS, getUS. rewrite Hl. cbn [getSS setSS]. apply K; [reflexivity| | |].
    + constructor; cbn [lm_front lm_stack lm_undef ss_undef].
      * rewrite (pend_of_cons _ _ _ _ _ Ht). cbn [fkey]. apply perm_skip. assumption.
      * eapply Forall2_impl; [|exact pi_scopes0]. intros j ss Hj. rewrite (pend_of_cons _ _ _ _ _ Ht). exact Hj.
      * rewrite (pend_of_cons _ _ _ _ _ Ht). exact pi_class0.
    + constructor; auto.
    + constructor; auto.
  - destruct Hk as (-> & Hl & Hj). cbn [addUndefL]. unfold addUndefS, with_lm. apply wp_put.
    unfold setUS, getUS. rewrite Hl. cbn [getSS setSS].
    destruct (sp_scopes a) as [|j0 js] eqn:Hsc; [congruence|]. cbn [hd] in Hj. subst j0.
    destruct (lm_stack (g_lm s)) as [|ss0 sss] eqn:Hst; [inversion pi_scopes0|].
    inversion pi_scopes0 as [|? ? ? ? P1 P2]; subst. inversion ni_scopes0 as [|? ? ? ? N1 N2]; subst.
    inversion ni_nodup0 as [|? ? D1 D2]; subst.
    cbn [hd tl]. apply K; [reflexivity| | |].
    + constructor; cbn [lm_front lm_stack lm_undef ss_undef].
      * rewrite (pend_of_cons _ _ _ _ _ Ht). exact pi_front0.
      * rewrite Hsc. constructor.
        -- cbn [ss_undef]. rewrite (pend_of_cons _ _ _ _ _ Ht). cbn [skey]. rewrite Nat.eqb_refl. apply perm_skip. exact P1.
        -- clear -P2 D1 Ht. revert sss P2. induction js as [|k js IH]; intros sss P2; inversion P2; subst; constructor.
           ++ rewrite (pend_of_cons _ _ _ _ _ Ht). cbn [skey].
              destruct (Nat.eqb k j) eqn:E; [|assumption]. apply Nat.eqb_eq in E. subst. exfalso. apply D1. now left.
           ++ apply IH; auto. intros Hin. apply D1. now right.
      * rewrite (pend_of_cons _ _ _ _ _ Ht). exact pi_class0.
    + constructor; auto; rewrite ?Hsc; auto. cbn [lm_stack]. constructor; auto.
    + constructor; auto.
  - destruct Hk as (-> & Hl). cbn [addUndefL]. unfold addUndefS, with_lm. apply wp_put.
    unfold setUS, getUS. rewrite not_local_anon. cbn [getSS setSS]. apply K; [reflexivity| | |].
    + constructor; cbn [lm_front lm_stack lm_undef ss_undef].
      * rewrite (pend_of_cons _ _ _ _ _ Ht). cbn [fkey]. apply perm_skip. assumption.
      * eapply Forall2_impl; [|exact pi_scopes0]. intros j ss Hj. rewrite (pend_of_cons _ _ _ _ _ Ht). exact Hj.
      * rewrite (pend_of_cons _ _ _ _ _ Ht). exact pi_class0.
    + constructor; auto.
    + constructor; auto.
  - destruct Hk as (Hg & h & -> & Hh). cbn [addUndefL]. unfold addUndefC.
    pose proof (oi_lab0 h) as Hl. rewrite Hh in Hl. destruct Hl as (Hal & Hid & Hmg).
    apply wp_bind. unfold wp, labelOf. rewrite Hal. unfold with_lm. apply K; [reflexivity| | |].
    + constructor; cbn [set_cundef lm_front lm_stack lm_undef ss_undef].
      * rewrite (pend_of_cons _ _ _ _ _ Ht). exact pi_front0.
      * eapply Forall2_impl; [|exact pi_scopes0]. intros j ss Hj. rewrite (pend_of_cons _ _ _ _ _ Ht). exact Hj.
      * rewrite (pend_of_cons _ _ _ _ _ Ht). cbn [ckey]. rewrite Hid. apply perm_skip. exact pi_class0.
    + constructor; auto.
    + constructor; auto.
Qed.

(* ---- looking a label up ---- *)
Definition updI (gid : ident -> Z) (i : ident) (n : Z) : ident -> Z := fun j => if ident_eqb i j then n else gid j.
Lemma updI_same gid i n : updI gid i n i = n.
Proof. unfold updI. now rewrite (proj2 (ident_eqb_ok i i) eq_refl). Qed.
Lemma updI_other gid i n j : i <> j -> updI gid i n j = gid j.
Proof. intros H. unfold updI. destruct (ident_eqb i j) eqn:E; auto. apply ident_eqb_ok in E. contradiction. Qed.
Lemma ident_dec (i j : ident) : {i = j} + {i <> j}.
Proof. destruct (ident_eqb i j) eqn:E; [left|right]; [now apply ident_eqb_ok|]. intros ->.
  now rewrite (proj2 (ident_eqb_ok j j) eq_refl) in E. Qed.

Lemma labOf_In a h i : labOf a h = Some i -> In (h, i) (sp_lab a).
Proof. apply assoc_In. intros; apply Nat.eqb_eq. Qed.
Lemma In_labOf a h i : NoDup (map fst (sp_lab a)) -> In (h, i) (sp_lab a) -> labOf a h = Some i.
Proof.
  unfold labOf. induction (sp_lab a) as [|[h' i'] l IH]; [intros _ []|]. cbn [map fst assoc]. intros Hn Hin.
  inversion Hn; subst. destruct Hin as [E|Hin].
  - inversion E; subst. now rewrite Nat.eqb_refl.
  - destruct (Nat.eqb h h') eqn:E; [|auto]. apply Nat.eqb_eq in E. subst. exfalso. apply H1.
    change h' with (fst (h', i)). now apply in_map.
Qed.
Lemma countId_two h h' i l : h <> h' -> In (h, i) l -> In (h', i) l -> (2 <= countId i l)%nat.
Proof.
  unfold countId. intros Hn H1 H2.
  assert (In (h, i) (filter (fun p => ident_eqb i (snd p)) l)) as F1
    by (apply filter_In; split; auto; apply ident_eqb_ok; reflexivity).
  assert (In (h', i) (filter (fun p => ident_eqb i (snd p)) l)) as F2
    by (apply filter_In; split; auto; apply ident_eqb_ok; reflexivity).
  destruct (filter _ l) as [|x [|y f]]; cbn [List.length]; try lia; cbn [In] in *.
  - contradiction.
  - exfalso. destruct F1 as [->|[]]. destruct F2 as [F2|[]]. congruence.
Qed.
Lemma only_handle a h h' i : isDef a i = false -> (countId i (sp_lab a) <= 1)%nat ->
  labOf a h = Some i -> labOf a h' = Some i -> h = h'.
Proof.
  intros _ Hc H1 H2. destruct (Nat.eq_dec h h') as [|Hn]; auto. exfalso.
  apply labOf_In in H1, H2. pose proof (countId_two _ _ _ _ Hn H1 H2). lia.
Qed.

Lemma wp_labelOf h s (Q : St -> LabelObj -> Prop) (X : St -> xerr -> Prop) :
  l_alive (g_labels s h) = true -> Q s (g_labels s h) -> wp (labelOf h) s Q X.
Proof. intros H HQ. unfold wp, labelOf. now rewrite H. Qed.

Lemma pend_of_updI gid i n auto g a : gid i = 0 -> TidI a gid g ->
  pend_of (ckey (updI gid i n)) auto g = pend_of (ckey gid) auto g.
Proof.
  intros Hz HT. unfold TidI in HT. unfold pend_of. induction HT as [|[r st] g Hx HT IH]; auto. cbn [flat_map].
  rewrite IH. f_equal. unfold pend1. destruct st; auto. destruct (r_tid r) as [t|] eqn:Ht; auto.
  destruct t; cbn [ckey]; auto. destruct (Hx _ Ht) as [Hg _]. rewrite updI_other; auto. intros ->. contradiction.
Qed.

Lemma wp_getIdM h i s a g gid bnd (Q : St -> Z -> Prop) (X : St -> xerr -> Prop) :
  Inv0 (g_code s) (g_lm s) (g_labels s) a g gid bnd ->
  labOf a h = Some i -> In i (sp_touched a) -> lm_nextId (g_lm s) < 2147483647 ->
  (forall lm' lbl' gid', Inv0 (g_code s) lm' lbl' a g gid' bnd -> gid' i <> 0 ->
     lm_nextId lm' <= lm_nextId (g_lm s) + 1 -> 
     Q (set_labels (set_lm s lm') lbl') (gid' i)) ->
  wp (getIdM h) s Q X.
Proof.
  intros HI Hh Ht Hn HQ. unfold getIdM. destruct HI. pose proof (oi_lab _ _ _ _ iv_obj0 h) as Hl.
  rewrite Hh in Hl. destruct Hl as (Hal & Hid & Hmg).
  apply wp_bind, wp_labelOf; [exact Hal|]. rewrite Hid.
  destruct (gid i =? 0) eqn:Hz.
  - apply Z.eqb_eq in Hz. apply wp_bind, wp_get.
    replace (lm_nextId (g_lm s) =? 2147483647) with false by lia.
    apply wp_bind, wp_put, wp_ret.
    set (n := lm_nextId (g_lm s)) in *.
    specialize (HQ (set_nextId (g_lm s) (n + 1))
      (fun k => if Nat.eqb k h then mkLab true (l_mgr (g_labels s h)) n else g_labels s k) (updI gid i n)).
    rewrite updI_same in HQ. unfold set_label. cbn [g_lm set_labels] in *. apply HQ; clear HQ.
    2: { destruct iv_obj0. lia. }
    2: { cbn [set_nextId lm_nextId]. lia. }
    assert (sp_defs a (TObj i) = None) as Hu by (destruct iv_obj0; auto).
    constructor; auto.
    + destruct iv_pend0. constructor; auto. cbn [set_nextId lm_undef].
      erewrite pend_of_updI; eauto.
    + destruct iv_name0. constructor; auto.
    + destruct iv_obj0. 
      assert (forall j, j <> i -> updI gid i n j = gid j) as Ho by (intros; apply updI_other; auto).
      constructor; auto; cbn [set_nextId lm_nextId lm_def lm_ptrs].
      * lia.
      * intros j. destruct (ident_dec j i) as [->|Hj]; [rewrite updI_same; lia|rewrite Ho by auto]. specialize (oi_rng0 j). lia.
      * intros j k. destruct (ident_dec j i) as [->|Hj]; destruct (ident_dec k i) as [->|Hk]; auto;
          rewrite ?updI_same, ?Ho by auto; intros H1 H2; auto.
        -- specialize (oi_rng0 k). lia.
        -- specialize (oi_rng0 j). lia.
      * intros j. destruct (ident_dec j i) as [->|Hj]; [rewrite updI_same|rewrite Ho by auto]; auto.
        intros _. rewrite oi_free0 by lia. symmetry. exact Hu.
      * intros j. destruct (ident_dec j i) as [->|Hj]; [|rewrite Ho by auto]; auto.
      * intros k Hk. apply oi_free0. lia.
      * intros j. destruct (ident_dec j i) as [->|Hj]; [|rewrite Ho by auto]; auto.
      * intros j. destruct (ident_dec j i) as [->|Hj]; [|rewrite Ho by auto]; auto.
        intros _. apply (oi_labold0 h). exact Hh.
      * intros h'. specialize (oi_lab0 h'). destruct (labOf a h') as [j|] eqn:Hh'.
        -- destruct (Nat.eqb h' h) eqn:E.
           ++ apply Nat.eqb_eq in E. subst h'. assert (j = i) by congruence. subst j.
              cbn [l_alive l_id l_mgr]. rewrite updI_same. auto.
           ++ destruct (ident_dec j i) as [->|Hj]; [|now rewrite Ho by auto].
              exfalso. apply Nat.eqb_neq in E. apply E.
              apply (only_handle a h' h i); auto; [|apply oi_one0]; unfold isDef; now rewrite Hu.
        -- destruct (Nat.eqb h' h) eqn:E; [|exact oi_lab0]. apply Nat.eqb_eq in E. congruence.
      * intros j o rc. destruct (ident_dec j i) as [->|Hj]; [rewrite updI_same|rewrite Ho by auto; apply oi_count0].
        rewrite oi_free0 by lia. discriminate.
    + unfold TidI in *. eapply Forall_impl; [|exact iv_tid0]. intros x Hx t Htt. destruct (Hx t Htt) as [A B].
      split; [|exact B]. destruct t; auto. rewrite updI_other; auto. intros ->. contradiction.
  - apply wp_ret. specialize (HQ (g_lm s) (g_labels s) gid).
    replace (set_labels (set_lm s (g_lm s)) (g_labels s)) with s in HQ by (destruct s; reflexivity).
    apply HQ; [constructor; auto|lia|lia].
Qed.

Definition touched_ref (a : Spec) (l : LabelRef) : Prop :=
  match l with LStr _ => True | LObj h => forall i, labOf a h = Some i -> In i (sp_touched a) end.

Lemma wp_getOffsetL l s a g gid bnd (Q : St -> option Z * LabelRef -> Prop) (X : St -> xerr -> Prop) :
  ok_st s -> Inv0 (g_code s) (g_lm s) (g_labels s) a g gid bnd -> alive_ref a l -> touched_ref a l ->
  lm_nextId (g_lm s) < 2147483647 ->
  (forall lm' lbl' gid' t l', Inv0 (g_code s) lm' lbl' a g gid' bnd -> lm_nextId lm' <= lm_nextId (g_lm s) + 1 ->
     tid_of a l = Some t -> keyed lbl' a gid' l' t ->
     Q (set_labels (set_lm s lm') lbl') (sp_defs a t, l')) ->
  (forall e, tid_of a l = None -> X s e) ->
  wp (getOffsetL l) s Q X.
Proof.
  intros Hok HI Hal Hto Hn HQ HX. destruct l as [k|h]; cbn [getOffsetL].
  - apply wp_bind. unfold getOffsetS. apply wp_fnS. apply wp_bind, wp_get, wp_bind.
    assert (forall t l', tid_of a (LStr k) = Some t -> keyed (g_labels s) a gid l' t -> Q s (sp_defs a t, l')) as HQ'.
    { intros t l' H1 H2. specialize (HQ (g_lm s) (g_labels s) gid t l' HI ltac:(lia) H1 H2).
      now replace (set_labels (set_lm s (g_lm s)) (g_labels s)) with s in HQ by (destruct s; reflexivity). }
    clear HQ. destruct HI. destruct iv_name0. unfold sIn. rewrite ni_f0, ni_b0. unfold tid_of in *.
    pose proof (ni_anon0 (sp_anon a)) as Han.
    destruct (String.eqb k "@b"%string) eqn:Eb.
    + apply String.eqb_eq in Eb. subst k.
      destruct (sp_anon a) as [|m] eqn:Ea.
      * cbn [Nat.odd Nat.even negb]. destruct (sp_defs a (TAnon 0)) eqn:E0; [exfalso; assert (Some z <> None) as HH by discriminate; rewrite Han in HH; lia|].
        apply wp_throw. split; [apply Hok|]. apply HX. reflexivity.
      * destruct (sp_defs a (TAnon (S m))) as [o|] eqn:Ed; [|exfalso; assert (~ (@None Z <> None)) by congruence; rewrite Han in H; lia].
        rewrite <- Nat.negb_even. destruct (Nat.even (S m)) eqn:Ev; cbn [negb].
        -- apply wp_ret, wp_ret. match goal with |- context [isLocalStr ?x] => change (isLocalStr x) with false end. cbn [getSS].
           rewrite ni_b0. apply wp_ret. rewrite <- Ed. apply HQ'; [reflexivity|]. cbn [keyed]. rewrite Ev.
           split; [reflexivity|]. rewrite Ed. discriminate.
        -- apply wp_ret, wp_ret. match goal with |- context [isLocalStr ?x] => change (isLocalStr x) with false end. cbn [getSS].
           rewrite ni_f0, <- Nat.negb_even, Ev. cbn [negb]. apply wp_ret. rewrite <- Ed. apply HQ'; [reflexivity|]. cbn [keyed]. rewrite Ev.
           split; [reflexivity|]. rewrite Ed. discriminate.
    + destruct (String.eqb k "@f"%string) eqn:Ef.
      * apply String.eqb_eq in Ef. subst k. clear Han. 
        assert (sp_defs a (TAnon (S (sp_anon a))) = None) as Hnone.
        { destruct (sp_defs a (TAnon (S (sp_anon a)))) eqn:E; auto. exfalso.
          assert (sp_defs a (TAnon (S (sp_anon a))) <> None) as HH by congruence. rewrite ni_anon0 in HH. lia. }
        assert (keyed (g_labels s) a gid (LStr (if Nat.even (S (sp_anon a)) then "@b" else "@f")%string) (TAnon (S (sp_anon a)))) as Hk
          by (cbn [keyed]; auto).
        specialize (HQ' _ _ eq_refl Hk). rewrite Hnone in HQ'. rewrite Nat.even_succ in HQ'.
        destruct (Nat.odd (sp_anon a)) eqn:Ho.
        -- assert (Nat.odd (sp_anon a) = true -> sp_defs a (TAnon (sp_anon a)) <> None) as Hd.
           { intros _. apply ni_anon0. destruct (sp_anon a); [discriminate|lia]. }
           destruct (sp_defs a (TAnon (sp_anon a))) as [o|] eqn:Ed; [|now specialize (Hd Ho)].
           apply wp_ret, wp_ret. match goal with |- context [isLocalStr ?x] => change (isLocalStr x) with false end. cbn [getSS].
           rewrite ni_b0, <- Nat.negb_odd, Ho. cbn [negb]. apply wp_ret. exact HQ'.
        -- apply wp_ret, wp_ret. match goal with |- context [isLocalStr ?x] => change (isLocalStr x) with false end. cbn [getSS].
           rewrite ni_f0. apply wp_ret. exact HQ'.
      * apply wp_ret, wp_ret. destruct (isLocalStr k) eqn:El.
        -- cbn [getSS]. destruct (sp_scopes a) as [|j js] eqn:Hsc; [congruence|].
           destruct (lm_stack (g_lm s)) as [|ss sss] eqn:Hst; [inversion ni_scopes0|].
           inversion ni_scopes0 as [|? ? ? ? N1 N2]; subst. cbn [hd] in *. rewrite N1 by assumption.
           apply wp_ret. apply HQ'; [reflexivity|]. cbn [keyed]. rewrite Hsc. auto.
        -- cbn [getSS]. assert (special k = false) as Hsp by (unfold special; now rewrite Eb, Ef).
           rewrite ni_glob0 by assumption. apply wp_ret. apply HQ'; [reflexivity|]. cbn [keyed]. auto.
  - apply wp_bind. unfold getOffsetC. apply wp_bind. cbn [alive_ref touched_ref] in *. unfold alive in Hal.
    destruct (labOf a h) as [i|] eqn:Hh; [|congruence].
    eapply wp_getIdM; eauto. intros lm' lbl' gid' HI' Hg Hnx. apply wp_bind, wp_get, wp_ret.
    cbn [g_lm set_labels set_lm]. 
    replace (option_map fst (assoc Z.eqb (gid' i) (lm_def lm'))) with (sp_defs a (TObj i))
      by (destruct HI'; destruct iv_obj0; symmetry; auto).
    apply wp_ret. eapply HQ; eauto.
    + cbn [tid_of]. rewrite Hh. reflexivity.
    + cbn [keyed]. split; [exact Hg|]. exists h. auto.
Qed.
