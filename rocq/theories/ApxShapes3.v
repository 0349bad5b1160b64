(* The shapes of the methods with APX encodings: register in ModRM.reg. *)
From Coq Require Import ZArith List Bool Lia String.
From Verif Require Import Base Types Emit Encode SpecX86 SpecAddr EmitFacts BitFacts Wf MemFacts LegacyFacts VexFacts
  SpecIsa SpecInsn SpecLeg EncThms LegFacts LegShapes LegGpr LegGpr2 LegGpr3 SpecApx ApxFacts ApxShapes ApxShapes2.
Import ListNotations.
Open Scope Z_scope.

Definition reg_cls (c : acls) : bool := match c with cG | cGv | cGy => true | _ => false end.
Definition rm_cls (c : acls) : bool := match c with cE | cEv | cEy | cA => true | _ => false end.
Definition cls_sizes (c : acls) : list Z := match c with cGv | cEv => no8 | cGy | cEy => [32; 64] | _ => all4 end.
Lemma reg_cls_ok c o : reg_cls c = true -> aarg_ok c o -> exists r, o = OReg r /\ gpr r /\ low8 r /\ In (bit_ r) (cls_sizes c) /\ size4 (bit_ r).
Proof.
  intros Hc A. destruct o as [r|a]; [exists r; split; auto|destruct c; try discriminate; contradiction].
  destruct c; try discriminate; destruct A as (G & B); pose proof (gpr_bits _ G) as Q; apply size4_in in Q; cbn [cls_sizes].
  - auto using size4_all.
  - split; auto. split; [intros Q8; contradiction|]. auto using size4_no8.
  - split; auto. split; [intros Q8; destruct B; congruence|]. split; auto. destruct B as [->| ->]; cbn; auto.
Qed.
Lemma rm_cls_ok c o : rm_cls c = true -> aarg_ok c o -> aarg_ok cE o.
Proof.
  intros Hc A. destruct c; try discriminate; destruct o as [r|a]; cbn in *; try tauto.
  - destruct A as (G & B). split; auto. intros Q. contradiction.
  - destruct A as (G & [B|B]); split; auto; intros Q; congruence.
Qed.
Lemma takes_reg c : reg_cls c = true -> takes_size c = true.
Proof. destruct c; auto; discriminate. Qed.
Lemma takes_rm c : rm_cls c = true -> takes_size c = true.
Proof. destruct c; auto; discriminate. Qed.
Lemma psize_reg w r : psize w (OReg r) -> bit_ r = w.
Proof. exact (fun H => H). Qed.

(* ---- NDD, reg, r/m ---- *)
Lemma rro_entry nm f row type code c1 c2 c3 :
  (forall d r op, f d r op = opROO d op (OReg r) type code 0 NONE ;;; ret tt) ->
  reg_cls c1 = true -> reg_cls c2 = true -> rm_cls c3 = true ->
  a_ops row = [v_; rg_; rm_a] -> a_digit row = None -> a_sc row = None -> a_ndk row = Nd1 -> a_nf row <> Nf1 -> a_immk row = I_none ->
  has type T_ZU = false -> achk_sizes row type code true (cls_sizes c1) = true ->
  aimplements (mkAE nm [c1; c2; c3] XNo (a_rro f) [row]).
Proof.
  intros Ef K1 K2 K3 Eo Dg Sc Nd Nf Im HZ C s ops imm dfv act env pos its rest u Ha Harg Hsz _ _ _ Hzu _ H. cbn [ae_fun ae_sig ae_rows ae_ext] in *.
  apply sig3 in Harg as (o1 & o2 & op & -> & A1 & A2 & A3).
  apply reg_cls_ok in A1 as (d & -> & Gd & Ld & Id & _); auto. apply reg_cls_ok in A2 as (r & -> & Gr & Lr & Ir & _); auto.
  apply rm_cls_ok in A3; auto. cbn [a_rro] in Ha. injection Ha as <-. rewrite Ef in H.
  apply same3 in Hsz as (w & Hw & P1 & P2 & P3 & _); [|cbn [existsb]; rewrite (takes_reg c1); auto].
  specialize (P1 (takes_reg _ K1)). specialize (P2 (takes_reg _ K2)). specialize (P3 (takes_rm _ K3)). apply psize_reg in P1, P2.
  ebind H i1 i2 bb H1 H. apply emits_ret in H as [-> _].
  pose proof (gpr_isREG d Gd) as Rd. rewrite (opROO_ndd _ _ _ _ _ _ _ _ _ _ _ Rd H1) in H1.
  rewrite app_nil_r, <- (app_nil_r (render s i1)). apply Exists_cons_hd.
  eapply says1 with (w := w) (b64 := w =? 64) (b16 := w =? 16) (b8 := w =? 8); eauto using cE_rm_ok, nd1_not0.
  - rewrite Rd. eapply achk_sizes_in; eauto. rewrite <- P1. exact Id.
  - apply bits2; auto.
  - apply nf_wants; auto. unfold wants_nf. cbn [existsb ob]. rewrite <- (opnf_ok op) by (apply cE_rm_ok; auto).
    destruct (NF_ r), (NF_ (ob op)), (NF_ d); reflexivity.
  - congruence.
  - unfold has_v. rewrite Eo. discriminate.
  - rewrite Dg. discriminate.
  - intros h rm R V. rewrite Eo. apply Forall2_cons; [apply ok_v; auto|].
    apply Forall2_cons; [apply ok_rg; auto|]. apply Forall2_cons; [apply ok_rm; auto|]. constructor.
  - eapply sized_hd; eauto.
  - rewrite Im. apply imm_none.
Qed.

(* ---- without NDD register ---- *)
Definition achkn (row : arow) (type code : Z) (ws : list Z) : bool :=
  forallb (fun w => achkb row type code false w (w =? 64) (w =? 16) false) ws.
Lemma achkn_in row type code ws w : achkn row type code ws = true -> In w ws -> achkb row type code false w (w =? 64) (w =? 16) false = true.
Proof. unfold achkn. rewrite forallb_forall. auto. Qed.
Lemma bits_nod r w : bit_ r = w -> size4 w -> size_b r noReg (w =? 64) (w =? 16) false.
Proof.
  intros Hr Hw. destruct (bits_of r w Hr Hw) as (A1 & A2 & A3). unfold size_b. rewrite A1, A2, !orb_false_r. auto.
Qed.
Lemma roo_nod op r type code imz env pos its b : hasRex2NFZU op || hasRex2NFZU (OReg r) = true ->
  emits (opROO noReg op (OReg r) type code imz NONE) env pos its b -> b = true.
Proof.
  intros X H. destruct (opROO_result _ _ _ _ _ _ _ _ _ _ _ H) as (-> & _). apply orb_true_iff in X as [->| ->]; rewrite ?orb_true_r; auto.
Qed.
(* the usual form of such methods *)
Lemma nod_done op r type code (k : E unit) env pos its u : hasRex2NFZU op || hasRex2NFZU (OReg r) = true ->
  emits (done <- opROO noReg op (OReg r) type code 0 NONE ;; if (done : bool) then ret tt else k) env pos its u ->
  emits (opROO noReg op (OReg r) type code 0 NONE) env pos its true.
Proof.
  intros X H. ebind H i1 i2 b H1 H2. pose proof (roo_nod _ _ _ _ _ _ _ _ _ X H1) as ->. apply emits_ret in H2 as [-> _].
  rewrite app_nil_r. auto.
Qed.
Lemma opMR_done a r t c type code (env : Env) pos its u : hasRex2NFZU (OMem a) || hasRex2NFZU (OReg r) = true -> type <> 0 ->
  emits (opMR a r t c type code) env pos its u ->
  emits (opROO noReg (OMem a) (OReg r) type (if code =? NONE then c else code) 0 NONE) env pos its true.
Proof.
  intros X N H. unfold opMR in H. apply emits_fn in H. cbv zeta in H. apply Z.eqb_neq in N. rewrite N in H. cbn [negb] in H.
  ebind H i1 i2 b H1 H2. pose proof (roo_nod _ _ _ _ _ _ _ _ _ X H1) as ->. apply emits_ret in H2 as [-> _].
  rewrite app_nil_r. auto.
Qed.
Lemma nod_reg_says s row ops op r type code imz env pos its tl w imm dfv rest b64 b16 :
  aarg_ok cE op -> emits (opROO noReg op (OReg r) type code imz NONE) env pos its true ->
  a_digit row = None -> a_sc row = None -> a_nf row <> Nf1 -> has_v row = false ->
  achkb row type code false w b64 b16 false = true -> size_b r noReg b64 b16 false ->
  NF_ r || opnf op = wants_nf ops -> (has type T_ZU = true -> ZU_ r || opzu op = wants_zu ops) -> (wants_zu ops = true -> a_ndk row <> Nd0) ->
  (forall h rm, rm_is op h rm -> Forall2 (aoper_ok w h (regno r) rm) (a_ops row) ops) ->
  asized row w ops -> imm_ok (a_immk row) w imm tl ->
  asays row ops imm dfv (render s its ++ tl) rest.
Proof.
  intros Ao H Dg Sc Nf Hv C Sb Hn Z1 Z2 Ho Hs Hi.
  eapply says1 with (d := noReg); eauto using cE_rm_ok.
  - apply nf_wants; auto. cbn [NF_ noReg]. rewrite orb_false_r. auto.
  - rewrite Dg. discriminate.
Qed.
Lemma ext2 o1 o2 : existsb extended [o1; o2] = true -> aarg_ok cE o1 -> aarg_ok cE o2 -> hasRex2NFZU o1 || hasRex2NFZU o2 = true.
Proof.
  cbn [existsb]. rewrite orb_false_r. intros H A1 A2. apply orb_true_iff in H as [H|H].
  - rewrite (ext_op o1 A1 H). auto. - rewrite (ext_op o2 A2 H). apply orb_true_r.
Qed.
Lemma wants_nf2 o1 o2 : wants_nf [o1; o2] = NF_ (ob o1) || NF_ (ob o2).
Proof. unfold wants_nf. cbn [existsb]. now rewrite orb_false_r. Qed.
Lemma wants_zu2 o1 o2 : wants_zu [o1; o2] = ZU_ (ob o1) || ZU_ (ob o2).
Proof. unfold wants_zu. cbn [existsb]. now rewrite orb_false_r. Qed.

(* reg, r/m *)
Lemma ro_entry nm f row type code c1 c2 :
  (forall r op env pos its u, hasRex2NFZU op || hasRex2NFZU (OReg r) = true -> emits (f r op) env pos its u ->
     emits (opROO noReg op (OReg r) type code 0 NONE) env pos its true) ->
  reg_cls c1 = true -> rm_cls c2 = true ->
  a_ops row = [rg_; rm_a] -> a_digit row = None -> a_sc row = None -> a_ndk row = Nd0 -> a_nf row <> Nf1 -> a_immk row = I_none ->
  has type T_ZU = false -> achkn row type code (cls_sizes c1) = true ->
  aimplements (mkAE nm [c1; c2] XAny (a_ro f) [row]).
Proof.
  intros Ef K1 K2 Eo Dg Sc Nd Nf Im HZ C s ops imm dfv act env pos its rest u Ha Harg Hsz _ Hx _ Hzu _ H. cbn [ae_fun ae_sig ae_rows ae_ext] in *.
  apply sig2 in Harg as (o1 & op & -> & A1 & A2).
  apply reg_cls_ok in A1 as (r & -> & Gr & Lr & Ir & _); auto. apply rm_cls_ok in A2; auto. cbn [a_ro] in Ha. injection Ha as <-.
  apply same2 in Hsz as (w & Hw & P1 & P2 & _); [|cbn [existsb]; rewrite (takes_reg c1); auto].
  specialize (P1 (takes_reg _ K1)). specialize (P2 (takes_rm _ K2)). apply psize_reg in P1.
  cbn [ext_ok] in Hx. apply ext2 in Hx; [|split; auto|auto]. rewrite orb_comm in Hx. apply Ef in H; auto.
  rewrite <- (app_nil_r (render s its)). apply Exists_cons_hd.
  eapply nod_reg_says with (w := w); eauto.
  - unfold has_v. rewrite Eo. reflexivity.
  - eapply achkn_in; eauto. rewrite <- P1. exact Ir.
  - apply bits_nod; auto.
  - rewrite wants_nf2. cbn [ob]. now rewrite (opnf_ok op) by (apply cE_rm_ok; auto).
  - congruence.
  - intros W. rewrite (zu_nd0 _ _ row Hzu) in W; [discriminate|left; auto|auto].
  - intros h rm R. rewrite Eo. apply Forall2_cons; [apply ok_rg; auto|]. apply Forall2_cons; [apply ok_rm; auto|]. constructor.
  - eapply sized_hd; eauto.
  - rewrite Im. apply imm_none.
Qed.
(* memory, reg: movbe, aadd ... *)
Lemma mr_entry nm f row t c type code c2 :
  (forall a r, f a r = opMR a r t c type code) -> type <> 0 -> reg_cls c2 = true ->
  a_ops row = [mm_a; rg_] -> a_digit row = None -> a_sc row = None -> a_ndk row = Nd0 -> a_nf row <> Nf1 -> a_immk row = I_none ->
  has type T_ZU = false -> achkn row type (if code =? NONE then c else code) (cls_sizes c2) = true ->
  aimplements (mkAE nm [cA; c2] XAny (a_mr f) [row]).
Proof.
  intros Ef N K2 Eo Dg Sc Nd Nf Im HZ C s ops imm dfv act env pos its rest u Ha Harg Hsz _ Hx _ Hzu _ H. cbn [ae_fun ae_sig ae_rows ae_ext] in *.
  apply sig2 in Harg as (o1 & op & -> & A1 & A2).
  apply reg_cls_ok in A2 as (r & -> & Gr & Lr & Ir & _); auto. destruct o1 as [|a]; [contradiction|]. cbn [a_mr] in Ha. injection Ha as <-.
  assert (A1' : aarg_ok cE (OMem a)) by exact A1.
  apply same2 in Hsz as (w & Hw & P1 & P2 & _); [|reflexivity].
  specialize (P1 eq_refl). specialize (P2 (takes_reg _ K2)). apply psize_reg in P2.
  cbn [ext_ok] in Hx. apply ext2 in Hx; [|auto|split; auto]. rewrite Ef in H. apply opMR_done in H; auto.
  rewrite <- (app_nil_r (render s its)). apply Exists_cons_hd.
  eapply nod_reg_says with (w := w); eauto.
  - unfold has_v. rewrite Eo. reflexivity.
  - eapply achkn_in; eauto. rewrite <- P2. exact Ir.
  - apply bits_nod; auto.
  - rewrite wants_nf2. cbn [ob]. destruct (amem_nf _ A1) as [-> _]. apply orb_comm.
  - congruence.
  - intros W. rewrite (zu_nd0 _ _ row Hzu) in W; [discriminate|left; auto|auto].
  - intros h rm R. rewrite Eo. apply Forall2_cons; [apply ok_mm; auto|]. apply Forall2_cons; [apply ok_rg; auto|]. constructor.
  - eapply sized_tl; eauto; reflexivity.
  - rewrite Im. apply imm_none.
Qed.
Lemma rm_entry nm f row t c type code c2 :
  (forall r a, f r a = opMR a r t c type code) -> type <> 0 -> reg_cls c2 = true ->
  a_ops row = [rg_; mm_a] -> a_digit row = None -> a_sc row = None -> a_ndk row = Nd0 -> a_nf row <> Nf1 -> a_immk row = I_none ->
  has type T_ZU = false -> achkn row type (if code =? NONE then c else code) (cls_sizes c2) = true ->
  aimplements (mkAE nm [c2; cA] XAny (a_rm f) [row]).
Proof.
  intros Ef N K2 Eo Dg Sc Nd Nf Im HZ C s ops imm dfv act env pos its rest u Ha Harg Hsz _ Hx _ Hzu _ H. cbn [ae_fun ae_sig ae_rows ae_ext] in *.
  apply sig2 in Harg as (op & o1 & -> & A2 & A1).
  apply reg_cls_ok in A2 as (r & -> & Gr & Lr & Ir & _); auto. destruct o1 as [|a]; [contradiction|]. cbn [a_rm] in Ha. injection Ha as <-.
  assert (A1' : aarg_ok cE (OMem a)) by exact A1.
  apply same2 in Hsz as (w & Hw & P2 & P1 & _); [|cbn [existsb]; rewrite (takes_reg c2); auto].
  specialize (P1 eq_refl). specialize (P2 (takes_reg _ K2)). apply psize_reg in P2.
  cbn [ext_ok] in Hx. apply ext2 in Hx; [|split; auto|auto]. rewrite orb_comm in Hx. rewrite Ef in H. apply opMR_done in H; auto.
  rewrite <- (app_nil_r (render s its)). apply Exists_cons_hd.
  eapply nod_reg_says with (w := w); eauto.
  - unfold has_v. rewrite Eo. reflexivity.
  - eapply achkn_in; eauto. rewrite <- P2. exact Ir.
  - apply bits_nod; auto.
  - rewrite wants_nf2. cbn [ob]. destruct (amem_nf _ A1) as [-> _]. reflexivity.
  - congruence.
  - intros W. rewrite (zu_nd0 _ _ row Hzu) in W; [discriminate|left; auto|auto].
  - intros h rm R. rewrite Eo. apply Forall2_cons; [apply ok_rg; auto|]. apply Forall2_cons; [apply ok_mm; auto|]. constructor.
  - eapply sized_hd; eauto.
  - rewrite Im. apply imm_none.
Qed.

(* imul reg, op, imm *)
Definition imul_rows : list arow :=
  [mkA NP 4 0x69 None [rg_; rm_a] OsV NdZU NfOpt None I_z; mkA NP 4 0x6B None [rg_; rm_a] OsV NdZU NfOpt None I_8s].
Lemma imul_imm_entry nm f : (forall r op imm, f r op imm = imul_imm r op (s32 imm)) ->
  aimplements (mkAE nm [cGv; cEv] XAny (a_roi f) imul_rows).
Proof.
  intros Ef s ops imm dfv act env pos its rest u Ha Harg Hsz _ Hx _ Hzu _ H. cbn [ae_fun ae_sig ae_rows ae_ext] in *.
  apply sig2 in Harg as (o1 & op & -> & A1 & A2).
  apply reg_cls_ok in A1 as (r & -> & Gr & Lr & Ir & _); auto. apply rm_cls_ok in A2; auto. cbn [a_roi] in Ha. injection Ha as <-.
  apply same2 in Hsz as (w & Hw & P1 & P2 & _); [|reflexivity].
  specialize (P1 eq_refl). specialize (P2 eq_refl). apply psize_reg in P1.
  cbn [ext_ok] in Hx. apply ext2 in Hx; [|split; auto|auto]. rewrite orb_comm in Hx. rewrite Ef in H. unfold imul_imm in H. cbv zeta in H.
  ebind H i1 i2 b H1 H. pose proof (roo_nod _ _ _ _ _ _ _ _ _ Hx H1) as ->. cbn [negb] in H. ebind H i3 i4 uu H2 H. apply emits_ret in H2 as [-> _].
  assert (V : s32 imm mod 2 ^ 32 = imm mod 2 ^ 32).
  { unfold s32. change (2 ^ 32) with 4294967296. destruct (w32 imm <? 2147483648); unfold w32; [now rewrite Z.mod_mod by lia|].
    replace (imm mod 4294967296 - 4294967296) with (imm mod 4294967296 + -1 * 4294967296) by lia. rewrite Z_mod_plus_full. now rewrite Z.mod_mod by lia. }
  set (v := s32 imm) in *. clearbody v. cbn [cls_sizes] in Ir. rewrite P1 in Ir.
  apply (dbn_render s) in H as [_ R4]; [|destruct (IsInDisp8 v); cbn [Z.eqb Pos.eqb]; [lia|destruct (isREGb r 16); lia]].
  cbn [app]. rewrite render_app, R4. clear R4.
  destruct (IsInDisp8 v) eqn:D8; cbn [Z.eqb Pos.eqb] in *.
  - apply Exists_cons_tl, Exists_cons_hd.
    eapply nod_reg_says with (w := w); eauto; try reflexivity; try discriminate.
    + eapply achkn_in; [|exact Ir]. vm_compute. reflexivity.
    + apply bits_nod; auto.
    + rewrite wants_nf2. cbn [ob]. now rewrite (opnf_ok op) by (apply cE_rm_ok; auto).
    + intros _. rewrite wants_zu2. cbn [ob]. now rewrite (opzu_ok op) by (apply cE_rm_ok; auto).
    + intros h rm R. apply Forall2_cons; [apply ok_rg; auto|]. apply Forall2_cons; [apply ok_rm; auto|]. constructor.
    + eapply sized_hd; eauto; reflexivity.
    + apply imm_8s_ok; auto.
  - apply Exists_cons_hd.
    eapply nod_reg_says with (w := w); eauto; try reflexivity; try discriminate.
    + eapply achkn_in; [|exact Ir]. vm_compute. reflexivity.
    + apply bits_nod; auto.
    + rewrite wants_nf2. cbn [ob]. now rewrite (opnf_ok op) by (apply cE_rm_ok; auto).
    + intros _. rewrite wants_zu2. cbn [ob]. now rewrite (opzu_ok op) by (apply cE_rm_ok; auto).
    + intros h rm R. apply Forall2_cons; [apply ok_rg; auto|]. apply Forall2_cons; [apply ok_rm; auto|]. constructor.
    + eapply sized_hd; eauto; reflexivity.
    + apply imm_z_ok; auto. f_equal. unfold isREGb, is_, isBit, getBit. destruct Gr as (Kr & _). rewrite Kr, P1.
      destruct Ir as [<-|[<-|[<-|[]]]]; reflexivity.
Qed.
