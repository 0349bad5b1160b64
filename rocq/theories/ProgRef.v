(* Instruction calls that refer to a label - mov(reg, label), lea and mov with [rip + label + n] - and indirect branches:
   which bytes they emit, and what the processor does with them. *)
From Coq Require Import ZArith List Bool String Lia.
From Verif Require Import Base Types Emit EmitFacts BitFacts MemFacts LegacyFacts VexFacts EncThms Encode Mnemonic SpecX86 SpecAddr SpecIsa SpecInsn SpecLeg SpecCond SpecExec SpecMach SpecLen SpecRip RipFacts Wf LegFacts LegShapes LegGpr LegGpr2 LegGpr3 LegGpr4 LegGpr5 CondTables ExecFacts ExecProofs ExecMore LenFacts PlainFacts ProgInsn.
Import ListNotations.
Open Scope list_scope.
Open Scope Z_scope.

(* v, the bytes of a label field, leads to t + d from the end of the field, or is t; n bytes of the instruction follow the
   field and the next instruction is at rip *)
Definition field_says (rel : bool) (d n rip t v : Z) : Prop :=
  if rel then addr64 (rip - n + SpecX86.signed 32 (v mod 2 ^ 32)) = addr64 (t + d) else v mod 2 ^ 64 = t.
(* one label field, of l; with the address of l in it the instruction means f *)
Definition encoded_ref (m : E unit) (l : LabelRef) (f : Z -> st -> st) : Prop := forall env pos its u, emits m env pos its u ->
  exists pre rel d post, its = map IDb pre ++ IPutL l rel d :: map IDb post
  /\ Forall is_byte (map IDb pre) /\ Forall is_byte (map IDb post) /\ items_size its <= 15
  /\ forall s rest rip x, (exists x1, exec rip (render s its ++ rest) x = Some (rest, x1))
     /\ forall t, 0 <= t < 2 ^ 64 -> field_says rel d (Z.of_nat (List.length post)) rip t (s l rel d) ->
        exec rip (render s its ++ rest) x = Some (rest, f t x).
(* the branch FF /k to t *)
Definition goes (k : Z) (m : E unit) (t : st -> Z) : Prop := forall env pos its u, emits m env pos its u ->
  Forall is_byte its /\ items_size its <= 15 /\ forall s rest, exists h rm, decode false 1 (render s its ++ rest) = Some (h, k, rm, rest)
  /\ is_indirect h k = true /\ forall rip x, read 64 (rm_loc rip h 64 rm x) x = t x.

(* ---- mov(reg, label) ---- *)
Definition e_movl (r : Reg) (t : Z) : st -> st := e_mov 64 (OReg r) t.
Lemma mov_label_ref r l : gpr r -> bit_ r = 64 -> encoded_ref (mov_label r l) l (e_movl r).
Proof.
  intros G B64 env pos its u H. assert (Hlen : items_size its <= 15). { eapply (L_mov_label r l); [|exact H]. intros _. cbn. unfold getBit. lia. }
  unfold mov_label in H. ebind H i1 i2 n H1 H2. apply emits_emit in H2 as ->.
  assert (HB : Forall is_byte i1) by (eapply (NP_mov_imm r dummyAddr); exact H1).
  assert (exists pre, i1 = map IDb pre) as (pre & Epre).
  { clear - HB. induction HB as [|[b|? ? ?|?] i1 Hb _ IH]; try contradiction; [now exists []|]. destruct IH as (p & ->). now exists (b :: p). }
  exists pre, false, 0, []. rewrite <- Epre. split; [reflexivity|]. split; [exact HB|]. split; [constructor|]. split; [exact Hlen|].
  intros s rest rip x.
  assert (T : exec rip (render s (i1 ++ [IPutL l false 0]) ++ rest) x = Some (rest, e_mov (bit_ (ob (OReg r))) (OReg r) (s l false 0 mod 2 ^ bit_ (ob (OReg r))) x)).
  { apply exec_mov_imm. clear Hlen HB Epre pre.
    assert (N : isREG r = false -> bit4 r = false) by (apply (in_file_bit4 KG); exact G).
    unfold mov_imm in H1. cbv zeta in H1. ebind H1 j1 j2 cb H3 H4. destruct cb as [code bit].
    change (getBit r) with (bit_ r) in H3. rewrite B64 in H3. change (64 =? 64) with true in H3. change (w64 dummyAddr >>> 32 =? 0) with false in H3.
    change (IsInInt32 (w64 dummyAddr)) with false in H3. cbn [andb] in H3.
    ebind H3 k1 k2 y K1 K2. apply emits_ret in K2 as [-> K2]. pose proof (f_equal fst K2) as Ec. cbn [fst] in Ec. change (code = 0xB8) in Ec. subst code.
    ebind H4 j3 j4 x0 H5 H6. apply emits_db in H5 as ->. apply emits_ret in H6 as [-> _]. rewrite low3_and in *.
    rewrite !render_app. cbn [render render1 app]. rewrite ?app_nil_r, <- app_assoc. cbn [app].
    pose proof (low3_range r) as LR. destruct (opcode_low 0xB8 (low3 r) LR) as (O1 & O2 & O3); [auto|]. rewrite O1.
    apply Exists_cons_tl, Exists_cons_hd.
    refine (leaf_opc s (mkL SpecIsa.NP 0 0xB8 false None [opr_ Sv] OsV I_w) (bit_ r) r noReg (0xB8 + low3 r) env pos k1 y [OReg r] (s l false 0) (le_bytes (s l false 0) 8) rest N (quiet_no _) K1 eq_refl eq_refl O2 _ _ eq_refl eq_refl eq_refl _ _ _ _ _).
    - rewrite B64. reflexivity.
    - unfold isBit. rewrite B64. reflexivity.
    - rewrite (in_file_REGb KG _ G), B64. reflexivity.
    - cbn [l_ops existsb opr_ o_at orb l_osz w_opc l_opc]. rewrite O3. lia.
    - intros h reg Fh. apply Forall2_cons; [|apply Forall2_nil]. eapply (opr_facts Sv (bit_ r) r r h (0xB8 + low3 r) reg 0xB8); eauto. reflexivity.
    - right. apply Exists_cons_hd. split; reflexivity.
    - rewrite B64. apply le_tail; [reflexivity|]. reflexivity. }
  cbn [ob] in T. rewrite B64 in T. split; [eauto|]. intros t Ht Hf. cbn [field_says] in Hf. rewrite Hf in T. exact T.
Qed.

(* ---- [rip + label + n] ---- *)
Definition rip_label (a : Address) (l : LabelH) : Prop := rip_mem a /\ a_label a = Some l /\ permitVsib a = false.
Lemma rip_wf a l : rip_label a l -> wf_rip a.
Proof.
  intros ((_ & _ & _ & _ & _ & Ea & M) & Hl & _). repeat split; try (rewrite Ea; reflexivity).
  - destruct M as [[M _]|M]; auto.
  - rewrite Ea. cbn. apply w64_range.
  - rewrite Ea. cbn. apply w64_range.
Qed.
Lemma rip_disp a l : rip_label a l -> w64 (getDisp a - immSize a) = getDisp a.
Proof.
  intros ((_ & _ & _ & _ & I0 & Ea & M) & Hl & _). rewrite I0, Z.sub_0_r.
  pose proof (f_equal e_disp Ea) as X. cbn [regExpDisp e_disp] in X. change (e_disp (a_e a)) with (getDisp a) in X. congruence.
Qed.
Lemma byte_items its : Forall is_byte its -> exists pre, its = map IDb pre.
Proof. induction 1 as [|[b|? ? ?|?] i Hb _ IH]; try contradiction; [now exists []|]. destruct IH as (p & ->). now exists (b :: p). Qed.
Lemma rip_items a l r t c c2 env pos its u : rip_label a l -> emits (opMR a r t c 0 c2) env pos its u ->
  exists pre, its = map IDb pre ++ [IPutL (LObj l) true (getDisp a)] /\ Forall is_byte (map IDb pre).
Proof.
  intros Ha H. pose proof (rip_disp _ _ Ha) as Ed. destruct Ha as (Hm & Hl & Hv). unfold opMR in H. apply emits_fn in H. cbv zeta in H. cbn [Z.eqb negb] in H.
  ebind H i0 i1 b H0 H1. apply emits_ret in H0 as [-> ->]. destruct (is64bitDisp a); [einv H1|]. destruct (_ && _); [einv H1|].
  ebind H1 i2 i3 x H2 H3. ebind H3 i4 i5 y H4 H5. apply NP_rex in H2. apply NP_writeCode in H4.
  unfold opAddr in H5. apply emits_fn in H5. destruct (_ && _); [einv H5|].
  assert (exists i6, i5 = i6 ++ [IPutL (LObj l) true (getDisp a)] /\ Forall is_byte i6) as (i6 & -> & B6).
  { rewrite Hl in H5. destruct Hm as (_ & _ & _ & _ & _ & _ & [[M _]|M]); rewrite M in H5; ebind H5 i6 i7 z H6 H7; apply NP_setModRM in H6; apply emits_emit in H7 as ->;
      rewrite Ed; exists i6; auto. }
  destruct (byte_items (i2 ++ i4 ++ i6)) as (pre & E). { apply Forall_app. split; [exact H2|]. apply Forall_app. auto. }
  exists pre. rewrite <- E. cbn [app]. rewrite <- !app_assoc. split; [reflexivity|]. apply Forall_app. split; [exact H2|]. apply Forall_app. auto.
Qed.
Lemma signed_s32 v : SpecX86.signed 32 (v mod 2 ^ 32) = s32 v.
Proof. unfold SpecX86.signed, s32, w32. change 4294967296 with (2 ^ 32). change (2 ^ (32 - 1)) with 2147483648. reflexivity. Qed.
(* the instruction with opcode code, reg r and operand a *)
Lemma rip_exec s a l r code env pos its u rest rip x :
  rip_label a l -> gpr r -> bit_ r <> 8 -> In code [0x88; 0x8A; 0x8D] -> emits (opMR a r 0 code 0 NONE) env pos its u ->
  exists d h, decode false 1 (render s its ++ rest) = Some (h, regno r, RMem (mkMem BRip None 1 d), rest)
  /\ d = s32 (s (LObj l) true (getDisp a)) /\ opsize h = bit_ r /\ h_67 h = false /\ h_opc h = Z.lor code 1
  /\ exec rip (render s its ++ rest) x = exec_modrm rip h (regno r) (RMem (mkMem BRip None 1 d)) rest x.
Proof.
  intros Ha G B8 Hc H. pose proof (rip_wf _ _ Ha) as Wa. pose proof (rip_disp _ _ Ha) as Ed.
  assert (N : isREG r = false -> bit4 r = false) by (apply (in_file_bit4 KG); exact G).
  assert (Ho : final_opc 0 r code = Z.lor code 1).
  { unfold final_opc, isBit. replace (has (bit_ r) 8) with false; [cbn in Hc; destruct Hc as [<-|[<-|[<-|[]]]]; reflexivity|].
    destruct (gpr_std r G) as [W|[W|[W|W]]]; [congruence|rewrite W; reflexivity..]. }
  assert (Ok : opcode_ok (getMap 0) (final_opc 0 r code) = true) by (rewrite Ho; cbn in Hc; destruct Hc as [<-|[<-|[<-|[]]]]; reflexivity).
  destruct (opMR_rip_dec s a r 0 code env pos its rest u Wa (proj2 (proj2 Ha)) N ltac:(discriminate) Ok H) as (h & d & D & Hd & Hh & Hk).
  exists d, h. split; [exact D|]. unfold rip_meaning in Hd. rewrite (proj1 (proj2 Ha)), Ed in Hd. split; [exact Hd|].
  destruct Hh as (Eh & _). destruct Hk as (Hsz & _). specialize (Hsz eq_refl).
  pose proof (proj1 Ha) as (_ & Hb0 & _ & _ & _ & Ea & _).
  assert (Eu : uses32 (a_e a) = false) by (rewrite Ea; reflexivity).
  assert (Hsize : bit_ (a_op a) = 0 \/ bit_ (a_op a) = bit_ r).
  { destruct (Z.eq_dec (bit_ (a_op a)) 0); [auto|]. right. apply Hsz; [|lia]. destruct (gpr_std r G) as [W|[W|[W|W]]]; lia. }
  assert (Hop : opsize h = bit_ r).
  { rewrite Eh. unfold opsize. cbn [leg_header h_W h_66 p_66]. rewrite (in_file_REGb KG _ G), pfx66_b.
    destruct (gpr_std r G) as [W|[W|[W|W]]]; [congruence|rewrite W in *; destruct Hsize as [-> | ->]; reflexivity..]. }
  split; [exact Hop|]. split; [rewrite Eh; cbn [leg_header h_67 p_67]; exact Eu|]. split; [rewrite Eh; exact Ho|].
  assert (exists c, dec_header (render s its ++ rest) = Some (h, c)) as (c & E).
  { unfold decode in D. destruct (dec_header (render s its ++ rest)) as [[h0 c0]|]; [|discriminate]. destruct (dec_rm _ _ _ _) as [[[? ?] ?]|]; [|discriminate]. injection D as -> _ _ _. eauto. }
  unfold exec. rewrite E, D. assert (plain h = true) as -> by (rewrite Eh; reflexivity). assert (h_map h = 0) as -> by (rewrite Eh; reflexivity).
  assert (h_opc h = Z.lor code 1) as Eo by (rewrite Eh; exact Ho).
  replace (no_modrm (h_opc h)) with false; [reflexivity|]. rewrite Eo. cbn in Hc; destruct Hc as [<-|[<-|[<-|[]]]]; reflexivity.
Qed.
Lemma addr_mod x : addr64 x = x mod 2 ^ 64. Proof. reflexivity. Qed.
(* its address *)
Lemma rip_addr s l D rip t x h d : 0 <= t < 2 ^ 64 -> h_67 h = false -> d = s32 (s (LObj l) true D) -> field_says true D 0 rip t (s (LObj l) true D) ->
  eff_addr (rg x) rip (h_67 h) (mkMem BRip None 1 d) = addr64 (t + D).
Proof.
  intros Ht H67 -> Hf. cbn [field_says] in Hf. rewrite signed_s32 in Hf. rewrite H67. unfold eff_addr. cbn [m_base m_index m_disp base_val].
  rewrite Z.add_0_r. rewrite <- Hf. unfold addr64. f_equal. lia.
Qed.
Definition e_lea_label (r : Reg) (a : Address) (t : Z) : st -> st := fun x => write (bit_ r) (LReg (regno r)) (addr64 (t + getDisp a)) x.
Definition e_load_label (r : Reg) (a : Address) (t : Z) : st -> st :=
  fun x => write (bit_ r) (LReg (regno r)) (read (bit_ r) (LMem (addr64 (t + getDisp a))) x) x.
Definition e_store_label (r : Reg) (a : Address) (t : Z) : st -> st :=
  fun x => write (bit_ r) (LMem (addr64 (t + getDisp a))) (read (bit_ r) (LReg (regno r)) x) x.
Lemma rip_ref m a l r code f : rip_label a l -> gpr r -> bit_ r <> 8 -> In code [0x88; 0x8A; 0x8D] ->
  (forall env pos its u, emits m env pos its u -> emits (opMR a r 0 code 0 NONE) env pos its u) ->
  (forall rip h d t rest x, opsize h = bit_ r -> h_opc h = Z.lor code 1 -> eff_addr (rg x) rip (h_67 h) (mkMem BRip None 1 d) = addr64 (t + getDisp a) ->
    exec_modrm rip h (regno r) (RMem (mkMem BRip None 1 d)) rest x = Some (rest, f t x)) ->
  (forall rip h d rest x, opsize h = bit_ r -> h_opc h = Z.lor code 1 -> exists x1, exec_modrm rip h (regno r) (RMem (mkMem BRip None 1 d)) rest x = Some (rest, x1)) ->
  encoded_ref m (LObj l) f.
Proof.
  intros Ha G B8 Hc Hm Hf Hx env pos its u H. apply Hm in H. clear Hm. destruct (rip_items _ _ _ _ _ _ _ _ _ _ Ha H) as (pre & E & HB).
  exists pre, true, (getDisp a), []. split; [exact E|]. split; [exact HB|]. split; [constructor|].
  split; [assert (items_size its <= 11) by (eapply L_opMR0; exact H); lia|].
  intros s rest rip x. destruct (rip_exec s a l r code env pos its u rest rip x Ha G B8 Hc H) as (d & h & D & Hd & Ho & H67 & Hopc & X).
  rewrite X. split; [now apply Hx|]. intros t Ht Hs. apply Hf; auto. eapply rip_addr; eauto.
Qed.
Ltac modrm_at Ho := unfold exec_modrm; rewrite Ho; cbn [Z.lor Pos.lor Z.eqb Pos.eqb orb andb Z.ltb Z.compare Pos.compare Pos.compare_cont Z.even].
Lemma lea_ref r a l : rip_label a l -> gpr r -> bit_ r <> 8 -> encoded_ref (i_lea r a) (LObj l) (e_lea_label r a).
Proof.
  intros Ha G B8. apply (rip_ref _ a l r 0x8D); auto; [cbn; auto| | |].
  - intros env pos its u H. unfold i_lea in H. apply emits_fn in H. destruct (negb _); [einv H|exact H].
  - intros rip h d t rest x Hs Ho Ea. modrm_at Ho. rewrite Ea, Hs. reflexivity.
  - intros rip h d rest x Hs Ho. modrm_at Ho. eauto.
Qed.
Lemma mov_rip_inv o1 o2 a r env pos its u : (o1 = OReg r /\ o2 = OMem a) \/ (o1 = OMem a /\ o2 = OReg r) -> rip_mem a -> isREG r = true ->
  emits (mov_oo o1 o2) env pos its u -> emits (opRO_MR o1 o2 0x88) env pos its u.
Proof.
  intros Ho Hm HR H. unfold mov_oo in H. apply emits_fn in H.
  assert (is64bitDisp a = false) as E64 by (destruct Hm as (_ & _ & _ & _ & _ & _ & [[M _]|M]); unfold is64bitDisp; rewrite M; reflexivity).
  destruct Ho as [[-> ->]|[-> ->]]; cbv zeta iota beta in H; destruct (isREG r && _); cbv iota beta in H; rewrite ?E64 in H; exact H.
Qed.
Lemma load_ref r a l : rip_label a l -> gpr r -> bit_ r <> 8 -> encoded_ref (mov_oo (OReg r) (OMem a)) (LObj l) (e_load_label r a).
Proof.
  intros Ha G B8. assert (HR : isREG r = true) by (unfold isREG, is_; destruct G as (-> & _); reflexivity).
  apply (rip_ref _ a l r 0x8A); auto; [cbn; auto| | |].
  - intros env pos its u H. eapply mov_rip_inv in H; [|left; split; reflexivity|exact (proj1 Ha)|exact HR].
    unfold opRO_MR in H. apply emits_fn in H. cbn [oREG ob] in H. destruct (negb _); [einv H|]. exact H.
  - intros rip h d t rest x Hs Ho Ea. modrm_at Ho. rewrite Hs. unfold rm_loc, reg_loc. rewrite Ea. replace (bit_ r =? 8) with false by lia. reflexivity.
  - intros rip h d rest x Hs Ho. modrm_at Ho. eauto.
Qed.
Lemma store_ref r a l : rip_label a l -> gpr r -> bit_ r <> 8 -> encoded_ref (mov_oo (OMem a) (OReg r)) (LObj l) (e_store_label r a).
Proof.
  intros Ha G B8. assert (HR : isREG r = true) by (unfold isREG, is_; destruct G as (-> & _); reflexivity).
  assert (set_immSize a 0 = a) as E0 by (destruct Ha as ((_ & _ & _ & _ & I0 & _) & _); destruct a; cbn in *; now rewrite I0).
  apply (rip_ref _ a l r 0x88); auto; [cbn; auto| | |].
  - intros env pos its u H. eapply mov_rip_inv in H; [|right; split; reflexivity|exact (proj1 Ha)|exact HR].
    unfold opRO_MR in H. apply emits_fn in H. unfold opRO in H. apply emits_fn in H. rewrite E0 in H. exact H.
  - intros rip h d t rest x Hs Ho Ea. modrm_at Ho. rewrite Hs. unfold rm_loc, reg_loc. rewrite Ea. replace (bit_ r =? 8) with false by lia. reflexivity.
  - intros rip h d rest x Hs Ho. modrm_at Ho. eauto.
Qed.

(* ---- indirect branches ---- *)
Definition go_row (k : Z) : lrow := mkL SpecIsa.NP 0 0xFF true (Some k) [rm_ KG true Sany] OsN I_none.
(* a register of 32 or 64 bits, or memory not declared to have 16 bits *)
Definition go_op (op : Operand) : Prop := match op with OReg r => gpr r /\ (bit_ r = 32 \/ bit_ r = 64) | OMem a => mem_ok a /\ bit_ (a_op a) <> 16 end.
Definition go_to (op : Operand) (x : st) : Z := read 64 (loc_of op x) x.
Lemma go_chk k : 0 <= k < 8 -> rextchk (go_row k) 0 0xFF true (16 ||| i32e) true Sany (fun m b => if m then negb (b =? 16) else (b =? 32) || (b =? 64)) (fun _ _ => 0) = true.
Proof. intros _. vm_compute. reflexivity. Qed.
Lemma NP_opJmpOp op ty k : omodrm op -> PlainFacts.NP (opJmpOp op ty k).
Proof. intros H. unfold opJmpOp. np. Qed.
Lemma goes_op op ty k : go_op op -> ty <> T_FAR -> k = 2 \/ k = 4 -> goes k (opJmpOp op ty k) (go_to op).
Proof.
  intros Ho Ht Hk env pos its u H.
  assert (Hn : Forall is_byte its).
  { eapply NP_opJmpOp; [|exact H]. destruct op; [exact Logic.I|apply mem_modrm, Ho]. }
  assert (Hl : items_size its <= 15) by (assert (items_size its <= 11) by (eapply L_opJmpOp; exact H); lia).
  split; [exact Hn|]. split; [exact Hl|]. intros s rest.
  unfold opJmpOp in H. apply emits_fn in H. cbv zeta in H. replace (LabelType_beq ty T_FAR) with false in H by (destruct ty; auto; contradiction).
  assert (Hr : match op with OReg q => any_reg q | OMem a => mem_ok a end) by (destruct op; [left; apply Ho|apply Ho]).
  pose proof (rext_gen s (go_row k) true Sany 0 0xFF true k (16 ||| i32e) op 0 [] [] env pos its u 0 [] rest _ _ Hr eq_refl eq_refl ltac:(lia) eq_refl (go_chk k ltac:(lia)) H) as X.
  rewrite app_nil_r in X.
  destruct X as (w & h & reg & rm & opc & tail & D & L & Dg & F & Sz & I).
  { intros _. destruct op as [q|a]; cbn [isMEM ob]; destruct Ho as [_ Ho]; lia. }
  { intros _. apply imm_none_ok. }
  { intros. constructor. }
  cbn [go_row l_modrm l_digit l_ops l_osz l_imm l_opc rm_ existsb o_at orb] in *. destruct D as [(r & -> & D) ->].
  destruct (lhead_plain _ _ _ _ L eq_refl eq_refl) as [Hp H66]. pose proof (lhead_map _ _ _ _ L) as Hm. cbn [l_map go_row l_osz w_66] in Hm, H66.
  pose proof L as (_ & _ & _ & _ & _ & _ & _ & _ & _ & Lo). cbn [go_row l_osz w_opc l_opc] in Lo.
  destruct I as (IL & _ & _). cbn [imm_len] in IL. destruct tail; [|discriminate IL]. specialize (Dg _ eq_refl). subst reg. cbn [app] in D.
  exists h, r. split; [exact D|]. split.
  { unfold is_indirect. rewrite Hp, Hm, Lo, H66. destruct Hk as [-> | ->]; reflexivity. }
  intros rip x. unfold go_to. f_equal. inversion F as [|? ? ? ? F1 _]; subst. destruct op as [q|a].
  - destruct F1 as (_ & _ & Hr' & _). injection Hr' as ->. cbn [rm_loc reg_loc loc_of Z.eqb Pos.eqb]. destruct Ho as [_ Ho]. now replace (bit_ q =? 8) with false by lia.
  - assert (exists m, r = RMem m) as (m & ->) by (destruct F1 as (_ & _ & _ & m & Er & _); injection Er as ->; eauto).
    eapply (rm_where (Some KG) true Sany w h k (RMem m) (OMem a)) with (rip := rip) (s := x) in F1; [|discriminate]. exact F1.
Qed.
Lemma jmp_goes op ty : go_op op -> ty <> T_FAR -> goes 4 (jmp_op op ty) (go_to op).
Proof. intros H1 H2. apply goes_op; auto. Qed.
Lemma call_goes op ty : go_op op -> ty <> T_FAR -> goes 2 (call_op op ty) (go_to op).
Proof. intros H1 H2. apply goes_op; auto. Qed.


(* the calls of statements that name a label, and of indirect branches *)
Inductive label_ref : E unit -> LabelRef -> (Z -> st -> st) -> Prop :=
| R_mov r l : gpr r -> bit_ r = 64 -> label_ref (mov_label r l) l (e_movl r)
| R_lea r a l : rip_label a l -> gpr r -> bit_ r <> 8 -> label_ref (i_lea r a) (LObj l) (e_lea_label r a)
| R_load r a l : rip_label a l -> gpr r -> bit_ r <> 8 -> label_ref (mov_oo (OReg r) (OMem a)) (LObj l) (e_load_label r a)
| R_store r a l : rip_label a l -> gpr r -> bit_ r <> 8 -> label_ref (mov_oo (OMem a) (OReg r)) (LObj l) (e_store_label r a).
Lemma label_ref_encoded m l f : label_ref m l f -> encoded_ref m l f.
Proof. destruct 1; [apply mov_label_ref|apply lea_ref|apply load_ref|apply store_ref]; auto. Qed.
Inductive jmp_to : E unit -> (st -> Z) -> Prop := J_op op ty : go_op op -> ty <> T_FAR -> jmp_to (jmp_op op ty) (go_to op).
Inductive call_to : E unit -> (st -> Z) -> Prop := K_op op ty : go_op op -> ty <> T_FAR -> call_to (call_op op ty) (go_to op).
