(* From instruction rows to execution. *)
From Coq Require Import ZArith List Bool String Lia.
From Verif Require Import Base Types Emit Encode SpecX86 SpecAddr SpecIsa SpecInsn SpecLeg SpecExec Wf EmitFacts BitFacts MemFacts LegacyFacts VexFacts EncThms LegFacts LegShapes LegGpr LegGpr2 LegGpr3 LegGpr4.
Import ListNotations.
Open Scope Z_scope.

Lemma take_app n tail rest : Z.of_nat (List.length tail) = n -> take n (tail ++ rest) = Some (le_val tail, rest).
Proof.
  intros H. unfold take. rewrite app_length, Nat2Z.inj_add. destruct (_ <? n) eqn:Q; [exfalso; apply Z.ltb_lt in Q; pose proof (Nat2Z.is_nonneg (List.length rest)); lia|].
  rewrite <- H, Nat2Z.id. rewrite firstn_app, skipn_app, Nat.sub_diag, firstn_all, skipn_all. cbn [firstn skipn app]. now rewrite app_nil_r.
Qed.
Lemma lhead_plain row w h opc : lhead row w h opc -> l_map row = 0 -> l_pp row = NP -> plain h = true /\ h_66 h = w_66 (l_osz row) w.
Proof.
  intros (E1 & Hw & H66 & H2 & H3 & Hl & Hs & Hm & HW & Ho) M P. rewrite P in *. unfold plain. rewrite E1, Hs, H2, H3, Hl. split; [reflexivity|exact H66].
Qed.
Lemma lhead_map row w h opc : lhead row w h opc -> h_map h = l_map row.
Proof. intros L. apply L. Qed.
(* the operand size of OsV and OsB rows *)
Lemma opsize_row o w h : h_66 h = w_66 o w -> w_in o w = true -> w_W o w (h_W h) = true -> o = OsV \/ o = OsB -> w <> 8 -> opsize h = w.
Proof.
  intros H6 Hi HW O W8. unfold opsize. rewrite H6. destruct O as [-> | ->]; cbn [w_66 w_in w_W] in *; apply eqb_prop in HW; rewrite HW;
    destruct (w =? 64) eqn:Q6; try lia; destruct (w =? 16) eqn:Q1; lia.
Qed.
(* a ModRM operand is where it was written *)
Lemma rm_where k m1 s1 w h reg rm op rip s :
  oper_ok w h reg (Some rm) (mkOper InRm k m1 s1) op -> (forall r, op = OReg r -> bit_ r = w) ->
  rm_loc rip h w rm s = loc_of op s.
Proof.
  intros O B. destruct op as [r|a]; cbn [oper_ok o_at o_reg o_mem o_size] in O.
  - destruct O as (_ & _ & O & Hb). injection O as ->. cbn [rm_loc loc_of]. unfold reg_loc. rewrite (B _ eq_refl) in *.
    destruct (w =? 8) eqn:Q; [|reflexivity]. rewrite Hb by lia. reflexivity.
  - destruct O as (_ & _ & _ & m & Hm & D). injection Hm as ->. cbn [rm_loc loc_of]. now rewrite (D (rg s) rip).
Qed.
Lemma reg_where k m1 s1 w h reg rm r s :
  oper_ok w h reg rm (mkOper InReg k m1 s1) (OReg r) -> bit_ r = w -> reg_loc h w reg = loc_of (OReg r) s.
Proof.
  intros (_ & _ & -> & Hb) B. cbn [loc_of]. unfold reg_loc. rewrite B in *.
  cbn [o_at] in Hb. destruct (w =? 8) eqn:Q; [|reflexivity]. rewrite Hb by lia. reflexivity.
Qed.
Lemma opc_where k m1 s1 w h reg rm r s :
  oper_ok w h reg rm (mkOper InOpc k m1 s1) (OReg r) -> bit_ r = w -> reg_loc h w (h_B h + h_opc h mod 8) = loc_of (OReg r) s.
Proof.
  intros (_ & _ & Ho & Hb) B. cbn [loc_of o_at] in *. rewrite Ho. unfold reg_loc. rewrite B in *.
  destruct (w =? 8) eqn:Q; [|reflexivity]. rewrite Hb by lia. reflexivity.
Qed.
Lemma decode_header v n bs h reg r t : decode v n bs = Some (h, reg, r, t) -> exists c, dec_header bs = Some (h, c).
Proof. unfold decode. destruct (dec_header bs) as [[h0 c]|]; [|discriminate]. destruct (dec_rm _ _ _ _) as [[[? ?] ?]|]; [|discriminate]. intros X. injection X as -> _ _ _. eauto. Qed.

(* the operand width given by a row whose only sized operand is op *)
Lemma sized1 row w op o : sized row w [op] -> l_ops row = [o] -> w <> 0 -> bit_ (ob op) = w.
Proof.
  intros [S|S] L N; [contradiction|]. rewrite L in S. cbn [combine] in S. inversion S as [? ? X|? ? X]; subst; [apply X|inversion X].
Qed.


Lemma exec_modrm_row rip row bs rest w h reg r tail s :
  decode false 1 (bs ++ rest) = Some (h, reg, r, tail ++ rest) -> lhead row w h (h_opc h) -> l_map row = 0 -> l_pp row = NP ->
  no_modrm (h_opc h) = false -> exec rip (bs ++ rest) s = exec_modrm rip h reg r (tail ++ rest) s.
Proof.
  intros D L M P N. unfold exec. destruct (decode_header _ _ _ _ _ _ _ D) as [c ->]. rewrite (proj1 (lhead_plain _ _ _ _ L M P)), N, D, (lhead_map _ _ _ _ L), M. reflexivity.
Qed.
Lemma exec_plain_row rip row bs rest w h opc tail s :
  dec_header (bs ++ rest) = Some (h, tail ++ rest) -> lhead row w h opc -> l_map row = 0 -> l_pp row = NP ->
  no_modrm (h_opc h) = true -> exec rip (bs ++ rest) s = exec_plain h (tail ++ rest) s.
Proof.
  intros D L M P N. unfold exec. rewrite D. rewrite (proj1 (lhead_plain _ _ _ _ L M P)), N, (lhead_map _ _ _ _ L), M. reflexivity.
Qed.
Lemma zlen_bits w : w_std w -> 8 * zlen w = Z.min w 32.
Proof. intros [-> | [-> | [-> | ->]]]; reflexivity. Qed.
Lemma w_std_in o w : o = OsV \/ o = OsB -> w_in o w = true -> w_std w.
Proof. unfold w_std. intros [-> | ->]; cbn [w_in]; lia. Qed.

(* add .. cmp with an immediate *)
Lemma exec_alu_imm rip d op imm bs rest s : 0 <= d < 8 ->
  Exists (fun row => lsays row [op] imm bs rest) (alu_rows d) ->
  exec rip (bs ++ rest) s = Some (rest, e_alu d (bit_ (ob op)) op (arg32 imm mod 2 ^ bit_ (ob op)) s).
Proof.
  intros Hd H. apply Exists_exists in H as (row & Hin & (w & h & reg & rm & opc & tail & D & L & Dg & F & Sz & I)).
  assert (W : w_std w /\ w = bit_ (ob op) /\ l_map row = 0 /\ l_pp row = NP /\ (l_osz row = OsV \/ l_osz row = OsB)).
  { assert (O : l_map row = 0 /\ l_pp row = NP /\ (l_osz row = OsV \/ l_osz row = OsB) /\ exists o, l_ops row = [o]).
    { unfold alu_rows in Hin. cbn [In] in Hin. destruct Hin as [<- | [<- | [<- | []]]]; cbn; repeat split; eauto. }
    destruct O as (O1 & O2 & O3 & o & O4). assert (W : w_std w) by (eapply w_std_in; [exact O3|apply L]).
    repeat split; auto. symmetry. eapply sized1; eauto. destruct W as [-> | [-> | [-> | ->]]]; discriminate. }
  destruct W as (W & Ew & M & P & Os). rewrite <- Ew.
  destruct (lhead_plain _ _ _ _ L M P) as [_ H66].
  assert (B : forall r, op = OReg r -> bit_ r = w) by (intros r ->; symmetry; exact Ew).
  assert (OP : w <> 8 -> opsize h = w). { intros N. eapply opsize_row; [exact H66|apply L|apply L|exact Os|exact N]. }
  assert (Lo : opc = w_opc (l_osz row) w (l_opc row)) by apply L.
  unfold alu_rows in Hin. cbn [In] in Hin. destruct Hin as [<- | [<- | [<- | []]]].
  - (* 80 /d, 81 /d *)
    cbn [rmrow l_modrm l_digit l_ops l_osz l_imm l_opc] in *. destruct D as [(r & -> & D) ->]. rewrite (Dg _ eq_refl) in *. clear Dg.
    inversion F as [|? ? ? ? F1 _]; subst. 
    rewrite (exec_modrm_row rip _ bs rest _ _ _ _ _ s D L eq_refl eq_refl).
    2:{ rewrite Lo. cbn [w_opc]. destruct (_ =? 8); reflexivity. }
    unfold exec_modrm. rewrite Lo. destruct I as (IL & _ & IV). cbn [imm_len] in IL. cbn [w_opc].
    set (w := bit_ (ob op)) in *. fold (zlen w) in IL.
    destruct (Z.eq_dec w 8) as [W8|W8].
    + replace (w =? 8) with true by lia. cbn [Z.eqb Pos.eqb orb Z.even andb].
      rewrite W8 in *. change (zlen 8) with 1 in *. rewrite (take_app 1 _ _ IL).
      rewrite (rm_where _ _ _ _ _ _ _ _ rip s F1 B). change (8 * 1) with (Z.min 8 32). rewrite IV. reflexivity.
    + replace (w =? 8) with false by lia. change (0x80 + 1) with 0x81. cbn [Z.eqb Pos.eqb orb Z.even andb]. rewrite (OP W8).
      rewrite (take_app _ _ _ IL). rewrite (rm_where _ _ _ _ _ _ _ _ rip s F1 B). rewrite (zlen_bits _ W), IV. reflexivity.
  - (* 83 /d *)
    cbn [rmrow l_modrm l_digit l_ops l_osz l_imm l_opc] in *. destruct D as [(r & -> & D) ->]. rewrite (Dg _ eq_refl) in *. clear Dg.
    inversion F as [|? ? ? ? F1 _]; subst. cbn [w_opc] in Lo.
    rewrite (exec_modrm_row rip _ bs rest _ _ _ _ _ s D L eq_refl eq_refl) by (rewrite Lo; reflexivity).
    unfold exec_modrm. rewrite Lo. destruct I as (IL & _ & IV). cbn [imm_len] in IL. cbn [Z.eqb Pos.eqb orb Z.even andb].
    assert (W8 : bit_ (ob op) <> 8). { destruct L as (_ & Hw & _). intros Q. rewrite Q in Hw. discriminate. }
    rewrite (OP W8). rewrite (take_app _ _ _ IL). rewrite (rm_where _ _ _ _ _ _ _ _ rip s F1 B). rewrite IV. reflexivity.
  - (* accumulator *)
    cbn [accrow l_modrm l_digit l_ops l_osz l_imm l_opc acc_ existsb o_at orb] in *. destruct D as (D & -> & ->). clear Dg.
    inversion F as [|? ? ? ? F1 _]; subst. destruct I as (IL & _ & IV). cbn [imm_len w_opc] in IL, Lo.
    set (w := bit_ (ob op)) in *. fold (zlen w) in IL.
    assert (C : (h_opc h <? 64) && ((h_opc h mod 8 =? 4) || (h_opc h mod 8 =? 5)) = true /\ h_opc h / 8 = d /\ h_opc h < 64
      /\ Z.even (h_opc h) = (w =? 8)).
    { rewrite Lo. destruct (w =? 8).
      - replace (8 * d + 4) with (4 + d * 8) by lia. rewrite Z_mod_plus_full, Z.div_add by lia. change (4 mod 8) with 4. change (4 / 8) with 0. repeat split; try lia.
        rewrite Z.even_add, Z.even_mul. cbn. rewrite orb_true_r. reflexivity.
      - replace (8 * d + 4 + 1) with (5 + d * 8) by lia. rewrite Z_mod_plus_full, Z.div_add by lia. change (5 mod 8) with 5. change (5 / 8) with 0. repeat split; try lia.
        rewrite Z.even_add, Z.even_mul. cbn. rewrite orb_true_r. reflexivity. }
    destruct C as (C1 & C2 & C3 & C4).
    rewrite (exec_plain_row rip _ bs rest _ _ _ _ s D L eq_refl eq_refl) by (unfold no_modrm; rewrite C1, orb_true_r; reflexivity).
    unfold exec_plain. rewrite C1, C2, C4. replace (0xB0 <=? h_opc h) with false by lia. replace (0xB8 <=? h_opc h) with false by lia. cbn [andb].
    destruct op as [q|a]; [|destruct F1 as [F1 _]; discriminate]. destruct F1 as (_ & _ & R0 & Hb). cbn [acc_ o_at] in R0, Hb.
    destruct (Z.eq_dec w 8) as [W8|W8].
    + rewrite W8 in *. change (8 =? 8) with true. cbn iota. rewrite (take_app _ _ _ IL). change (8 * zlen 8) with (Z.min 8 32). rewrite IV.
      unfold e_alu, loc_of. change (bit_ q) with w. rewrite W8. change (8 =? 8) with true. cbn iota. rewrite (Hb W8). reflexivity.
    + replace (w =? 8) with false by lia. rewrite (OP W8). rewrite (take_app _ _ _ IL). rewrite (zlen_bits _ W), IV.
      unfold e_alu, loc_of. change (bit_ q) with w. replace (w =? 8) with false by lia. rewrite R0. reflexivity.
Qed.

Lemma le_val_range l : Forall (fun b => 0 <= b < 256) l -> 0 <= le_val l < 256 ^ Z.of_nat (List.length l).
Proof.
  induction 1 as [|b l Hb _ IH]; cbn [le_val List.length]; [cbn; lia|]. rewrite Nat2Z.inj_succ, Z.pow_succ_r by lia. lia.
Qed.
Lemma opc_range o c : o - o mod 8 = c -> c = 0xB0 \/ c = 0xB8 \/ c = 0x50 \/ c = 0x58 -> c <= o <= c + 7.
Proof. intros H C. pose proof (Z.mod_pos_bound o 8 ltac:(lia)). lia. Qed.

(* mov with an immediate *)
Lemma exec_mov_imm rip op imm bs rest s :
  Exists (fun row => lsays row [op] imm bs rest) mov_rows ->
  exec rip (bs ++ rest) s = Some (rest, e_mov (bit_ (ob op)) op (imm mod 2 ^ bit_ (ob op)) s).
Proof.
  intros H. apply Exists_exists in H as (row & Hin & (w & h & reg & rm & opc & tail & D & L & Dg & F & Sz & I)).
  unfold mov_rows in Hin. cbn [In] in Hin. destruct Hin as [<- | [<- | [<- | [<- | []]]]];
    cbn [l_modrm l_digit l_ops l_osz l_imm l_opc opr_ existsb o_at orb] in *;
    inversion F as [|? ? ? ? F1 _]; subst; destruct (lhead_plain _ _ _ _ L eq_refl eq_refl) as [_ H66];
    pose proof L as (_ & Hw & _ & _ & _ & _ & _ & _ & HW & Lo); cbn [l_osz w_in w_66 w_W w_opc l_opc] in Hw, HW, Lo, H66;
    destruct I as (IL & IB & IV); cbn [imm_len] in IL.
  - (* B0+r *)
    destruct D as (D & -> & ->). assert (w = 8) as -> by lia. pose proof (opc_range _ _ Lo ltac:(auto)) as R.
    rewrite (exec_plain_row rip _ bs rest _ _ _ _ s D L eq_refl eq_refl) by (unfold no_modrm; replace (0xB0 <=? h_opc h) with true by lia; replace (h_opc h <=? 0xBF) with true by lia; reflexivity).
    unfold exec_plain. replace (0xB0 <=? h_opc h) with true by lia. replace (h_opc h <=? 0xB7) with true by lia. cbn [andb].
    change (8 / 8) with 1 in IL. rewrite (take_app _ _ _ IL), IV.
    destruct op as [q|a]; [|destruct F1 as [F1 _]; discriminate].
    assert (B : bit_ q = 8) by (refine (sized1 _ 8 (OReg q) _ Sz eq_refl _); discriminate).
    rewrite (opc_where _ _ _ _ _ _ _ _ s F1 B). unfold e_mov. cbn [ob]. rewrite B. reflexivity.
  - (* B8+r *)
    destruct D as (D & -> & ->). pose proof (opc_range _ _ Lo ltac:(auto)) as R.
    assert (W8 : w <> 8) by lia.
    rewrite (exec_plain_row rip _ bs rest _ _ _ _ s D L eq_refl eq_refl) by (unfold no_modrm; replace (0xB0 <=? h_opc h) with true by lia; replace (h_opc h <=? 0xBF) with true by lia; reflexivity).
    unfold exec_plain. replace (h_opc h <=? 0xB7) with false by lia. rewrite andb_false_r. replace (0xB8 <=? h_opc h) with true by lia. replace (h_opc h <=? 0xBF) with true by lia. cbn [andb].
    assert (OP : opsize h = w). { apply (opsize_row OsV); cbn [w_66 w_in w_W]; auto. }
    rewrite OP, (take_app _ _ _ IL), IV.
    destruct op as [q|a]; [|destruct F1 as [F1 _]; discriminate].
    assert (B : bit_ q = w) by (refine (sized1 _ w (OReg q) _ Sz eq_refl _); lia).
    pose proof (opc_where _ _ _ _ _ _ _ _ s F1 B) as X. unfold reg_loc in X. replace (w =? 8) with false in X by lia. rewrite X.
    unfold e_mov. cbn [ob]. rewrite B. reflexivity.
  - (* B8+r, 32 bits, zero extended *)
    destruct D as (D & -> & ->). pose proof (opc_range _ _ Lo ltac:(auto)) as R.
    rewrite (exec_plain_row rip _ bs rest _ _ _ _ s D L eq_refl eq_refl) by (unfold no_modrm; replace (0xB0 <=? h_opc h) with true by lia; replace (h_opc h <=? 0xBF) with true by lia; reflexivity).
    unfold exec_plain. replace (h_opc h <=? 0xB7) with false by lia. rewrite andb_false_r. replace (0xB8 <=? h_opc h) with true by lia. replace (h_opc h <=? 0xBF) with true by lia. cbn [andb].
    assert (OP : opsize h = 32) by (unfold opsize; apply negb_true_iff in HW; rewrite HW, H66; reflexivity).
    rewrite OP. change (32 / 8) with 4. rewrite (take_app _ _ _ IL).
    destruct op as [q|a]; [|destruct F1 as [F1 _]; discriminate]. destruct F1 as (_ & B & Ho & _). cbn [o_size size_is opr_ o_at] in B, Ho.
    unfold e_mov. cbn [ob loc_of]. rewrite B, Ho. change (64 =? 8) with false. cbn iota. unfold write.
    pose proof (le_val_range _ IB) as LR. replace (Z.of_nat (Datatypes.length tail)) with 4 in LR by (symmetry; exact IL). change (256 ^ 4) with (2 ^ 32) in LR. change (32 =? 16) with false. change (64 =? 16) with false. cbn iota zeta.
    rewrite (Z.mod_small (le_val tail)) by exact LR. rewrite IV, Z.mod_mod by discriminate. reflexivity.
  - (* C6, C7 *)
    destruct D as [(r & -> & D) ->]. rewrite (Dg _ eq_refl) in *. clear Dg.
    assert (W : w_std w) by (unfold w_std; lia).
    assert (B : bit_ (ob op) = w) by (refine (sized1 _ w op _ Sz eq_refl _); destruct W as [-> | [-> | [-> | ->]]]; discriminate).
    assert (B' : forall r, op = OReg r -> bit_ r = w) by (intros r0 ->; exact B). rewrite B.
    rewrite (exec_modrm_row rip _ bs rest _ _ _ _ _ s D L eq_refl eq_refl).
    2:{ rewrite Lo. destruct (_ =? 8); reflexivity. }
    unfold exec_modrm. rewrite Lo. fold (zlen w) in IL.
    destruct (Z.eq_dec w 8) as [W8|W8].
    + replace (w =? 8) with true by lia. cbn [Z.eqb Pos.eqb orb Z.even andb].
      rewrite W8 in *. change (zlen 8) with 1 in *. rewrite (take_app 1 _ _ IL).
      rewrite (rm_where _ _ _ _ _ _ _ _ rip s F1 B'). change (8 * 1) with (Z.min 8 32). rewrite IV. reflexivity.
    + replace (w =? 8) with false by lia. change (0xC6 + 1) with 0xC7. cbn [Z.eqb Pos.eqb orb Z.even andb].
      assert (OP : opsize h = w). { apply (opsize_row OsB); cbn [w_66 w_in w_W]; auto. }
      rewrite OP. rewrite (take_app _ _ _ IL). rewrite (rm_where _ _ _ _ _ _ _ _ rip s F1 B'). rewrite (zlen_bits _ W), IV. reflexivity.
Qed.
(* op1 op= op2: register and register or memory *)
Lemma sized2 row w o1 o2 p1 p2 : l_ops row = [p1; p2] -> o_size p1 = Sv -> o_size p2 = Sv -> sized row w [o1; o2] -> w <> 0 ->
  bit_ (ob o1) = w \/ bit_ (ob o2) = w.
Proof.
  intros L S1 S2 [S|S] N; [contradiction|]. rewrite L in S. cbn [combine] in S. inversion S as [? ? X|? ? X]; subst; [left; apply X|].
  inversion X as [? ? Y|? ? Y]; subst; [right; apply Y|inversion Y].
Qed.
Lemma exec_two rip c o1 o2 imm bs rest s :
  Exists (fun row => lsays row [o1; o2] imm bs rest) (mr_rows c) ->
  exists w r, (o1 = OReg r \/ o2 = OReg r) /\ w = bit_ r /\
  (forall d, 0 <= d < 8 -> c = 8 * d -> exec rip (bs ++ rest) s = Some (rest, e_alu2 d w o1 o2 s))
  /\ (c = 0x88 -> exec rip (bs ++ rest) s = Some (rest, e_mov2 w o1 o2 s)).
Proof.
  intros H. apply Exists_exists in H as (row & Hin & (w & h & reg & rm & opc & tail & D & L & Dg & F & Sz & I)).
  unfold mr_rows in Hin. cbn [In] in Hin.
  assert (G : exists k o, row = mkL NP 0 o true None (if (o =? c) then [rm_ KG true Sv; r_ KG Sv] else [r_ KG Sv; m_ Sv]) OsB I_none
     /\ (o = c \/ o = c + 2) /\ k = true).
  { destruct Hin as [<- | [<- | []]]; exists true; [exists c|exists (c + 2)]; unfold orrow; [rewrite Z.eqb_refl|replace (c + 2 =? c) with false by lia]; auto. }
  clear Hin. destruct G as (_ & o & -> & Ho & _).
  cbn [l_modrm l_digit l_ops l_osz l_imm l_opc] in *. destruct D as [(r & -> & D) ->]. clear Dg.
  destruct (lhead_plain _ _ _ _ L eq_refl eq_refl) as [_ H66].
  pose proof L as (_ & Hw & _ & _ & _ & _ & _ & _ & HW & Lo); cbn [l_osz w_in w_66 w_W w_opc l_opc] in Hw, HW, Lo, H66.
  destruct I as (IL & _ & _). cbn [imm_len] in IL. assert (tail = []) as -> by (destruct tail; [reflexivity|cbn in IL; lia]). cbn [app] in *.
  assert (W : w_std w) by (unfold w_std; lia). assert (W0 : w <> 0) by (destruct W as [-> | [-> | [-> | ->]]]; discriminate).
  assert (OP : w <> 8 -> opsize h = w). { intros N. apply (opsize_row OsB); cbn [w_66 w_in w_W]; auto. }
  assert (X : exists q x, (if o =? c then o1 = x /\ o2 = OReg q else o1 = OReg q /\ o2 = x)
     /\ bit_ q = w /\ reg_loc h w reg = loc_of (OReg q) s /\ rm_loc rip h w r s = loc_of x s).
  { destruct (o =? c); inversion F as [|? ? ? ? F1 F']; subst; inversion F' as [|? ? ? ? F2 _]; subst.
    - destruct o2 as [q|a]; [|destruct F2 as [F2 _]; discriminate]. exists q, o1. split; [auto|].
      assert (B : bit_ q = w) by apply F2. split; [exact B|]. split; [eapply reg_where; eauto|]. eapply rm_where; eauto.
      intros r0 ->. apply F1.
    - destruct o1 as [q|a]; [|destruct F1 as [F1 _]; discriminate]. exists q, o2. split; [auto|].
      assert (B : bit_ q = w) by apply F1. split; [exact B|]. split; [eapply reg_where; eauto|]. eapply rm_where; eauto.
      intros r0 ->. destruct F2 as ((k & K & _) & _). discriminate. }
  destruct X as (q & x & Hx & B & RL & ML). exists w, q.
  split; [destruct (o =? c); destruct Hx as [-> ->]; auto|]. split; [auto|].
  assert (WW : (if Z.even (h_opc h) then 8 else opsize h) = w -> 
     (forall d, 0 <= d < 8 -> c = 8 * d -> exec rip (bs ++ rest) s = Some (rest, e_alu2 d w o1 o2 s))
  /\ (c = 0x88 -> exec rip (bs ++ rest) s = Some (rest, e_mov2 w o1 o2 s))).
  { intros EW. split.
    - intros d Hd Hc.
      assert (C : h_opc h < 64 /\ h_opc h mod 8 = (if o =? c then 0 else 2) + (if w =? 8 then 0 else 1) /\ h_opc h / 8 = d /\ 0 <= h_opc h).
      { rewrite Lo. destruct Ho as [-> | ->]; [rewrite Z.eqb_refl|replace (c + 2 =? c) with false by lia]; rewrite Hc; destruct (w =? 8).
        - replace (8 * d) with (0 + d * 8) by lia. rewrite Z_mod_plus_full, Z.div_add by lia. repeat split; try reflexivity; try lia.
        - replace (8 * d + 1) with (1 + d * 8) by lia. rewrite Z_mod_plus_full, Z.div_add by lia. repeat split; try reflexivity; try lia.
        - replace (8 * d + 2) with (2 + d * 8) by lia. rewrite Z_mod_plus_full, Z.div_add by lia. repeat split; try reflexivity; try lia.
        - replace (8 * d + 2 + 1) with (3 + d * 8) by lia. rewrite Z_mod_plus_full, Z.div_add by lia. repeat split; try reflexivity; try lia. }
      destruct C as (C1 & C2 & C3 & C4).
      assert (NM : no_modrm (h_opc h) = false).
      { unfold no_modrm. rewrite C2. destruct (o =? c), (w =? 8); replace (h_opc h <? 64) with true by lia; lia. }
      rewrite (exec_modrm_row rip _ bs rest _ _ _ _ [] s D L eq_refl eq_refl NM).
      unfold exec_modrm. rewrite EW. cbn zeta. replace (h_opc h =? 128) with false by lia. replace (h_opc h =? 129) with false by lia.
      replace (h_opc h =? 131) with false by lia. replace (h_opc h =? 198) with false by lia. replace (h_opc h =? 199) with false by lia.
      replace (h_opc h =? 255) with false by lia. replace (h_opc h =? 143) with false by lia. replace (h_opc h <? 64) with true by lia. cbn [orb andb].
      rewrite C2, C3, RL, ML. cbn [app].
      destruct (o =? c); destruct Hx as [-> ->]; destruct (w =? 8); reflexivity.
    - intros Hc.
      assert (NM : no_modrm (h_opc h) = false /\ h_opc h = (if o =? c then 0x88 else 0x8A) + (if w =? 8 then 0 else 1)).
      { rewrite Lo. destruct Ho as [-> | ->]; [rewrite Z.eqb_refl|replace (c + 2 =? c) with false by lia]; rewrite Hc; destruct (w =? 8); split; reflexivity. }
      destruct NM as [NM Eo].
      rewrite (exec_modrm_row rip _ bs rest _ _ _ _ [] s D L eq_refl eq_refl NM).
      unfold exec_modrm. rewrite EW. cbn zeta. rewrite Eo, RL, ML.
      destruct (o =? c); destruct Hx as [-> ->]; destruct (w =? 8); reflexivity. }
  assert (EV : forall d, 0 <= d < 8 -> c = 8 * d \/ c = 0x88 -> Z.even (h_opc h) = (w =? 8)).
  { intros d _ Hc. assert (Ec : Z.even c = true) by (destruct Hc as [-> | ->]; [rewrite Z.even_mul; reflexivity|reflexivity]).
    rewrite Lo. destruct Ho as [-> | ->]; destruct (w =? 8); rewrite ?Z.even_add, Ec; reflexivity. }
  split.
  - intros d Hd Hc. apply WW; auto. rewrite (EV d Hd (or_introl Hc)). destruct (w =? 8) eqn:Q8; [lia|]. apply OP. lia.
  - intros Hc. apply WW; auto. rewrite (EV 0 ltac:(lia) (or_intror Hc)). destruct (w =? 8) eqn:Q8; [lia|]. apply OP. lia.
Qed.

(* push, pop *)
Lemma stacksize_row w h : h_66 h = w_66 Os64 w -> w_in Os64 w = true -> stacksize h = w.
Proof. unfold stacksize. cbn [w_66 w_in]. intros -> H. destruct (w =? 16) eqn:Q; lia. Qed.
Lemma do_pop_ext w f g s : (forall s', f s' = g s') -> do_pop w f s = do_pop w g s.
Proof. intros H. unfold do_pop. rewrite H. reflexivity. Qed.
Lemma exec_stack rip op imm bs rest s code ext alt (isPop : bool) :
  (code, ext, alt) = (if isPop then (0x8F, 0, 0x58) else (0xFF, 6, 0x50)) ->
  Exists (fun row => lsays row [op] imm bs rest) (push_rows code ext alt) ->
  exec rip (bs ++ rest) s = Some (rest, (if isPop then e_pop else e_push) (bit_ (ob op)) op s).
Proof.
  intros Ec H. apply Exists_exists in H as (row & Hin & (w & h & reg & rm & opc & tail & D & L & Dg & F & Sz & I)).
  unfold push_rows in Hin. cbn [In] in Hin. destruct Hin as [<- | [<- | []]];
    cbn [l_modrm l_digit l_ops l_osz l_imm l_opc opr_ existsb o_at orb] in *;
    inversion F as [|? ? ? ? F1 _]; subst; destruct (lhead_plain _ _ _ _ L eq_refl eq_refl) as [_ H66];
    pose proof L as (_ & Hw & _ & _ & _ & _ & _ & _ & HW & Lo); cbn [l_osz w_W w_opc l_opc] in Hw, HW, Lo, H66;
    destruct I as (IL & _ & _); cbn [imm_len] in IL; (assert (tail = []) as -> by (destruct tail; [reflexivity|cbn in IL; lia])); cbn [app] in *;
    pose proof (stacksize_row w h H66 Hw) as SS; (assert (w <> 8 /\ w <> 0) as [W8 W0] by (cbn [w_in] in Hw; lia)); cbn [imm_len] in IL;
    (assert (B : bit_ (ob op) = w) by (refine (sized1 _ w op _ Sz eq_refl _); exact W0)).
  - destruct D as (D & -> & ->). destruct op as [q|a]; [|destruct F1 as [F1 _]; discriminate]. cbn [ob] in B.
    pose proof (opc_where _ _ _ _ _ _ _ _ s F1 B) as X. unfold reg_loc in X. replace (w =? 8) with false in X by lia.
    assert (R : alt <= h_opc h <= alt + 7 /\ (alt = 0x50 \/ alt = 0x58)).
    { destruct isPop; injection Ec as -> -> ->; (split; [apply opc_range; auto|auto]). }
    destruct R as [R Ra].
    rewrite (exec_plain_row rip _ bs rest _ _ _ [] s D L eq_refl eq_refl).
    2:{ unfold no_modrm. replace (0x50 <=? h_opc h) with true by lia. replace (h_opc h <=? 0x5F) with true by lia. rewrite orb_true_r. reflexivity. }
    unfold exec_plain. replace (0xB0 <=? h_opc h) with false by lia. replace (0xB8 <=? h_opc h) with false by lia. replace (h_opc h <? 64) with false by lia.
    cbn [andb app ob]. rewrite SS, X, B. destruct isPop; injection Ec as -> -> ->.
    + replace (h_opc h <=? 0x57) with false by lia. rewrite andb_false_r. replace (0x58 <=? h_opc h) with true by lia. replace (h_opc h <=? 0x5F) with true by lia. reflexivity.
    + replace (0x50 <=? h_opc h) with true by lia. replace (h_opc h <=? 0x57) with true by lia. reflexivity.
  - destruct D as [(r & -> & D) ->]. rewrite (Dg _ eq_refl) in *. clear Dg. rewrite B.
    assert (B' : forall r, op = OReg r -> bit_ r = w) by (intros r0 ->; exact B).
    rewrite (exec_modrm_row rip _ bs rest _ _ _ _ [] s D L eq_refl eq_refl) by (rewrite Lo; destruct isPop; injection Ec as -> -> ->; reflexivity).
    unfold exec_modrm. rewrite Lo. destruct isPop; injection Ec as -> -> ->; cbn [Z.eqb Pos.eqb orb andb Z.even]; rewrite SS.
    + unfold e_pop. cbn [app]. f_equal. f_equal. apply do_pop_ext. intros s'. apply (rm_where _ _ _ _ _ _ _ _ rip s' F1 B').
    + rewrite (rm_where _ _ _ _ _ _ _ _ rip s F1 B'). reflexivity.
Qed.
(* push with an immediate *)
Lemma signed_disp8 imm : IsInDisp8 (w32 imm) = true -> signed 8 (w8 (w32 imm)) = arg32 imm.
Proof.
  intros D. rewrite (disp8_val _ D). unfold arg32, s32, signed, w32. change (2 ^ 32) with 4294967296. change (2 ^ (32 - 1)) with 2147483648. rewrite !Z.mod_mod by lia. reflexivity.
Qed.
Lemma push_imm_exec rip imm env pos its u s st0 rest : emits (push_imm imm) env pos its u ->
  exec rip (render s its ++ rest) st0 = Some (rest, do_push 64 (arg32 imm) st0).
Proof.
  intros H. unfold push_imm in H. cbv zeta in H. destruct (IsInDisp8 (w32 imm)) eqn:D; unfold push_af in H; cbn [Z.eqb Pos.eqb] in H;
    ebind H i1 i2 x H1 H2; apply emits_db in H1 as ->.
  - apply emits_db in H2 as ->. cbn [render render1 app].
    change (exec rip (w8 106 :: w8 (w32 imm) :: rest) st0) with
      (match take 1 ([w8 (w32 imm)] ++ rest) with Some (v, c) => Some (c, do_push 64 (signed 8 v) st0) | None => None end).
    rewrite (take_app 1) by reflexivity. cbn [le_val]. rewrite Z.add_0_r, (signed_disp8 _ D). reflexivity.
  - unfold dd in H2. apply (dbn_render s) in H2 as [_ H2]; [|lia]. rewrite render_app, H2. cbn [render render1 app].
    change (exec rip (w8 104 :: le_bytes (w32 (w32 imm)) (Z.to_nat 4) ++ rest) st0) with
      (match take 4 (le_bytes (w32 (w32 imm)) 4 ++ rest) with Some (v, c) => Some (c, do_push 64 (signed 32 v) st0) | None => None end).
    rewrite (take_app 4) by reflexivity. rewrite le_val_bytes. change (256 ^ Z.of_nat 4) with 4294967296. unfold arg32, w32. change (2 ^ 32) with 4294967296. rewrite !Z.mod_mod by lia. reflexivity.
Qed.

(* ---- mov with a 64-bit register: the lengths ---- *)
Definition rex_len (f : rexform) : Z := Z.of_nat (List.length (rex_bytes f)).
Lemma rex_len_for f two is0F w e r x b : rf_for f two is0F w e r x b ->
  rex_len f = if two then 2 else if w || bit3 r || bit3 x || bit3 b || e then 1 else 0.
Proof.
  intros (FW & FR & FX & FB & Frex & Fk). destruct two.
  - destruct Fk as (? & ? & ? & ? & ? & ? & ? & ->). reflexivity.
  - cbn [orb] in Frex. rewrite <- Frex. destruct f; cbn [rf_rex]; try reflexivity. exfalso. eapply Fk. reflexivity.
Qed.
Lemma rex1_len s r env pos its x : gpr r -> bit_ r <> 8 -> emits (rex (OReg r) noOp 0) env pos its x ->
  Z.of_nat (List.length (render s its)) = (if bit_ r =? 16 then 1 else 0) + (if 16 <=? regno r then 2 else if (bit_ r =? 64) || (8 <=? regno r) then 1 else 0).
Proof.
  intros G B8 H. apply (rex_reg s) in H as (_ & _ & _ & _ & Hx2 & _ & f & Hpre & Hrf). change (regHasRex2 noReg) with false in Hx2. rewrite orb_false_r in Hx2.
  rewrite Hpre, app_length, Nat2Z.inj_add. change (Z.of_nat (List.length (rex_bytes f))) with (rex_len f). rewrite (rex_len_for _ _ _ _ _ _ _ _ Hrf).
  pose proof (q_66 _ _ (quiet_no r)) as Q6. rewrite Q6. change (has 0 T_F2) with false. change (has 0 T_F3) with false.
  f_equal.
  - unfold pfx_bytes, isBit. destruct (gpr_std _ G) as [-> | [-> | [-> | ->]]]; reflexivity.
  - rewrite Hx2. change (isREGb noReg 64) with false. change (bit3 noReg) with false. change (isExt8bit noReg) with false. rewrite !orb_false_r.
    assert (R : isREG r = true) by (destruct G as [K _]; unfold isREG, is_; rewrite K; reflexivity).
    assert (E5 : isExt8bit r = false).
    { rewrite isExt8bit_bit5. destruct G as [_ [[_ I]|[I _]]]; [|contradiction]. rewrite Z.testbit_false by lia. rewrite Z.div_small by lia. reflexivity. }
    rewrite E5. unfold regHasRex2. rewrite R, isExtIdx2_bit4. cbn [andb]. rewrite (in_file_REGb KG _ G).
    pose proof (regno_split r) as Sp. pose proof (low3_range r) as LR.
    destruct (bit4 r), (bit3 r); cbn [z01] in Sp; destruct (16 <=? regno r) eqn:Q1; destruct (8 <=? regno r) eqn:Q2; try lia;
      destruct (gpr_std _ G) as [-> | [-> | [-> | ->]]]; reflexivity.
Qed.
Lemma mov64_len s r imm env pos its u : gpr r -> bit_ r = 64 -> emits (mov_oi (OReg r) imm) env pos its u ->
  Z.of_nat (List.length (render s its)) =
  if fits32u imm then 5 + (if 16 <=? regno r then 2 else if 8 <=? regno r then 1 else 0)
  else (if fits32s imm then 7 else 10) + (if 16 <=? regno r then 1 else 0).
Proof.
  intros G B H. unfold mov_oi in H. apply emits_fn in H. cbv zeta in H.
  assert (R : isREG r = true) by (destruct G as [K _]; unfold isREG, is_; rewrite K; reflexivity). rewrite R in H.
  assert (V : 0 <= w64 imm < 2 ^ 64) by (unfold w64; change 18446744073709551616 with (2 ^ 64); apply Z.mod_pos_bound; lia).
  ebind H i1 i2 size H1 H2. unfold mov_imm in H1. cbv zeta in H1. ebind H1 j1 j2 cb H3 H4. destruct cb as [code bit].
  change (getBit r) with (bit_ r) in H3.
  assert (W2 : w64 (w64 imm) = w64 imm) by (unfold w64; now rewrite Z.mod_mod by lia). rewrite W2, B in H3.
  ebind H4 j3 j4 x H5 H6. apply emits_db in H5 as ->. apply emits_ret in H6 as [-> ->].
  assert (U : fits32u imm = (w64 imm >>> 32 =? 0)).
  { unfold fits32u. change (imm mod 2 ^ 64) with (w64 imm). rewrite Z.shiftr_div_pow2 by lia.
    destruct (w64 imm <? 2 ^ 32) eqn:Q; [rewrite Z.div_small by lia; reflexivity|]. symmetry. apply Z.eqb_neq. intros Q0. apply Z.div_small_iff in Q0; lia. }
  assert (SS : fits32s imm = IsInInt32 (w64 imm)).
  { unfold fits32s, IsInInt32, signed. change (imm mod 2 ^ 64) with (w64 imm). rewrite W2. change (2 ^ (64 - 1)) with 9223372036854775808. change (2 ^ 31) with 2147483648.
    change (2 ^ 64) with 18446744073709551616 in *. cbv zeta. destruct (w64 imm <? 9223372036854775808) eqn:Q; lia. }
  rewrite U, SS. change (64 =? 64) with true in H3. cbn [andb] in H3. rewrite !render_app, !app_length, !Nat2Z.inj_add. cbn [render render1 List.length app]. change (Z.of_nat 1) with 1. change (Z.of_nat 0) with 0.
  destruct (w64 imm >>> 32 =? 0) eqn:Z32.
  - ebind H3 k1 k2 y K1 K2. apply emits_ret in K2 as [-> K2]. pose proof (f_equal snd K2) as Eb. cbn [snd] in Eb. subst bit.
    change (32 / 8) with 4 in H2. apply (dbn_render s) in H2 as [_ ->]; [|lia]. rewrite app_nil_r, le_bytes_length.
    destruct (reg32_of r) as (Q1 & Q2 & Q3 & Q4 & Q5 & Q6).
    assert (G' : gpr (Reg32 (getIdx r))). { split; [reflexivity|]. left. split; [auto|]. cbn [Reg32 regOf idx_]. cbv iota. rewrite Z.lor_0_r. pose proof (getIdx_range r). rewrite Z.mod_small; lia. }
    rewrite (rex1_len s _ _ _ _ _ G' ltac:(rewrite Q4; discriminate) K1), Q1, Q4. change (32 =? 16) with false. change (32 =? 64) with false. cbn [orb]. change (Z.of_nat (Z.to_nat 4)) with 4.
    destruct (16 <=? regno r), (8 <=? regno r); lia.
  - ebind H3 k1 k2 y K1 K2. rewrite render_app, app_length, Nat2Z.inj_add.
    rewrite (rex1_len s _ _ _ _ _ G ltac:(rewrite B; discriminate) K1), B. change (64 =? 16) with false. change (64 =? 64) with true. cbn [orb].
    destruct (IsInInt32 (w64 imm)).
    + ebind K2 k3 k4 z K3 K4. apply emits_db in K3 as ->. apply emits_ret in K4 as [-> K4]. pose proof (f_equal snd K4) as Eb. cbn [snd] in Eb. subst bit.
      apply (dbn_render s) in H2 as [_ ->]; [|vm_compute; discriminate]. rewrite le_bytes_length. cbn [render render1 app List.length]. change (Z.of_nat 1) with 1. change (Z.of_nat (Z.to_nat (32 / 8))) with 4. destruct (16 <=? regno r); lia.
    + apply emits_ret in K2 as [-> K2]. pose proof (f_equal snd K2) as Eb. cbn [snd] in Eb. subst bit.
      apply (dbn_render s) in H2 as [_ ->]; [|vm_compute; discriminate]. rewrite le_bytes_length. cbn [render List.length]. change (Z.of_nat 0) with 0. change (Z.of_nat (Z.to_nat (64 / 8))) with 8. destruct (16 <=? regno r); lia.
Qed.

(* ---- acceptance ---- *)
Lemma emits_fn_i {A} (d : A) m env pos its a : emits m env pos its a -> emits (fn d m) env pos its a.
Proof. intros [N H]. split; auto. unfold fn. rewrite H. reflexivity. Qed.
Lemma emits_bind_i {A B} (m : E A) (f : A -> E B) env pos i1 i2 a b :
  emits m env pos i1 a -> emits (f a) env (pos + items_size i1) i2 b -> emits (bind m f) env pos (i1 ++ i2) b.
Proof. intros [N H] [_ H2]. split; auto. unfold bind. rewrite H, H2. reflexivity. Qed.
Definition succeeds {A} (m : E A) (env : Env) (pos : Z) : Prop := exists its a, emits m env pos its a.
Lemma succ_bind {A B} (m : E A) (f : A -> E B) env pos : succeeds m env pos -> (forall a pos', succeeds (f a) env pos') -> succeeds (bind m f) env pos.
Proof. intros (i1 & a & H1) H2. destruct (H2 a (pos + items_size i1)) as (i2 & b & H). exists (i1 ++ i2), b. eapply emits_bind_i; eauto. Qed.
Lemma succ_fn {A} (d : A) m env pos : succeeds m env pos -> succeeds (fn d m) env pos.
Proof. intros (i & a & H). exists i, a. now apply emits_fn_i. Qed.
Lemma succ_ret {A} (a : A) env pos : env_noexc env = false -> succeeds (ret a) env pos.
Proof. intros H. exists [], a. split; auto. Qed.
Lemma succ_db b env pos : env_noexc env = false -> succeeds (db b) env pos.
Proof. intros H. eexists _, _. split; auto. reflexivity. Qed.
Lemma succ_dbs l env : env_noexc env = false -> forall pos, succeeds (dbs l) env pos.
Proof. intros H. induction l as [|b l IH]; intros pos; cbn [dbs]; [now apply succ_ret|]. apply succ_bind; [now apply succ_db|auto]. Qed.
Lemma succ_dbn v n env pos : env_noexc env = false -> n <= 8 -> succeeds (dbn v n) env pos.
Proof.
  intros H N. unfold dbn. apply succ_fn. replace (8 <? n) with false by lia. apply succ_bind; [now apply succ_ret|]. intros. now apply succ_dbs.
Qed.
Ltac succ Hn := repeat first [apply (succ_ret _ _ _ Hn) | apply (succ_db _ _ _ Hn) | (apply succ_bind; [|intros]) | apply succ_fn |
   match goal with |- succeeds (if ?c then _ else _) _ _ => destruct c end].
Lemma succ_rex r env pos : env_noexc env = false -> NF_ r = false -> ZU_ r = false -> succeeds (rex (OReg r) noOp 0) env pos.
Proof.
  intros Hn N Z0. unfold rex. apply succ_fn. cbn [ob isMEM noOp]. rewrite N, Z0. cbn [orb NF_ ZU_ noReg]. cbv zeta. change (has 0 (T_0F38 ||| T_0F3A)) with false. unfold rex2. succ Hn.
Qed.
(* mov(reg, imm) is accepted for every general register and every value *)
Lemma mov_imm_accepts r imm env pos : env_noexc env = false -> gpr r -> NF_ r = false -> ZU_ r = false -> succeeds (mov_oi (OReg r) imm) env pos.
Proof.
  intros Hn G N Z0. unfold mov_oi. apply succ_fn. cbv zeta.
  assert (R : isREG r = true) by (destruct G as [K _]; unfold isREG, is_; rewrite K; reflexivity). rewrite R.
  assert (K : exists its n, emits (mov_imm r (w64 imm)) env pos its n /\ n <= 8).
  { unfold mov_imm. cbv zeta. change (getBit r) with (bit_ r).
    assert (B : bit_ r / 8 <= 8) by (destruct (gpr_std _ G) as [-> | [-> | [-> | ->]]]; vm_compute; discriminate).
    destruct (_ && _).
    - destruct (succ_rex (Reg32 (getIdx r)) env pos Hn eq_refl eq_refl) as (i1 & x & H1).
      eexists _, _. split; [eapply emits_bind_i; [eapply emits_bind_i; [exact H1|split; [exact Hn|reflexivity]]|]|].
      + eapply emits_bind_i; [split; [exact Hn|reflexivity]|]. split; [exact Hn|reflexivity].
      + vm_compute; discriminate.
    - destruct (succ_rex r env pos Hn N Z0) as (i1 & x & H1).
      destruct (_ && _).
      + eexists _, _. split; [eapply emits_bind_i; [eapply emits_bind_i; [exact H1|eapply emits_bind_i; [split; [exact Hn|reflexivity]|split; [exact Hn|reflexivity]]]|]|].
        * eapply emits_bind_i; [split; [exact Hn|reflexivity]|]. split; [exact Hn|reflexivity].
        * vm_compute; discriminate.
      + eexists _, _. split; [eapply emits_bind_i; [eapply emits_bind_i; [exact H1|split; [exact Hn|reflexivity]]|]|].
        * eapply emits_bind_i; [split; [exact Hn|reflexivity]|]. split; [exact Hn|reflexivity].
        * exact B. }
  destruct K as (i1 & n & H1 & L). destruct (succ_dbn (w64 imm) n env (pos + items_size i1) Hn L) as (i2 & a & H2).
  exists (i1 ++ i2), a. eapply emits_bind_i; eauto.
Qed.
