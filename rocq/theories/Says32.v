(* The 32-bit build: instruction rows carry over from the 64-bit build. *)
From Coq Require Import ZArith List Bool String Lia.
From Verif Require Import Base Types Emit EmitFacts Encode SpecX86 SpecAddr SpecIsa SpecInsn SpecLeg SpecMix Wf Spec32 SpecB32 SpecStart32 SpecSays32 Start32.
Import ListNotations.
Open Scope Z_scope.

(* ---- headers ---- *)
Lemma h32_facts bs h t : dec_header32 bs = Some (h, t) -> h_67 h = false /\ (h_space h = Legacy -> h_B h = 0 /\ h_W h = false).
Proof.
  unfold dec_header32. destruct (scan_prefixes pfx0 bs) as [p r]. destruct (p_67 p) eqn:P; [discriminate|]. destruct r as [|b r]; [discriminate|].
  destruct (_ && _).
  - destruct (negb _); [discriminate|]. destruct (b =? 197).
    { destruct r as [|q [|o r]]; try discriminate. intros H. apply some_pair in H as [<- <-]. split; [reflexivity|discriminate]. }
    destruct (b =? 196).
    { destruct r as [|q1 [|q2 [|o r]]]; try discriminate. destruct (_ && _); [|discriminate]. intros H. apply some_pair in H as [<- <-]. split; [reflexivity|discriminate]. }
    destruct r as [|q1 [|q2 [|q3 [|o r]]]]; try discriminate. destruct (_ && _); [|discriminate]. intros H. apply some_pair in H as [<- <-]. split; [reflexivity|discriminate].
  - unfold dec_legacy. destruct (dec_opcode (b :: r)) as [[[m o] t']|]; [|discriminate]. intros H. apply some_pair in H as [<- <-]. split; [exact P|]. intros _. split; reflexivity.
Qed.
Lemma decode_header vsib n8 bs h reg rm tl : decode vsib n8 bs = Some (h, reg, rm, tl) -> exists t, dec_header bs = Some (h, t).
Proof.
  unfold decode. destruct (dec_header bs) as [[h0 t]|]; [|discriminate]. destruct (dec_rm _ _ _ _) as [[[a b] c]|]; [|discriminate].
  intros H. injection H as -> _ _ _. eauto.
Qed.

(* ---- operands ---- *)
Lemma bit_widen r : bit_ (widen r) = if isREG r then 64 else bit_ r. Proof. unfold widen. destruct (isREG r); reflexivity. Qed.
Lemma base32_bit r : base32 r -> bit_ (widen r) <> 32 /\ present (widen r) = present r.
Proof.
  unfold present. rewrite bit_widen. intros [->|(K & B & _)]; [split; [discriminate|reflexivity]|].
  assert (isREG r = true) as -> by (unfold isREG, is_; rewrite K; reflexivity). rewrite B. split; [discriminate|reflexivity].
Qed.
Lemma index32_bit r : index32 r -> bit_ (widen r) <> 32 /\ present (widen r) = present r.
Proof.
  intros [H|(_ & [(K & B)|[(K & B)|(K & B)]])]; [now apply base32_bit| | |]; unfold present; rewrite bit_widen;
    (assert (isREG r = false) as -> by (unfold isREG, is_; rewrite K; reflexivity)); rewrite B; (split; [discriminate|reflexivity]).
Qed.
Lemma regno_widen r : regno (widen r) = regno r. Proof. unfold widen. destruct (isREG r); reflexivity. Qed.
Lemma s64_s32 d : 0 <= d < 2 ^ 32 -> s64 (w64 (s32 d)) mod 2 ^ 32 = d mod 2 ^ 32.
Proof.
  intros H. assert (K : s64 (w64 (s32 d)) = s32 d).
  { unfold s64, w64, s32, w32. change (2 ^ 32) with 4294967296 in *. change (2 ^ 64) with 18446744073709551616. change (2 ^ 31) with 2147483648. change (2 ^ 63) with 9223372036854775808.
    rewrite (Z.mod_small d) by lia. destruct (d <? 2147483648) eqn:Q.
    - rewrite !(Z.mod_small d) by lia. apply Z.ltb_lt in Q. destruct (Z.ltb_spec d 9223372036854775808); lia.
    - apply Z.ltb_ge in Q. rewrite Z.mod_mod by lia. replace ((d - 4294967296) mod 18446744073709551616) with (d - 4294967296 + 18446744073709551616).
      + destruct (Z.ltb_spec (d - 4294967296 + 18446744073709551616) 9223372036854775808); lia.
      + symmetry. rewrite <- (Z.mod_small (d - 4294967296 + 18446744073709551616) 18446744073709551616) at 1 by lia.
        replace (d - 4294967296 + 18446744073709551616) with (d - 4294967296 + 1 * 18446744073709551616) by lia. now rewrite Z.mod_add by lia. }
  rewrite K. unfold s32, w32. change (2 ^ 32) with 4294967296 in *. rewrite (Z.mod_small d) by lia. destruct (d <? _); [now apply Z.mod_small|].
  replace (d - 4294967296) with (d + -1 * 4294967296) by lia. rewrite Z.mod_add by lia. now apply Z.mod_small.
Qed.
Lemma mod_64_32 x y : x mod 2 ^ 64 = y mod 2 ^ 64 -> x mod 2 ^ 32 = y mod 2 ^ 32.
Proof.
  assert (D : forall z, z mod 2 ^ 32 = (z mod 2 ^ 64) mod 2 ^ 32) by (intros z; apply Znumtheory.Zmod_div_mod; [lia|lia|exists (2 ^ 32); reflexivity]).
  intros H. now rewrite D, H, <- D.
Qed.
Lemma denotes_32 e h m : exp32 e -> h_67 h = false -> denotes (widen_exp e) h m -> forall m', RMem m' = absolute (RMem m) -> denotes32 e m'.
Proof.
  intros (XB & XI & XD) H6 D m' A regs. specialize (D regs 0). rewrite H6 in D.
  destruct (base32_bit _ XB) as [NB PB], (index32_bit _ XI) as [NI PI].
  assert (uses32 (widen_exp e) = false) as U.
  { unfold uses32, widen_exp. cbn [e_base e_index]. destruct (Z.eqb_spec (bit_ (widen (e_base e))) 32); [contradiction|]. destruct (Z.eqb_spec (bit_ (widen (e_index e))) 32); [contradiction|reflexivity]. }
  rewrite U in D. unfold addr_size in D.
  assert (AB : eff_addr32 regs m' = eff_addr regs 0 true m).
  { destruct m as [b i s d]. destruct b; cbn in A; injection A as ->; reflexivity. }
  rewrite AB. unfold eff_addr in D |- *. apply mod_64_32 in D. rewrite D. unfold written, written32, widen_exp. cbn [e_base e_index e_scale e_disp].
  rewrite PB, PI, !regno_widen. rewrite Z.add_mod, (s64_s32 _ XD), <- Z.add_mod by lia. reflexivity.
Qed.
Lemma op32_mem a : op32 (OMem a) -> exp32 (a_e a). Proof. intros (_ & _ & _ & _ & H). exact H. Qed.

(* ---- legacy rows ---- *)
Lemma oper_32 w h reg rm o op : op32 op -> h_67 h = false -> h_rex h = false -> h_B h = 0 ->
  oper_ok w h reg rm o (widen_op op) -> oper_ok32 w (no_rex h) reg (option_map absolute rm) o op.
Proof.
  intros H H6 HR HB. destruct op as [r|a]; cbn [widen_op].
  - intros ((k & K1 & K2) & S & P & B). destruct H as (I0 & _ & RG & _).
    assert (N : 0 <= regno r < 8) by (unfold regno; rewrite Z.mod_small; lia).
    split; [eauto|]. split; [lia|]. split.
    { intros KG0. rewrite K1 in KG0. injection KG0 as ->. destruct K2 as (KK & _). intros B64.
      assert (isREG r = true) as R by (unfold isREG, is_; rewrite KK; reflexivity). specialize (RG R). unfold isBit, getBit in RG. rewrite B64 in RG. discriminate RG. }
    split; [exact S|]. split.
    + destruct (o_at o); [exact P|rewrite P; reflexivity| |exact P]. change (h_opc (no_rex h)) with (h_opc h). lia.
    + intros B8. specialize (B B8). rewrite HR in B. exact B.
  - intros (M1 & M2 & M3 & m & -> & D). split; [exact M1|]. split; [exact M2|]. split; [exact M3|].
    destruct (absolute (RMem m)) as [g v|m'] eqn:A; [destruct m as [[] ? ? ?]; discriminate A|].
    exists m'. split; [cbn [option_map]; now rewrite A|]. eapply denotes_32; [now apply op32_mem|exact H6|exact D|now symmetry].
Qed.
Lemma sized_w row w ops : sized row w (map widen_op ops) -> sized row w ops.
Proof.
  intros [H|H]; [now left|right]. revert H. generalize (l_ops row). induction ops as [|o ops IH]; intros l H; destruct l as [|p l]; cbn in H |- *; try (inversion H; fail).
  inversion H as [x l0 K|x l0 K]; subst; [left|right; now apply IH]. cbn in *. destruct o; exact K.
Qed.
Definition row32 (row : lrow) : bool := match l_osz row with Os64 => false | _ => true end.
Lemma no64 row w h opc : row32 row = true -> h_W h = false -> lhead row w h opc -> w <> 64.
Proof.
  intros R HW (_ & A & _ & _ & _ & _ & _ & _ & B & _) ->. rewrite HW in B. unfold row32 in R. destruct (l_osz row); try discriminate.
Qed.
Lemma lsays_32 row ops imm act s env pos its rest : row32 row = true -> Forall op32 ops -> alike act -> alike_operands act -> emits act env pos its tt ->
  lsays row (map widen_op ops) imm (render s its) rest -> lsays32 row ops imm (render s its) rest.
Proof.
  intros R O A1 A2 J (w & h & reg & rm & opc & tail & D & LH & LD & LO & LS & LI).
  assert (Hd : exists t, dec_header (render s its ++ rest) = Some (h, t)).
  { destruct (l_modrm row); [|destruct D as (D & _); eauto]. destruct D as ((r & _ & D) & _). now apply decode_header in D. }
  destruct Hd as (t & Hd). destruct (A1 _ _ _ _ J _ _ _ Hd) as [Hd32 Hrex]. specialize (Hrex (proj1 LH)). pose proof (h32_facts _ _ _ Hd32) as [H6 HBW].
  destruct (HBW (proj1 LH)) as [HB HW]. cbn [no_rex h_67 h_B h_W] in H6, HB, HW.
  exists w, (no_rex h), reg, (option_map absolute rm), opc, tail.
  split.
  { destruct (l_modrm row).
    - destruct D as ((r & -> & D) & E0). split; [|exact E0]. exists (absolute r). split; [reflexivity|]. exact (A2 _ _ _ _ J _ _ _ _ _ _ _ D).
    - destruct D as (D & -> & E0). split; [|split; [reflexivity|exact E0]]. rewrite Hd in D. apply some_pair in D as [_ <-]. exact Hd32. }
  split; [exact LH|]. split; [exact (no64 _ _ _ _ R HW LH)|]. split; [exact LD|]. split; [|split; [now apply sized_w|exact LI]].
  clear - O LO H6 Hrex HB. revert ops O LO. generalize (l_ops row). intros l. induction l as [|p l IH]; intros [|o ops] O LO; cbn in LO; inversion LO; subst; constructor.
  - inversion O; subst. now apply oper_32.
  - inversion O; subst. now apply IH.
Qed.

(* ---- VEX and EVEX rows ---- *)
Lemma at_slot_w s enc ops : at_slot s enc (map widen_op ops) = option_map widen_op (at_slot s enc ops).
Proof. revert ops. induction enc as [|e enc IH]; intros [|o ops]; cbn; try reflexivity. destruct (slot_eqb s e); [reflexivity|apply IH]. Qed.
Lemma slot_reg_w o : slot_reg (option_map widen_op o) = slot_reg o. Proof. destruct o as [[]|]; reflexivity. Qed.
Lemma rm_32 op h rm : op32 op -> h_67 h = false -> rm_is (widen_op op) h rm -> rm_is32 op (absolute rm).
Proof.
  intros O H6 H. destruct op as [b|a], rm as [g v|m]; cbn [widen_op rm_is] in H; try contradiction; [exact H|].
  destruct (absolute (RMem m)) as [g v|m'] eqn:A; [destruct m as [[] ? ? ?]; discriminate A|]. eapply denotes_32; [now apply op32_mem|exact H6|exact H|now symmetry].
Qed.
Lemma omask_w ops : map omask (map widen_op ops) = map omask ops. Proof. rewrite map_map. apply map_ext. intros []; reflexivity. Qed.
Lemma ozero_w ops : existsb ozero (map widen_op ops) = existsb ozero ops. Proof. induction ops as [|[] l IH]; cbn; [reflexivity| |]; now rewrite IH. Qed.
Lemma nornd o : nomods_op o -> ornd o = 0. Proof. destruct o; [intros H; apply H|reflexivity]. Qed.
Lemma common_0 ops v : Forall nomods_op ops -> common (map ornd (map widen_op ops)) v -> v = 0.
Proof.
  intros N [_ [H|H]]; [exact H|]. rewrite map_map in H. apply in_map_iff in H as (o & <- & I0). rewrite Forall_forall in N.
  specialize (N o I0). apply nornd in N. destruct o; exact N.
Qed.
Lemma bcast_w op : bcast (widen_op op) = bcast op. Proof. destruct op; reflexivity. Qed.
Lemma core_32 row vl reg v op ops tail act s env pos its rest : op32 op -> Forall op32 ops -> Forall nomods_op ops -> alike act -> alike_operands act -> emits act env pos its tt ->
  says_core row vl reg v (widen_op op) (map widen_op ops) tail (render s its) rest -> says_core32 row vl reg v op ops tail (render s its) rest.
Proof.
  intros OP O N A1 A2 J [(f & h & rm & R & D & S & F & L & V & M & B & Z0)|(f & h & rm & rnd & R & D & S & F & V & M & VI & BC & C & Z0 & RN & _ & R0 & _)].
  - left. destruct (decode_header _ _ _ _ _ _ _ D) as (t & Hd). destruct (A1 _ _ _ _ J _ _ _ Hd) as [Hd32 _]. pose proof (h32_facts _ _ _ Hd32) as [H6 _].
    rewrite bcast_w in B. exists f, (no_rex h), (absolute rm). split; [exact R|]. split; [exact (A2 _ _ _ _ J _ _ _ _ _ _ _ D)|]. split; [exact S|]. split; [exact F|]. split; [exact L|]. split; [exact V|].
    split; [now apply (rm_32 _ h)|]. split; [exact B|]. clear - Z0. induction ops as [|o l IH]; constructor; inversion Z0; subst; [destruct o; apply H1|now apply IH].
  - right. destruct (decode_header _ _ _ _ _ _ _ D) as (t & Hd). destruct (A1 _ _ _ _ J _ _ _ Hd) as [Hd32 _]. pose proof (h32_facts _ _ _ Hd32) as [H6 _].
    apply (common_0 ops) in RN; [|exact N]. destruct (R0 RN) as [HB HL]. rewrite bcast_w in *. rewrite omask_w in C. rewrite ozero_w in Z0.
    exists f, (no_rex h), (absolute rm). split; [exact R|]. split; [exact (A2 _ _ _ _ J _ _ _ _ _ _ _ D)|]. split; [exact S|]. split; [exact F|]. split; [exact V|].
    split; [now apply (rm_32 _ h)|]. split; [exact VI|]. split; [exact BC|]. split; [exact C|]. split; [exact Z0|]. split; [exact HB|exact HL].
Qed.
Lemma at_slot_In s enc ops o : at_slot s enc ops = Some o -> In o ops.
Proof. revert ops. induction enc as [|e enc IH]; intros [|p ops]; cbn; try discriminate. destruct (slot_eqb s e); [intros H; injection H as ->; now left|right; now apply IH]. Qed.
Lemma says_32 row vl ops imm act s env pos its rest : Forall op32 ops -> Forall nomods_op ops -> alike act -> alike_operands act -> emits act env pos its tt ->
  says row vl (map widen_op ops) imm (render s its) rest -> says32 row vl ops imm (render s its) rest.
Proof.
  intros O N A1 A2 J H. unfold says in H. unfold says32. cbv zeta in *. rewrite !at_slot_w, !slot_reg_w in H.
  assert (E4 : forall x y : list Z, (match option_map widen_op (at_slot S4 (r_enc row) ops) with Some (OReg r) => [16 * regno r] | _ => y end) = (match at_slot S4 (r_enc row) ops with Some (OReg r) => [16 * regno r] | _ => y end)).
  { intros _ y. destruct (at_slot S4 (r_enc row) ops) as [[]|]; reflexivity. }
  rewrite (E4 []) in H. clear E4. eapply core_32; eauto.
  - destruct (at_slot SM (r_enc row) ops) as [o|] eqn:Q; [|repeat split; cbn; try lia; discriminate]. apply at_slot_In in Q. rewrite Forall_forall in O. now apply O.
  - destruct (at_slot SM (r_enc row) ops); exact H.
Qed.
Lemma width_w o : width (widen_op o) = width o. Proof. destruct o; reflexivity. Qed.
Lemma size_of_w o : size_of (widen_op o) = size_of o. Proof. destruct o; reflexivity. Qed.
Lemma owid_w o : owid (option_map widen_op o) = owid o. Proof. destruct o as [[]|]; reflexivity. Qed.
Lemma vl_of_w rule row ops : vl_of rule row (map widen_op ops) = vl_of rule row ops.
Proof.
  destruct rule; cbn [vl_of].
  - now rewrite !at_slot_w, !owid_w.
  - rewrite map_map. f_equal. apply map_ext, width_w.
  - rewrite map_map. f_equal. apply map_ext, size_of_w.
  - destruct ops as [|a [|b [|c l]]]; cbn [map]; try reflexivity. now rewrite width_w, size_of_w.
Qed.
Lemma one_mask_w ops : one_mask ops -> one_mask (map widen_op ops).
Proof.
  intros H a o I0 K I1. apply in_map_iff in I0 as (x & X & I0). apply in_map_iff in I1 as (y & <- & I1). destruct x as [r|b]; [discriminate X|]. injection X as <-.
  destruct (H b y I0 K I1) as [->|E0]; [now left|]. right. destruct y; exact E0.
Qed.
Lemma lbare_w ops : Forall lbare ops -> Forall lbare (map widen_op ops).
Proof. intros H. apply Forall_forall. intros x I0. apply in_map_iff in I0 as (y & <- & I0). rewrite Forall_forall in H. specialize (H y I0). destruct y; exact H. Qed.
Lemma high_w ops : high_ok ops -> high_ok (map widen_op ops).
Proof.
  intros H E0. assert (Q : Exists is_high ops).
  { apply Exists_exists in E0 as (x & I0 & K). apply in_map_iff in I0 as (y & <- & I0). apply Exists_exists. exists y. split; [exact I0|]. destruct y; exact K. }
  specialize (H Q). apply Forall_forall. intros x I0. apply in_map_iff in I0 as (y & <- & I0). rewrite Forall_forall in H. specialize (H y I0). destruct y as [r|a]; [exact H|].
  cbn [widen_op widen_addr a_e widen_exp e_base e_index] in *. rewrite !regno_widen. exact H.
Qed.

(* ---- methods ---- *)
(* whatever g emits in the 32-bit build f emits in the 64-bit build for the corresponding operands, and it begins alike *)
Definition covers (q : bool) (f g : insn) : Prop :=
  forall ops imm act, g ops imm = Some act -> ops32 q ops ->
  exists act', f (map widen_op ops) imm = Some act' /\ (forall env pos its u, emits act env pos its u -> emits act' env pos its u) /\ alike act /\ alike_operands act.
Definition le32 (e : lentry) (g : insn) : lentry := mkLE (le_name e) (le_sig e) g (le_rows e).
Definition me32 (e : mentry) (g : insn) : mentry := mkME (me_name e) (me_sig e) g (me_rows e).
Definition en32 (e : entry) (g : insn) : entry := mkEntry (en_name e) (en_sig e) g (en_row e) (en_vl e).
Lemma lift_rows rows ops imm act s env pos its rest : forallb row32 rows = true -> Forall op32 ops -> alike act -> alike_operands act -> emits act env pos its tt ->
  Exists (fun row => lsays row (map widen_op ops) imm (render s its) rest) rows -> Exists (fun row => lsays32 row ops imm (render s its) rest) rows.
Proof.
  intros R O A1 A2 J H. apply Exists_exists in H as (row & I0 & H). apply Exists_exists. exists row. split; [exact I0|]. rewrite forallb_forall in R.
  eapply lsays_32; eauto.
Qed.
Lemma lift_leg q e g : forallb row32 (le_rows e) = true -> limplements e -> covers q (le_fun e) g -> limplements32 q (le32 e g).
Proof.
  intros R L C s ops imm act env pos its rest [] F O S B H I0 J. cbn [le_fun le32 le_sig le_rows] in *. destruct (C _ _ _ F O) as (act' & F' & T & A1 & A2).
  eapply lift_rows; eauto; [apply O|]. eapply L; eauto using lbare_w, high_w.
Qed.
Lemma lift_mix q e g : forallb row32 (me_rows e) = true -> mimplements e -> covers q (me_fun e) g -> mimplements32 q (me32 e g).
Proof.
  intros R L C s ops imm act env pos its rest [] F O S B I0 J. cbn [me_fun me32 me_sig me_rows] in *. destruct (C _ _ _ F O) as (act' & F' & T & A1 & A2).
  eapply lift_rows; eauto; [apply O|]. eapply L; eauto using lbare_w.
Qed.
Lemma lift_vex q rc e g : implements rc e -> covers q (en_fun e) g -> implements32 q (en32 e g).
Proof.
  intros L C s ops imm act env pos its rest [] F O S B W I0 J. cbn [en_fun en32 en_sig en_row en_vl] in *. destruct (C _ _ _ F O) as (act' & F' & T & A1 & A2).
  destruct O as (O & N & _). eapply says_32; eauto. rewrite <- vl_of_w. eapply L; eauto using one_mask_w.
  - rewrite vl_of_w. clear - W. revert W. generalize (vl_of (en_vl e) (en_row e) ops). intros z W. apply Forall_forall. intros x I0. apply in_map_iff in I0 as (y & <- & I0).
    rewrite Forall_forall in W. rewrite width_w. now apply W.
  - intros _. apply Forall_forall. intros x I0'. apply in_map_iff in I0' as (y & <- & I0'). rewrite Forall_forall in N. specialize (N y I0'). apply nornd in N. destruct y; exact N.
Qed.

(* ---- arguments of the method tables ---- *)
Definition oth (ops : list Operand) (i : Z) : Operand := nth (Z.to_nat i) ops (OReg (Reg8 0)).
Definition noAddr : Address := mkAddr (mkReg 0 MEM 0 false 0 0 false false) (mkRegExp noReg noReg 0 0) None M_ModRM 0 0 false false false.
Definition vec (e : PreferredEncoding) (ops : list Operand) (imm : Z) : b_args :=
  mkArgs (oth ops) (fun i => match oth ops i with OMem a => a | OReg _ => noAddr end) (fun i => match oth ops i with OReg r => r | OMem _ => Reg8 0 end) (fun _ => imm) e ES.
Lemma oth_cases ops i (P : Operand -> Prop) : P (OReg (Reg8 0)) -> Forall P ops -> P (oth ops i).
Proof. intros H F. unfold oth. destruct (nth_in_or_default (Z.to_nat i) ops (OReg (Reg8 0))) as [K| ->]; [|exact H]. rewrite Forall_forall in F. now apply F. Qed.
Lemma vec_args32 e q ops imm : ops32 q ops -> args32 (vec e ops imm).
Proof.
  intros (O & _ & X & _). assert (D : op32 (OReg (Reg8 0))) by (repeat split; cbn; try lia; discriminate).
  split; [|split; [|split]]; cbn [vec ar_o ar_a ar_r].
  - intros i. now apply oth_cases.
  - intros i. pose proof (oth_cases ops i op32 D O) as K. destruct (oth ops i); [|exact K]. split; [reflexivity|]. split; [repeat split; cbn; try lia; discriminate|].
    split; [reflexivity|]. split; [reflexivity|]. split; [now left|]. split; [left; now left|cbn; lia].
  - intros i. pose proof (oth_cases ops i op32 D O) as K. destruct (oth ops i); [exact K|]. exact D.
  - destruct X as [X|X]; [left|right]; intros r (i & H); cbn [vec ar_o ar_a ar_r] in H;
      [pose proof (oth_cases ops i (fun o => isBit (ob o) 16 = false) eq_refl X) as K|pose proof (oth_cases ops i (fun o => isBit (ob o) 64 = false) eq_refl X) as K]; cbv beta in K; destruct (oth ops i); destruct H as [->|[->| ->]]; try exact K; reflexivity.
Qed.
Lemma vec_nomods e q ops imm : ops32 q ops -> args_nomods (vec e ops imm).
Proof.
  intros (_ & N & _). assert (D : nomods_op (OReg (Reg8 0))) by (repeat split).
  split; [|split]; cbn [vec ar_o ar_a ar_r]; intros i; pose proof (oth_cases ops i nomods_op D N) as K; [exact K| |]; destruct (oth ops i); try exact K; repeat split.
Qed.
Lemma vec_fit e q ops imm : ops32 q ops -> args_fit (vec e ops imm).
Proof.
  intros (_ & _ & _ & F & _) r (i & H).
  assert (K : bit_ r = 8 \/ In (OReg r) ops).
  { cbn [vec ar_o ar_r] in H. unfold oth in H. destruct (nth_in_or_default (Z.to_nat i) ops (OReg (Reg8 0))) as [K|K].
    - destruct (nth (Z.to_nat i) ops (OReg (Reg8 0))) as [x|a]; destruct H as [->|H]; auto; try discriminate H. injection H as ->. auto.
    - rewrite K in H. destruct H as [->|H]; [left; reflexivity|injection H as <-; left; reflexivity]. }
  assert (G : forall j, fits_op r (oth ops j)).
  { intros j. unfold oth. destruct (nth_in_or_default (Z.to_nat j) ops (OReg (Reg8 0))) as [Q| ->]; [|exact Logic.I]. destruct K as [K|K].
    - destruct (nth (Z.to_nat j) ops (OReg (Reg8 0))); [exact Logic.I|left; rewrite K; lia].
    - specialize (F _ _ K Q). destruct (nth (Z.to_nat j) ops (OReg (Reg8 0))); [exact Logic.I|exact F]. }
  split; [exact G|]. intros j. cbn [vec ar_a]. specialize (G j). destruct (oth ops j); [|exact G]. right; left; reflexivity.
Qed.
Lemma vec_small e ops imm : ops32 true ops -> no_qword (vec e ops imm).
Proof.
  intros (_ & _ & _ & _ & Q). specialize (Q eq_refl). split; cbn [vec ar_o ar_r]; intros i; pose proof (oth_cases ops i (fun o => isBit (ob o) 64 = false) eq_refl Q) as K; cbv beta in K; destruct (oth ops i); try exact K; try exact Logic.I; reflexivity.
Qed.
Lemma covers_of (apx small sized : list string) x e f g q : entry_same sized x -> entry_alike apx small x -> existsb (String.eqb (b_name x)) apx = false -> existsb (String.eqb (b_name x)) small = q ->
  (forall ops imm act, g ops imm = Some act -> act = b_call32 x (vec e ops imm) /\ f (map widen_op ops) imm = Some (b_call64 x (vec e ops imm))) ->
  covers q f g.
Proof.
  intros S A NA Q H ops imm act G O. destruct (H _ _ _ G) as [-> F]. exists (b_call64 x (vec e ops imm)). split; [exact F|].
  destruct (S (vec e ops imm) (vec_args32 e q ops imm O)) as [_ S2]. split; [|apply A; [exact NA|eapply vec_args32; eauto|eapply vec_nomods; eauto|]].
  - apply S2. intros _. eapply vec_fit; eauto.
  - intros K. rewrite K in Q. subst q. now apply vec_small.
Qed.
Lemma nth_Forall {A} (P : A -> Prop) l n x : Forall P l -> nth_error l n = Some x -> P x.
Proof. intros F H. apply nth_error_In in H. rewrite Forall_forall in F. now apply F. Qed.
