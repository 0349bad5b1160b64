(* mov, add .. cmp, push and pop: what the processor does with the bytes of the methods. *)
From Coq Require Import ZArith List Bool Lia String.
From Verif Require Import Base Types Emit EmitFacts LegacyFacts MemFacts Encode Mnemonic SpecX86 SpecAddr SpecLeg SpecExec LegFacts LegShapes LegGpr LegGpr2 LegGpr3 LegGpr4 ExecFacts Wf.
Import ListNotations.
Open Scope Z_scope.

Lemma one_high op : (match op with OReg r => bit_ r = 8 -> bit_ r <> 64 | OMem _ => True end) -> high_ok [op].
Proof.
  intros _ X. inversion X as [? ? Q|? ? Q]; subst; [|inversion Q]. destruct op; [|destruct Q].
  constructor; [|constructor]. destruct Q as [-> _]. discriminate.
Qed.
Definition imm_op (op : Operand) : Prop := larg_ok (tOp [0; 8; 16; 32; 64]) op /\ lbare op.
(* mov op, imm *)
Lemma mov_exec op imm env pos its u s rest rip m : imm_op op -> emits (mov_oi op imm) env pos its u ->
  exec rip (render s its ++ rest) m = Some (rest, e_mov (bit_ (ob op)) op (imm mod 2 ^ bit_ (ob op)) m).
Proof.
  intros [A B] H. apply exec_mov_imm.
  refine (mov_imm_entry "mov" mov_oi (fun _ _ => eq_refl) s [op] imm _ env pos its rest u eq_refl _ _ _ _ H).
  - constructor; [exact A|constructor].
  - constructor; [exact B|constructor].
  - apply one_high. destruct op; auto. intros ->. discriminate.
  - cbn [le_rows]. repeat constructor.
Qed.
Lemma mov_reg_value r imm env pos its u s rest rip m : gpr r -> bare r -> emits (mov_oi (OReg r) imm) env pos its u ->
  exists m', exec rip (render s its ++ rest) m = Some (rest, m') /\ mm m' = mm m /\ fl m' = fl m
   /\ read (bit_ r) (loc_of (OReg r) m') m' = imm mod 2 ^ bit_ r
   /\ (bit_ r = 64 \/ bit_ r = 32 -> rg m' (regno r) = imm mod 2 ^ bit_ r).
Proof.
  intros G B H. eexists. split; [eapply mov_exec; [|exact H]|].
  - split; [left; exact G|exact B].
  - cbn [ob]. unfold e_mov, loc_of. destruct (gpr_std _ G) as [W | [W | [W | W]]]; rewrite W; cbn [Z.eqb Pos.eqb].
    + split; [destruct (byte_meaning r); reflexivity|]. split; [destruct (byte_meaning r); reflexivity|]. split; [|intros [X|X]; discriminate X].
      change (2 ^ 8) with 256. pose proof (Z.mod_pos_bound imm 256 ltac:(lia)) as V.
      destruct (byte_meaning r) as [n|n]; cbn [write read set_reg rg]; unfold upd; rewrite Z.eqb_refl, (Z.mod_small (imm mod 256)) by exact V.
      * pose proof (Z.div_mod (rg m n) 256 ltac:(lia)). replace (rg m n - rg m n mod 256 + imm mod 256) with (imm mod 256 + rg m n / 256 * 256) by lia.
        rewrite Z_mod_plus_full. now apply Z.mod_small.
      * set (q := rg m n / 256). pose proof (Z.div_mod (rg m n) 256 ltac:(lia)) as D. fold q in D. pose proof (Z.div_mod q 256 ltac:(lia)) as D2.
        replace (rg m n - q mod 256 * 256 + imm mod 256 * 256) with (rg m n mod 256 + (imm mod 256 + q / 256 * 256) * 256) by lia.
        rewrite Z_div_plus_full by lia. rewrite Z.div_small by (apply Z.mod_pos_bound; lia). rewrite Z.add_0_l, Z_mod_plus_full. now apply Z.mod_small.
    + split; [reflexivity|]. split; [reflexivity|]. split; [|intros [X|X]; discriminate X].
      change (2 ^ 16) with 65536. cbn [write read set_reg rg Z.eqb Pos.eqb]. unfold upd. rewrite Z.eqb_refl. change (2 ^ 16) with 65536.
      pose proof (Z.mod_pos_bound imm 65536 ltac:(lia)) as V. rewrite (Z.mod_small (imm mod 65536)) by exact V.
      set (x := rg m (regno r)). pose proof (Z.div_mod x 65536 ltac:(lia)). replace (x - x mod 65536 + imm mod 65536) with (imm mod 65536 + x / 65536 * 65536) by lia.
      rewrite Z_mod_plus_full. now apply Z.mod_small.
    + split; [reflexivity|]. split; [reflexivity|]. cbn [write read set_reg rg Z.eqb Pos.eqb]. unfold upd. rewrite Z.eqb_refl, !Z.mod_mod by discriminate. auto.
    + split; [reflexivity|]. split; [reflexivity|]. cbn [write read set_reg rg Z.eqb Pos.eqb]. unfold upd. rewrite Z.eqb_refl, !Z.mod_mod by discriminate. auto.
Qed.

(* ---- add .. cmp ---- *)
Definition alu_methods : list (Z * (Operand -> Z -> E unit) * (Operand -> Operand -> E unit)) :=
  [(0, i_add_oi, i_add_oo); (1, i_or_oi, i_or_oo); (2, i_adc_oi, i_adc_oo); (3, i_sbb_oi, i_sbb_oo);
   (4, i_and_oi, i_and_oo); (5, i_sub_oi, i_sub_oo); (6, i_xor_oi, i_xor_oo); (7, i_cmp_oi, i_cmp_oo)].
Lemma w32_w32 x : w32 (w32 x) = w32 x.
Proof. unfold w32. now rewrite Z.mod_mod. Qed.
Lemma alu_methods_form d f g op imm env pos its u s rest : In (d, f, g) alu_methods -> imm_op op -> emits (f op imm) env pos its u ->
  0 <= d < 8 /\ Exists (fun row => lsays row [op] imm (render s its) rest) (alu_pick d (bit_ (ob op)) imm).
Proof.
  intros Hin [A _] H. unfold alu_methods in Hin. cbn [In] in Hin.
  destruct Hin as [Q|[Q|[Q|[Q|[Q|[Q|[Q|[Q|[]]]]]]]]]; injection Q as <- <- <-; split; try lia;
    [unfold i_add_oi in H|unfold i_or_oi, i_or__oi in H|unfold i_adc_oi in H|unfold i_sbb_oi in H|unfold i_and_oi, i_and__oi in H
    |unfold i_sub_oi in H|unfold i_xor_oi, i_xor__oi in H|unfold i_cmp_oi in H]; cbv zeta in H; rewrite ?w32_w32 in H;
    (eapply alu_form; [exact A|exact H|lia|reflexivity|chk|chk|chk]).
Qed.
Lemma alu_exec d f g op imm env pos its u s rest rip m : In (d, f, g) alu_methods -> imm_op op -> emits (f op imm) env pos its u ->
  exec rip (render s its ++ rest) m = Some (rest, e_alu d (bit_ (ob op)) op (arg32 imm mod 2 ^ bit_ (ob op)) m).
Proof.
  intros Hin A H. destruct (alu_methods_form d f g op imm env pos its u s rest Hin A H) as [Hd X].
  apply exec_alu_imm; auto. apply Exists_exists in X as (row & I & L). apply Exists_exists. exists row. split; [eapply alu_pick_rows; eauto|exact L].
Qed.
Definition two_ops (o1 o2 : Operand) : Prop := larg_ok tO o1 /\ larg_ok tE o2 /\ high_ok [o1; o2].
Lemma alu2_exec d f g o1 o2 env pos its u s rest rip m : In (d, f, g) alu_methods -> two_ops o1 o2 -> emits (g o1 o2) env pos its u ->
  exists r, (o1 = OReg r \/ o2 = OReg r) /\ exec rip (render s its ++ rest) m = Some (rest, e_alu2 d (bit_ r) o1 o2 m).
Proof.
  intros Hin (A1 & A2 & Hh) H. unfold alu_methods in Hin. cbn [In] in Hin.
  assert (X : 0 <= d < 8 /\ Exists (fun row => lsays row [o1; o2] 0 (render s its) rest) (mr_rows (8 * d))).
  { destruct Hin as [Q|[Q|[Q|[Q|[Q|[Q|[Q|[Q|[]]]]]]]]]; injection Q as <- <- <-; (split; [lia|]);
    (eapply romr_says; [chk|chk|exact A1|exact A2|exact Hh|exact H]). }
  destruct X as [Hd X]. destruct (exec_two rip _ _ _ _ _ _ m X) as (w & r & Hr & -> & K & _). exists r. split; auto.
Qed.
Lemma mov2_exec o1 o2 env pos its u s rest rip m : two_ops o1 o2 -> lbare o1 -> lbare o2 -> emits (mov_oo o1 o2) env pos its u ->
  exists r, (o1 = OReg r \/ o2 = OReg r) /\ exec rip (render s its ++ rest) m = Some (rest, e_mov2 (bit_ r) o1 o2 m).
Proof.
  intros (A1 & A2 & Hh) B1 B2 H.
  assert (X : Exists (fun row => lsays row [o1; o2] 0 (render s its) rest) (mr_rows 0x88)).
  { refine (mov_entry "mov" mov_oo (fun _ _ => eq_refl) s [o1; o2] 0 _ env pos its rest u eq_refl _ _ Hh _ H); repeat constructor; auto. }
  destruct (exec_two rip _ _ _ _ _ _ m X) as (w & r & Hr & -> & _ & K). exists r. split; auto.
Qed.

(* ---- push, pop ---- *)
Lemma push_exec op env pos its u s rest rip m : stack_op op -> emits (push_op op) env pos its u ->
  exec rip (render s its ++ rest) m = Some (rest, e_push (bit_ (ob op)) op m).
Proof.
  intros A H. apply (exec_stack rip op 0 _ _ m 0xFF 6 0x50 false eq_refl). eapply stack_says; eauto.
Qed.
Lemma pop_exec op env pos its u s rest rip m : stack_op op -> emits (pop_op op) env pos its u ->
  exec rip (render s its ++ rest) m = Some (rest, e_pop (bit_ (ob op)) op m).
Proof.
  intros A H. apply (exec_stack rip op 0 _ _ m 0x8F 0 0x58 true eq_refl). eapply stack_says; eauto.
Qed.

(* push with an explicit size: byte, word or another one *)
Lemma push_af_exec a imm env pos its u s rest rip m : emits (push_af a (w32 imm)) env pos its u ->
  exec rip (render s its ++ rest) m =
  Some (rest, if a =? 8 then do_push 64 (signed 8 (imm mod 256)) m else if a =? 16 then do_push 16 (signed 16 (imm mod 2 ^ 16)) m
              else do_push 64 (arg32 imm) m).
Proof.
  intros H. unfold push_af in H. assert (V : 0 <= w32 imm < 2 ^ 32) by (unfold w32; apply Z.mod_pos_bound; lia).
  destruct (a =? 8); [|destruct (a =? 16)]; ebind H i1 i2 x H1 H2; apply emits_db in H1 as ->.
  - apply emits_db in H2 as ->. cbn [render render1 app].
    change (exec rip (w8 106 :: w8 (w32 imm) :: rest) m) with
      (match take 1 ([w8 (w32 imm)] ++ rest) with Some (v, c) => Some (c, do_push 64 (signed 8 v) m) | None => None end).
    rewrite (take_app 1) by reflexivity. cbn [le_val]. rewrite Z.add_0_r. unfold w8, w32. do 4 f_equal.
    change 4294967296 with (16777216 * 256). rewrite Z.mul_comm, Z.rem_mul_r by lia. rewrite Z.mul_comm, Z_mod_plus_full. apply Z.mod_mod. lia.
  - ebind H2 j1 j2 y H3 H4. apply emits_db in H3 as ->. unfold dw in H4. apply (dbn_render s) in H4 as [_ H4]; [|lia]. rewrite w32_w32 in H4.
    rewrite !render_app, H4. cbn [render render1 app].
    change (exec rip (w8 102 :: w8 104 :: le_bytes (w32 imm) (Z.to_nat 2) ++ rest) m) with
      (match take 2 (le_bytes (w32 imm) (Z.to_nat 2) ++ rest) with Some (v, c) => Some (c, do_push 16 (signed 16 v) m) | None => None end).
    rewrite (take_app 2) by reflexivity. rewrite le_val_bytes. change (256 ^ Z.of_nat (Z.to_nat 2)) with 65536. change (2 ^ 16) with 65536. do 4 f_equal.
    unfold w32. change 4294967296 with (65536 * 65536). rewrite Z.rem_mul_r by lia. rewrite Z.mul_comm, Z_mod_plus_full. apply Z.mod_mod. lia.
  - unfold dd in H2. apply (dbn_render s) in H2 as [_ H2]; [|lia]. rewrite w32_w32 in H2. rewrite render_app, H2. cbn [render render1 app].
    change (exec rip (w8 104 :: le_bytes (w32 imm) (Z.to_nat 4) ++ rest) m) with
      (match take 4 (le_bytes (w32 imm) (Z.to_nat 4) ++ rest) with Some (v, c) => Some (c, do_push 64 (signed 32 v) m) | None => None end).
    rewrite (take_app 4) by reflexivity. rewrite le_val_bytes. change (256 ^ Z.of_nat (Z.to_nat 4)) with 4294967296. unfold arg32. change (2 ^ 32) with 4294967296. do 4 f_equal.
    unfold w32. apply Z.mod_mod. lia.
Qed.

(* push of 16-bit registers 16 .. 31 *)
Definition env_p := mkEnv false 0x400000 false false VexEncoding PreAVX10v2Encoding.
Lemma push_small_extended : let bytes m := render (fun _ _ _ => 0) (fst (m env_p 0)) in
  bytes (push_op (OReg (Reg16 20))) = bytes (push_op (OReg (Reg64 20)))
  /\ bytes (push_op (OReg (Reg32 20))) = bytes (push_op (OReg (Reg64 20)))
  /\ bytes (push_op (OReg (Reg8 20))) = bytes (push_op (OReg (Reg64 20)))
  /\ snd (push_op (OReg (Reg16 20)) env_p 0) = Ok tt
  /\ (forall rip m, exec rip (bytes (push_op (OReg (Reg16 20)))) m <> Some ([], e_push 16 (OReg (Reg16 20)) m))
  /\ snd (push_op (OReg (Reg32 4)) env_p 0) = Err ERR_BAD_COMBINATION.
Proof.
  cbv zeta. do 4 (split; [reflexivity|]). split; [|reflexivity]. intros rip m H.
  change (exec rip (render (fun _ _ _ => 0) (fst (push_op (OReg (Reg16 20)) env_p 0))) m) with
    (Some (@nil Z, do_push 64 (read 64 (LReg 20) m) m)) in H.
  injection H as H _. apply (f_equal (fun f => f RSP)) in H. unfold upd in H. rewrite !Z.eqb_refl in H.
  unfold addr64 in H. change (64 / 8) with 8 in H. change (16 / 8) with 2 in H. set (x := rg m RSP) in *. clearbody x.
  pose proof (Z.div_mod (x - 8) (2 ^ 64) ltac:(lia)). pose proof (Z.div_mod (x - 2) (2 ^ 64) ltac:(lia)).
  change (2 ^ 64) with 18446744073709551616 in *. lia.
Qed.
