(* Execution of test, inc, dec, neg, not, the shifts, lea, movzx, movsx, movsxd, setcc, cmovcc, imul, xchg and bswap. *)
From Coq Require Import ZArith List Bool String Lia.
From Verif Require Import Base Types Emit Encode Mnemonic SpecX86 SpecAddr SpecIsa SpecInsn SpecLeg SpecCond SpecExec Wf EmitFacts BitFacts MemFacts LegacyFacts VexFacts EncThms LegFacts LegShapes LegGpr LegGpr2 LegGpr3 LegGpr4 LegGpr5 LegTables2 ExecFacts CondFacts CondTables.
Import ListNotations.
Open Scope list_scope.
Open Scope Z_scope.

(* ---- what a ModRM row gives ---- *)
Lemma exec_map_row rip row bs rest w h reg r tail s :
  decode false 1 (bs ++ rest) = Some (h, reg, r, tail ++ rest) -> lhead row w h (h_opc h) -> l_pp row = NP ->
  (l_map row = 0 /\ no_modrm (h_opc h) = false \/ l_map row = 1 /\ (0xC8 <=? h_opc h) && (h_opc h <=? 0xCF) = false) ->
  exec rip (bs ++ rest) s = if l_map row =? 0 then exec_modrm rip h reg r (tail ++ rest) s else exec_0f rip h reg r (tail ++ rest) s.
Proof.
  intros D L P M. unfold exec. destruct (decode_header _ _ _ _ _ _ _ D) as [c ->].
  assert (Pl : plain h = true).
  { destruct L as (E1 & Hw & H66 & H2 & H3 & Hl & Hs & Hm & HW & Ho). rewrite P in *. unfold plain. rewrite E1, Hs, H2, H3, Hl. reflexivity. }
  rewrite Pl, D, (lhead_map _ _ _ _ L). cbn [negb].
  destruct M as [[-> ->]|[-> M]]; [reflexivity|]. cbn [Z.eqb andb Pos.eqb]. rewrite M. reflexivity.
Qed.
Definition osz_of (o : wsize) : Prop := o = OsV \/ o = OsB.
(* operand in ModRM.rm, opcode extension d *)
Lemma digit_says rip opc d ex exo osz ik op imm bs rest s :
  lsays (mkL NP 0 opc true (Some d) (rm_ KG true Sv :: ex) osz ik) (op :: exo) imm bs rest ->
  (forall o, In o ex -> o_size o <> Sv) -> osz = OsB -> no_modrm opc = false -> no_modrm (opc + 1) = false -> Z.even opc = true ->
  let w := bit_ (ob op) in
  exists h rm tail, exec rip (bs ++ rest) s = exec_modrm rip h d rm (tail ++ rest) s
    /\ h_opc h = (if w =? 8 then opc else opc + 1) /\ w_std w /\ (if Z.even (h_opc h) then 8 else opsize h) = w
    /\ rm_loc rip h w rm s = loc_of op s /\ imm_ok ik w imm tail.
Proof.
  intros (w & h & reg & rm & opc' & tail & D & L & Dg & F & Sz & I) Hex -> N1 N2 Ev.
  cbn [l_modrm l_digit l_ops l_imm] in *. destruct D as [(r & -> & D) ->]. rewrite (Dg _ eq_refl) in *. clear Dg.
  assert (W : w_std w) by (eapply (w_std_in OsB); [right; reflexivity|apply L]).
  assert (Ew : bit_ (ob op) = w).
  { destruct Sz as [Sz|Sz]; [subst; destruct W as [W|[W|[W|W]]]; discriminate|].
    cbn [l_ops combine] in Sz. inversion Sz as [? ? X|? ? X]; subst; [apply X|].
    exfalso. clear -X Hex. apply Exists_exists in X as ([o p] & Hin & (Q & _)). apply in_combine_l in Hin. exact (Hex _ Hin Q). }
  cbv zeta. rewrite Ew. inversion F as [|? ? ? ? F1 _]; subst.
  assert (Lo : h_opc h = if bit_ (ob op) =? 8 then opc else opc + 1) by apply L.
  set (w := bit_ (ob op)) in *.
  exists h, r, tail. split; [|split; [exact Lo|split; [exact W|split; [|split; [|exact I]]]]].
  - rewrite (exec_map_row rip _ bs rest _ _ _ _ _ s D L eq_refl); [reflexivity|]. left. split; [reflexivity|]. rewrite Lo. destruct (w =? 8); assumption.
  - rewrite Lo. destruct (w =? 8) eqn:W8; [rewrite Ev; lia|].
    replace (Z.even (opc + 1)) with false by (rewrite Z.even_add, Ev; reflexivity).
    eapply (opsize_row OsB); [apply (lhead_plain _ _ _ _ L eq_refl eq_refl)|apply L|apply L|right; reflexivity|lia].
  - apply (rm_where _ _ _ _ _ _ _ _ rip s F1). intros q ->. reflexivity.
Qed.
(* a register in ModRM.reg and an operand in ModRM.rm, in either order *)
Lemma two_says rip map opc (rev : bool) s2 osz ik r op imm bs rest s :
  lsays (if rev then orrow NP map opc s2 Sv osz ik else rorow NP map opc Sv s2 osz ik) (if rev then [op; OReg r] else [OReg r; op]) imm bs rest ->
  osz_of osz -> (s2 = Sv \/ exists n, s2 = Sn n) ->
  (map = 0 /\ no_modrm (w_opc osz (bit_ r) opc) = false \/ map = 1 /\ (0xC8 <=? w_opc osz (bit_ r) opc) && (w_opc osz (bit_ r) opc <=? 0xCF) = false) ->
  let w := bit_ r in let w2 := match s2 with Sn n => n | _ => w end in
  exists h reg rm tail, exec rip (bs ++ rest) s = (if map =? 0 then exec_modrm rip h reg rm (tail ++ rest) s else exec_0f rip h reg rm (tail ++ rest) s)
    /\ h_opc h = w_opc osz w opc /\ w_std w /\ (osz = OsV -> w <> 8) /\ (w <> 8 -> opsize h = w)
    /\ reg_loc h w reg = loc_of (OReg r) s /\ rm_loc rip h w2 rm s = loc_of op s /\ imm_ok ik w imm tail.
Proof.
  intros H Os S2 M. cbv zeta.
  assert (K : exists w h reg rm opc' tail, decode false 1 (bs ++ rest) = Some (h, reg, rm, tail ++ rest) /\ opc' = h_opc h
     /\ lhead (mkL NP map opc true None [] osz ik) w h opc' /\ oper_ok w h reg (Some rm) (r_ KG Sv) (OReg r) /\ oper_ok w h reg (Some rm) (rm_ KG true s2) op
     /\ w = bit_ r /\ imm_ok ik w imm tail).
  { assert (W0 : forall w h opc' o, lhead (mkL NP map opc true None o osz ik) w h opc' -> w <> 0).
    { intros w h opc' o L. assert (W : w_std w) by (eapply w_std_in; [exact Os|apply L]). destruct W as [-> | [-> | [-> | ->]]]; discriminate. }
    destruct rev; destruct H as (w & h & reg & rm & opc' & tail & D & L & Dg & F & Sz & I); cbn [rorow orrow l_modrm l_digit l_ops l_imm] in *;
      destruct D as [(r0 & -> & D) ->]; exists w, h, reg, r0, (h_opc h), tail.
    - inversion F as [|? ? ? ? F1 F2]; subst. inversion F2 as [|? ? ? ? F3 _]; subst.
      repeat match goal with |- _ /\ _ => split end; auto; try exact L. destruct F3 as (_ & F3 & _). symmetry. exact F3.
    - inversion F as [|? ? ? ? F1 F2]; subst. inversion F2 as [|? ? ? ? F3 _]; subst.
      repeat match goal with |- _ /\ _ => split end; auto; try exact L. destruct F1 as (_ & F1 & _). symmetry. exact F1. }
  clear H. destruct K as (w & h & reg & rm & opc' & tail & D & -> & L & F1 & F2 & Ew & I). rewrite <- Ew in *.
  assert (W : w_std w) by (eapply w_std_in; [exact Os|apply L]).
  assert (Lo : h_opc h = w_opc osz w opc) by apply L.
  exists h, reg, rm, tail. split; [|split; [exact Lo|split; [exact W|split; [|split; [|split; [|split; [|exact I]]]]]]].
  - rewrite (exec_map_row rip _ bs rest _ _ _ _ _ s D L eq_refl); [reflexivity|]. cbn [l_map]. rewrite Lo. exact M.
  - intros -> ->. destruct L as (_ & Hw & _). discriminate Hw.
  - intros N. eapply (opsize_row osz); [|apply L|apply L|exact Os|exact N]. destruct L as (_ & _ & H66 & _). exact H66.
  - apply (reg_where _ _ _ _ _ _ _ _ s F1). symmetry. exact Ew.
  - apply (rm_where (Some KG) true s2 _ h reg rm op rip s).
    + destruct S2 as [-> | [n ->]]; [exact F2|]. destruct op as [q|a]; exact F2.
    + intros q ->. destruct F2 as (_ & Sq & _). destruct S2 as [-> | [n ->]]; exact Sq.
Qed.

(* ---- the instructions ---- *)
Lemma high_1 op : high_ok [op].
Proof.
  intros X. inversion X as [? ? Y|? ? Y]; subst; [|inversion Y]. constructor; [|constructor]. destruct op as [r|a]; [|destruct Y]. cbn in Y. destruct Y as [Y _]. rewrite Y. discriminate.
Qed.
Lemma row1 {e c op imm act env pos its u} s rest : limplements e -> le_sig e = [c] -> le_fun e [op] imm = Some act -> larg_ok c op -> lbare op ->
  Forall (fun row => imm_in (l_imm row) imm) (le_rows e) -> emits act env pos its u ->
  Exists (fun row => lsays row [op] imm (render s its) rest) (le_rows e).
Proof.
  intros L S F A B I H. apply (L s [op] imm act env pos its rest u F); auto.
  - rewrite S. constructor; [exact A|constructor].
  - apply high_1.
Qed.
Lemma row2 {e c1 c2 o1 o2 imm act env pos its u} s rest : limplements e -> le_sig e = [c1; c2] -> le_fun e [o1; o2] imm = Some act ->
  larg_ok c1 o1 -> larg_ok c2 o2 -> lbare o1 -> lbare o2 -> high_ok [o1; o2] ->
  Forall (fun row => imm_in (l_imm row) imm) (le_rows e) -> emits act env pos its u ->
  Exists (fun row => lsays row [o1; o2] imm (render s its) rest) (le_rows e).
Proof.
  intros L S F A1 A2 B1 B2 Hh I H. apply (L s [o1; o2] imm act env pos its rest u F); auto.
  rewrite S. constructor; [exact A1|constructor; [exact A2|constructor]].
Qed.
Lemma exists_1 {A} (P : A -> Prop) x : Exists P [x] -> P x.
Proof. intros X. inversion X as [? ? Y|? ? Y]; [exact Y|inversion Y]. Qed.
Lemma no_tail ik w imm tail : ik = I_none \/ ik = I_1 -> imm_ok ik w imm tail -> tail = [].
Proof. intros [-> | ->] (L & _); cbn [imm_len] in L; destruct tail; auto; discriminate. Qed.
Ltac bsplit w := destruct (Z.eq_dec w 8) as [W8|W8]; [replace (w =? 8) with true in * by lia|replace (w =? 8) with false in * by lia].

Section Instructions.
Context {env : Env} {pos : Z} {its : list item} {u : unit} (s : sigma_t) (rest : list Z) (rip : Z) (m : st).
Notation runs f := (exec rip (render s its ++ rest) m = Some (rest, f)).

Lemma test_exec op r : larg_ok tO op -> gpr r -> lbare op -> bare r -> high_ok [op; OReg r] ->
  emits (test_ op r) env pos its u -> runs (e_test (bit_ r) op (OReg r) m).
Proof.
  intros A G B1 B2 Hh H.
  pose proof (exists_1 _ _ (row2 (o1 := op) (o2 := OReg r) (imm := 0) (act := test_ op r) s rest l_test_or eq_refl eq_refl A G B1 B2 Hh ltac:(repeat constructor) H)) as Y.
  destruct (two_says rip 0 0x84 true Sv OsB I_none r op 0 _ _ m Y (or_intror eq_refl) (or_introl eq_refl)) as (h & reg & rm & tail & E & Ho & W & _ & Os & Rr & Rm & I).
  { left. split; [reflexivity|]. cbn [w_opc]. destruct (_ =? 8); reflexivity. }
  rewrite E, (no_tail _ _ _ _ (or_introl eq_refl) I). cbn [Z.eqb app]. cbn iota in Rm. cbn [w_opc] in Ho.
  unfold exec_modrm. rewrite Ho. unfold e_test. bsplit (bit_ r).
  - change (Z.even 0x84) with true. cbv iota zeta. rewrite W8 in *. rewrite Rm, Rr. reflexivity.
  - change (0x84 + 1) with 0x85. change (Z.even 0x85) with false. cbv iota zeta. rewrite (Os W8), Rm, Rr. reflexivity.
Qed.
Lemma imm_z_take w imm tail rest' : w_std w -> imm_ok I_z w imm tail -> exists v, take (zlen w) (tail ++ rest') = Some (v, rest') /\ signed (8 * zlen w) v mod 2 ^ w = arg32 imm mod 2 ^ w.
Proof.
  intros W (L & _ & V). cbn [imm_len] in L. fold (zlen w) in L. exists (le_val tail). split; [apply take_app; exact L|]. rewrite zlen_bits by exact W. exact V.
Qed.
Lemma imm_8_take w imm tail rest' : imm_ok I_8 w imm tail -> take 1 (tail ++ rest') = Some (imm mod 256, rest').
Proof. intros (L & _ & V). cbn [imm_len] in L. rewrite (take_app _ _ _ L), V. reflexivity. Qed.
Lemma testi_exec op imm : larg_ok (tOp [0; 8; 16; 32; 64]) op -> lbare op ->
  emits (test_imm op imm) env pos its u -> runs (e_testi (bit_ (ob op)) op (arg32 imm mod 2 ^ bit_ (ob op)) m).
Proof.
  intros A B H.
  pose proof (row1 (op := op) (imm := imm) (act := test_imm op imm) s rest (testi_entry ""%string test_imm (fun _ _ => eq_refl)) eq_refl eq_refl A B ltac:(repeat constructor) H) as Y.
  cbn [le_rows test_rows] in Y. inversion Y as [? ? X|? ? X]; subst; clear Y.
  - destruct X as (w & h & reg & rm & opc & tail & D & L & _ & F & Sz & I). cbn [accrow l_modrm l_ops l_imm] in *. destruct D as (D & -> & Eo).
    assert (W : w_std w) by (eapply (w_std_in OsB); [right; reflexivity|apply L]).
    assert (Ew : bit_ (ob op) = w).
    { eapply (sized1 (accrow 0xA8 I_z)); [exact Sz|reflexivity|]. destruct W as [-> | [-> | [-> | ->]]]; discriminate. }
    rewrite Ew. cbn [existsb acc_ o_at orb] in Eo. assert (Lo : opc = if w =? 8 then 0xA8 else 0xA8 + 1) by apply L.
    rewrite (exec_plain_row rip _ _ _ _ _ _ _ m D L eq_refl eq_refl).
    2:{ rewrite <- Eo, Lo. destruct (w =? 8); reflexivity. }
    unfold exec_plain. rewrite <- Eo, Lo.
    destruct (imm_z_take w imm tail rest W I) as (v & T & V).
    inversion F as [|? ? ? ? F1 _]; subst. destruct op as [r|a]; [|destruct F1 as [F1 _]; discriminate F1].
    destruct F1 as (_ & _ & F1 & F2). cbn [acc_ o_at] in F1, F2. cbn [ob] in *. unfold e_testi. cbn [loc_of]. bsplit (bit_ r).
    + change (Z.even 0xA8) with true. cbv iota zeta. cbn [Z.leb Z.ltb Z.compare Pos.compare Pos.compare_cont andb orb Z.eqb Pos.eqb]. change (0xA8 mod 8) with 0. cbn [Z.eqb orb andb].
      rewrite W8 in *. rewrite T, V. rewrite (F2 eq_refl). reflexivity.
    + change (0xA8 + 1) with 0xA9. change (Z.even 0xA9) with false. cbv iota zeta. cbn [Z.leb Z.ltb Z.compare Pos.compare Pos.compare_cont andb orb Z.eqb Pos.eqb].
      rewrite (opsize_row OsB (bit_ r) h) by (try (apply (lhead_plain _ _ _ _ L eq_refl eq_refl)); try apply L; auto).
      rewrite T, V, F1. replace (bit_ r =? 8) with false by lia. reflexivity.
  - apply exists_1 in X.
    destruct (digit_says rip 0xF6 0 [] [] OsB I_z op imm _ _ m X ltac:(intros ? []) eq_refl eq_refl eq_refl eq_refl) as (h & rm & tail & E & Ho & W & Es & Rm & I).
    rewrite E. unfold exec_modrm. rewrite Es. destruct (imm_z_take _ imm tail rest W I) as (v & T & V). unfold e_testi. rewrite Ho.
    bsplit (bit_ (ob op)); (cbv iota zeta; rewrite Rm, T, V; reflexivity).
Qed.
(* inc, dec, not, neg *)
Definition unaries : list (unary * (Operand -> E unit)) := [(Inc, i_inc_o); (Dec, i_dec_o); (Not, i_not__o); (Neg, i_neg_o)].
Definition unary_op (op : Operand) : Prop := larg_ok (tOl [8; 16; 32; 64]) op /\ lbare op.
Lemma tOl_tOp l op : larg_ok (tOl l) op -> larg_ok (tOp l) op.
Proof. destruct op; cbn; tauto. Qed.
Lemma tOp_more l l' op : larg_ok (tOp l) op -> incl l l' -> larg_ok (tOp l') op.
Proof. destruct op; cbn; intuition. Qed.
Lemma unary_exec k f op : In (k, f) unaries -> unary_op op -> emits (f op) env pos its u -> runs (e_unary k (bit_ (ob op)) op m).
Proof.
  intros Hin [A B] H.
  assert (A2 : larg_ok (tOp [0; 8; 16; 32; 64]) op) by (eapply tOp_more; [apply tOl_tOp; exact A|unfold incl; cbn; tauto]).
  assert (K : exists opc d, lsays (rmrow NP 0 opc d OsB I_none) [op] 0 (render s its) rest /\ (opc, d, k) = match k with Inc => (0xFE, 0, k) | Dec => (0xFE, 1, k) | Not => (0xF6, 2, k) | Neg => (0xF6, 3, k) end).
  { cbn [unaries In] in Hin. destruct Hin as [X|[X|[X|[X|[]]]]]; injection X as <- <-; do 2 eexists; (split; [|reflexivity]).
    - exact (exists_1 _ _ (row1 (op := op) (imm := 0) (act := i_inc_o op) s rest l_inc_o eq_refl eq_refl A2 B ltac:(repeat constructor) H)).
    - exact (exists_1 _ _ (row1 (op := op) (imm := 0) (act := i_dec_o op) s rest l_dec_o eq_refl eq_refl A2 B ltac:(repeat constructor) H)).
    - exact (exists_1 _ _ (row1 (op := op) (imm := 0) (act := i_not__o op) s rest l_not__o eq_refl eq_refl A B ltac:(repeat constructor) H)).
    - exact (exists_1 _ _ (row1 (op := op) (imm := 0) (act := i_neg_o op) s rest l_neg_o eq_refl eq_refl A B ltac:(repeat constructor) H)). }
  destruct K as (opc & d & Y & Ek).
  assert (G : no_modrm opc = false /\ no_modrm (opc + 1) = false /\ Z.even opc = true).
  { destruct k; injection Ek as -> ->; repeat split; reflexivity. }
  destruct G as (G1 & G2 & G3).
  destruct (digit_says rip opc d [] [] OsB I_none op 0 _ _ m Y ltac:(intros ? []) eq_refl G1 G2 G3) as (h & rm & tail & E & Ho & W & Es & Rm & I).
  rewrite E, (no_tail _ _ _ _ (or_introl eq_refl) I). cbn [app]. unfold exec_modrm. rewrite Es, Ho. unfold e_unary.
  destruct k; injection Ek as -> ->; bsplit (bit_ (ob op)); (cbv iota zeta; rewrite Rm; reflexivity).
Qed.
(* shl, shr, sar by an immediate or by cl *)
Definition shifts : list (shift * (Operand -> Z -> E unit) * (Operand -> Reg -> E unit)) :=
  [(Shl, i_shl_oi, i_shl_ob); (Shr, i_shr_oi, i_shr_ob); (Sar, i_sar_oi, i_sar_ob)].
Definition shift_num (k : shift) : Z := match k with Shl => 4 | Shr => 5 | Sar => 7 end.
Lemma shift_num_of k : shift_of (shift_num k) = Some k. Proof. destruct k; reflexivity. Qed.
Lemma shift_exec k f g op imm : In (k, f, g) shifts -> unary_op op -> 0 <= imm < 256 -> emits (f op imm) env pos its u ->
  runs (e_shift k (bit_ (ob op)) op imm m).
Proof.
  intros Hin [A B] Hi H.
  assert (A2 : larg_ok (tOl [0; 8; 16; 32; 64]) op) by (destruct op; cbn in A |- *; intuition).
  assert (Fi : Forall (fun row => imm_in (l_imm row) imm) (shift_rows (shift_num k))) by (repeat constructor; cbn; lia).
  assert (Y : Exists (fun row => lsays row [op] imm (render s its) rest) (shift_rows (shift_num k))).
  { cbn [shifts In] in Hin. destruct Hin as [X|[X|[X|[]]]]; injection X as <- <- <-.
    - exact (row1 (op := op) (imm := imm) (act := i_shl_oi op imm) s rest l_shl_oi eq_refl eq_refl A2 B Fi H).
    - exact (row1 (op := op) (imm := imm) (act := i_shr_oi op imm) s rest l_shr_oi eq_refl eq_refl A2 B Fi H).
    - exact (row1 (op := op) (imm := imm) (act := i_sar_oi op imm) s rest l_sar_oi eq_refl eq_refl A2 B Fi H). }
  inversion Y as [? ? X|? ? X]; subst; clear Y.
  - destruct (digit_says rip 0xD0 (shift_num k) [] [] OsB I_1 op imm _ _ m X ltac:(intros ? []) eq_refl eq_refl eq_refl eq_refl) as (h & rm & tail & E & Ho & W & Es & Rm & I).
    rewrite E, (no_tail _ _ _ _ (or_intror eq_refl) I). destruct I as (_ & _ & ->). cbn [app]. unfold exec_modrm. rewrite Es, Ho, shift_num_of. unfold e_shift.
    bsplit (bit_ (ob op)); (cbv iota zeta; rewrite Rm; destruct k; reflexivity).
  - apply exists_1 in X.
    destruct (digit_says rip 0xC0 (shift_num k) [] [] OsB I_8 op imm _ _ m X ltac:(intros ? []) eq_refl eq_refl eq_refl eq_refl) as (h & rm & tail & E & Ho & W & Es & Rm & I).
    rewrite E. unfold exec_modrm. rewrite Es, Ho, shift_num_of. unfold e_shift.
    pose proof (imm_8_take _ _ _ rest I) as T. rewrite (Z.mod_small imm) in T by lia.
    bsplit (bit_ (ob op)); (cbv iota zeta; rewrite Rm, T; destruct k; reflexivity).
Qed.
Lemma shiftcl_exec k f g op r : In (k, f, g) shifts -> unary_op op -> gpr r -> bit_ r = 8 -> bare r -> high_ok [op; OReg r] -> emits (g op r) env pos its u ->
  runs (e_shift k (bit_ (ob op)) op (read 8 (LByte (BLow 1)) m) m) /\ loc_of (OReg r) m = LByte (BLow 1).
Proof.
  intros Hin [A B] G B8 Br Hh H.
  assert (Ar : larg_ok (tR 8) (OReg r)) by (split; assumption).
  assert (Y : lsays (clrow (shift_num k)) [op; OReg r] 0 (render s its) rest).
  { cbn [shifts In] in Hin. destruct Hin as [X|[X|[X|[]]]]; injection X as <- <- <-.
    - exact (exists_1 _ _ (row2 (o1 := op) (o2 := OReg r) (imm := 0) (act := i_shl_ob op r) s rest l_shl_ob eq_refl eq_refl A Ar B Br Hh ltac:(repeat constructor) H)).
    - exact (exists_1 _ _ (row2 (o1 := op) (o2 := OReg r) (imm := 0) (act := i_shr_ob op r) s rest l_shr_ob eq_refl eq_refl A Ar B Br Hh ltac:(repeat constructor) H)).
    - exact (exists_1 _ _ (row2 (o1 := op) (o2 := OReg r) (imm := 0) (act := i_sar_ob op r) s rest l_sar_ob eq_refl eq_refl A Ar B Br Hh ltac:(repeat constructor) H)). }
  split.
  - destruct (digit_says rip 0xD2 (shift_num k) [cl_] [OReg r] OsB I_none op 0 _ _ m Y ltac:(intros ? [<-|[]]; discriminate) eq_refl eq_refl eq_refl eq_refl) as (h & rm & tail & E & Ho & W & Es & Rm & I).
    rewrite E, (no_tail _ _ _ _ (or_introl eq_refl) I). cbn [app]. unfold exec_modrm. rewrite Es, Ho, shift_num_of. unfold e_shift.
    bsplit (bit_ (ob op)); (cbv iota zeta; rewrite Rm; destruct k; reflexivity).
  - destruct Y as (w & h & reg & rm & opc & tail & D & L & _ & F & Sz & I). cbn [clrow l_ops] in F.
    inversion F as [|? ? ? ? _ F']; subst. inversion F' as [|? ? ? ? F2 _]; subst. destruct F2 as (_ & _ & _ & F2). cbn [cl_ o_at] in F2.
    cbn [loc_of]. rewrite B8. cbn [Z.eqb Pos.eqb]. rewrite (F2 B8). reflexivity.
Qed.
(* lea *)
Lemma lea_exec r a : gpr r -> mem_ok a -> bare r -> lbare (OMem a) -> high_ok [OReg r; OMem a] -> emits (i_lea r a) env pos its u ->
  runs (SpecExec.e_lea (bit_ r) (OReg r) a m).
Proof.
  intros G A B1 B2 Hh H.
  pose proof (exists_1 _ _ (row2 (o1 := OReg r) (o2 := OMem a) (imm := 0) (act := i_lea r a) s rest l_lea eq_refl eq_refl G A B1 B2 Hh ltac:(repeat constructor) H)) as Y.
  destruct Y as (w & h & reg & rm & opc & tail & D & L & _ & F & Sz & I). cbn [l_modrm l_ops l_imm] in *. destruct D as [(r0 & -> & D) ->].
  inversion F as [|? ? ? ? F1 F2]; subst. inversion F2 as [|? ? ? ? F3 _]; subst.
  assert (Ew : bit_ r = w) by apply F1. assert (W8 : w <> 8). { destruct L as (_ & Hw & _). intros Q. rewrite Q in Hw. discriminate. }
  assert (Lo : h_opc h = 0x8D) by apply L.
  rewrite (exec_map_row rip _ _ rest _ _ _ _ _ m D L eq_refl); [|left; rewrite Lo; split; reflexivity]. cbn [l_map Z.eqb].
  rewrite (no_tail _ _ _ _ (or_introl eq_refl) I). cbn [app]. unfold exec_modrm. rewrite Lo. change (Z.even 0x8D) with false. cbv iota zeta.
  rewrite (opsize_row OsV w h) by (try (apply (lhead_plain _ _ _ _ L eq_refl eq_refl)); try apply L; auto).
  destruct F3 as (_ & _ & _ & mo & E & Dn). injection E as ->. unfold SpecExec.e_lea, value_of. rewrite Ew. cbn [loc_of]. rewrite Ew. replace (w =? 8) with false by lia.
  destruct F1 as (_ & _ & -> & _). cbn [Z.eqb Pos.eqb orb andb Z.ltb Z.compare Pos.compare Pos.compare_cont]. rewrite (Dn (rg m) rip). reflexivity.
Qed.
(* movzx, movsx *)
Definition extends : list (bool * (Reg -> Operand -> E unit)) := [(false, i_movzx); (true, i_movsx)].
Lemma extend_exec sg f r op : In (sg, f) extends -> gpr r -> larg_ok (tOp [8; 16]) op -> bare r -> lbare op -> high_ok [OReg r; op] -> emits (f r op) env pos its u ->
  runs (e_extend sg (bit_ r) (bit_ (ob op)) (OReg r) op m).
Proof.
  intros Hin G A B1 B2 Hh H. set (c := if sg then 0xBE else 0xB6).
  assert (Y : Exists (fun row => lsays row [OReg r; op] 0 (render s its) rest) [rorow NP 1 c Sv (Sn 8) OsV I_none; rorow NP 1 (c + 1) Sv (Sn 16) OsV I_none]).
  { cbn [extends In] in Hin. destruct Hin as [X|[X|[]]]; injection X as <- <-.
    - exact (row2 (o1 := OReg r) (o2 := op) (imm := 0) (act := i_movzx r op) s rest l_movzx eq_refl eq_refl G A B1 B2 Hh ltac:(repeat constructor) H).
    - exact (row2 (o1 := OReg r) (o2 := op) (imm := 0) (act := i_movsx r op) s rest l_movsx eq_refl eq_refl G A B1 B2 Hh ltac:(repeat constructor) H). }
  assert (Sz : forall opc n, n <> 0 -> lsays (rorow NP 1 opc Sv (Sn n) OsV I_none) [OReg r; op] 0 (render s its) rest -> bit_ (ob op) = n).
  { intros opc n N (w & h & reg & rm & opc' & tail & _ & _ & _ & F & _). cbn [rorow l_ops] in F. inversion F as [|? ? ? ? _ F2]; subst. inversion F2 as [|? ? ? ? F3 _]; subst.
    destruct op as [q|a]; [apply F3|]. destruct F3 as (_ & _ & [F3|F3] & _); [|exact F3]. exfalso. destruct A as [_ A]. rewrite F3 in A. cbn in A. lia. }
  unfold e_extend.
  inversion Y as [? ? X|? ? X]; subst; clear Y.
  - rewrite (Sz c 8 ltac:(lia) X).
    destruct (two_says rip 1 c false (Sn 8) OsV I_none r op 0 _ _ m X (or_introl eq_refl) (or_intror (ex_intro _ 8 eq_refl))) as (h & reg & rm & tail & E & Ho & W & N8 & Os & Rr & Rm & I).
    { right. split; [reflexivity|]. unfold c. destruct sg; reflexivity. }
    specialize (N8 eq_refl). rewrite E, (no_tail _ _ _ _ (or_introl eq_refl) I). cbn [Z.eqb app Pos.eqb]. unfold exec_0f. rewrite Ho. cbn [w_opc]. rewrite (Os N8).
    cbn iota in Rm. unfold reg_loc in Rr. replace (bit_ r =? 8) with false in Rr by lia. rewrite <- Rr, <- Rm. unfold c. destruct sg; reflexivity.
  - apply exists_1 in X. rewrite (Sz (c + 1) 16 ltac:(lia) X).
    destruct (two_says rip 1 (c + 1) false (Sn 16) OsV I_none r op 0 _ _ m X (or_introl eq_refl) (or_intror (ex_intro _ 16 eq_refl))) as (h & reg & rm & tail & E & Ho & W & N8 & Os & Rr & Rm & I).
    { right. split; [reflexivity|]. unfold c. destruct sg; reflexivity. }
    specialize (N8 eq_refl). rewrite E, (no_tail _ _ _ _ (or_introl eq_refl) I). cbn [Z.eqb app Pos.eqb]. unfold exec_0f. rewrite Ho. cbn [w_opc]. rewrite (Os N8).
    cbn iota in Rm. unfold reg_loc in Rr. replace (bit_ r =? 8) with false in Rr by lia. rewrite <- Rr, <- Rm. unfold c. destruct sg; reflexivity.
Qed.
Lemma movsxd_exec r op : gpr r -> bit_ r = 64 -> larg_ok tE op -> bare r -> lbare op -> high_ok [OReg r; op] -> emits (i_movsxd r op) env pos its u ->
  runs (e_extend true 64 32 (OReg r) op m).
Proof.
  intros G B64 A B1 B2 Hh H.
  pose proof (exists_1 _ _ (row2 (o1 := OReg r) (o2 := op) (imm := 0) (act := i_movsxd r op) s rest l_movsxd eq_refl eq_refl (conj G B64) A B1 B2 Hh ltac:(repeat constructor) H)) as Y.
  destruct Y as (w & h & reg & rm & opc & tail & D & L & _ & F & Sz & I). cbn [l_modrm l_ops l_imm] in *. destruct D as [(r0 & -> & D) ->].
  inversion F as [|? ? ? ? F1 F2]; subst. inversion F2 as [|? ? ? ? F3 _]; subst.
  assert (Lo : h_opc h = 0x63) by apply L. assert (HW : h_W h = true) by apply L.
  rewrite (exec_map_row rip _ _ rest _ _ _ _ _ m D L eq_refl); [|left; rewrite Lo; split; reflexivity]. cbn [l_map Z.eqb].
  rewrite (no_tail _ _ _ _ (or_introl eq_refl) I). cbn [app]. unfold exec_modrm. rewrite Lo, HW.
  assert (Rm : rm_loc rip h 32 r0 m = loc_of op m).
  { apply (rm_where (Some KG) true (Sn 32) 32 h reg r0 op rip m); [destruct op; exact F3|]. intros q ->. apply F3. }
  unfold e_extend. cbn [loc_of]. rewrite B64. cbn [Z.eqb Pos.eqb]. destruct F1 as (_ & _ & -> & _). rewrite <- Rm. reflexivity.
Qed.
(* setcc, cmovcc *)
Lemma set_exec n f op : In (n, f) setcc_methods -> larg_ok (tOl [0; 8]) op -> lbare op -> emits (f op) env pos its u ->
  exists c, cond_of n = Some c /\ runs (e_set c op m).
Proof.
  intros Hin A B H. pose proof (proj1 (Forall_forall _ _) setcc_all _ Hin) as (k & (Kr & c & Ec & Hc) & Lm). cbn [fst snd] in *.
  exists c. split; [exact Ec|].
  pose proof (exists_1 _ _ (row1 (op := op) (imm := 0) (act := f op) s rest Lm eq_refl eq_refl A B ltac:(repeat constructor) H)) as Y.
  destruct Y as (w & h & reg & rm & opc & tail & D & L & _ & F & Sz & I). cbn [l_modrm l_ops l_imm] in *. destruct D as [(r0 & -> & D) ->].
  inversion F as [|? ? ? ? F1 _]; subst. assert (Lo : h_opc h = 0x90 + k) by apply L.
  rewrite (exec_map_row rip _ _ rest _ _ _ _ _ m D L eq_refl).
  2:{ right. split; [reflexivity|]. rewrite Lo. replace (0xC8 <=? 0x90 + k) with false by lia. reflexivity. }
  cbn [l_map Z.eqb]. rewrite (no_tail _ _ _ _ (or_introl eq_refl) I). cbn [app]. unfold exec_0f. rewrite Lo.
  repeat match goal with |- context [0x90 + k =? ?x] => replace (0x90 + k =? x) with false by lia end.
  replace (0x90 + k <=? 0x4F) with false by lia. rewrite andb_false_r. replace (0x90 <=? 0x90 + k) with true by lia. replace (0x90 + k <=? 0x9F) with true by lia. cbn [andb].
  assert (Rm : rm_loc rip h 8 r0 m = loc_of op m).
  { apply (rm_where (Some KG) true (Sn 8) 8 h reg r0 op rip m); [destruct op; exact F1|]. intros q ->. apply F1. }
  cbv zeta. rewrite Rm. unfold e_set. replace (0x90 + k - 0x90) with k by lia. rewrite Hc. reflexivity.
Qed.
Lemma cmov_exec n f r op : In (n, f) cmovcc_methods -> gpr r -> bit_ r <> 8 -> larg_ok tO op -> bare r -> lbare op -> high_ok [OReg r; op] -> emits (f r op) env pos its u ->
  exists c, cond_of n = Some c /\ runs (e_cmov c (bit_ r) (OReg r) op m).
Proof.
  intros Hin G N A B1 B2 Hh H. pose proof (proj1 (Forall_forall _ _) cmovcc_all _ Hin) as (k & (Kr & c & Ec & Hc) & Lm). cbn [fst snd] in *.
  exists c. split; [exact Ec|].
  pose proof (exists_1 _ _ (row2 (o1 := OReg r) (o2 := op) (imm := 0) (act := f r op) s rest Lm eq_refl eq_refl (conj G N) A B1 B2 Hh ltac:(repeat constructor) H)) as Y.
  destruct (two_says rip 1 (0x40 + k) false Sv OsV I_none r op 0 _ _ m Y (or_introl eq_refl) (or_introl eq_refl)) as (h & reg & rm & tail & E & Ho & W & _ & Os & Rr & Rm & I).
  { right. split; [reflexivity|]. cbn [w_opc]. replace (0xC8 <=? 0x40 + k) with false by lia. reflexivity. }
  rewrite E, (no_tail _ _ _ _ (or_introl eq_refl) I). cbn [Z.eqb app Pos.eqb]. cbn iota in Rm. unfold exec_0f. rewrite Ho. cbn [w_opc]. rewrite (Os N).
  repeat match goal with |- context [0x40 + k =? ?x] => replace (0x40 + k =? x) with false by lia end.
  replace (0x40 <=? 0x40 + k) with true by lia. replace (0x40 + k <=? 0x4F) with true by lia. cbn [andb]. cbv zeta.
  unfold reg_loc in Rr. replace (bit_ r =? 8) with false in Rr by lia. rewrite Rr, Rm. unfold e_cmov. replace (0x40 + k - 0x40) with k by lia. rewrite Hc. destruct (c (fl m)); reflexivity.
Qed.
(* imul *)
Lemma imul_exec r op : larg_ok tGl (OReg r) -> larg_ok (tOl all_sizes) op -> bare r -> lbare op -> high_ok [OReg r; op] -> emits (i_imul_ro r op) env pos its u ->
  runs (e_imul (bit_ r) (OReg r) op m).
Proof.
  intros A1 A2 B1 B2 Hh H.
  pose proof (exists_1 _ _ (row2 (o1 := OReg r) (o2 := op) (imm := 0) (act := i_imul_ro r op) s rest l_imul_ro eq_refl eq_refl A1 A2 B1 B2 Hh ltac:(repeat constructor) H)) as Y.
  destruct (two_says rip 1 0xAF false Sv OsV I_none r op 0 _ _ m Y (or_introl eq_refl) (or_introl eq_refl)) as (h & reg & rm & tail & E & Ho & W & N8 & Os & Rr & Rm & I).
  { right. split; reflexivity. }
  specialize (N8 eq_refl). rewrite E, (no_tail _ _ _ _ (or_introl eq_refl) I). cbn [Z.eqb app Pos.eqb]. cbn iota in Rm. unfold exec_0f. rewrite Ho. cbn [w_opc]. rewrite (Os N8).
  unfold reg_loc in Rr. replace (bit_ r =? 8) with false in Rr by lia. unfold e_imul. rewrite <- Rr, <- Rm. reflexivity.
Qed.
Lemma imuli_exec r op imm : larg_ok tGl (OReg r) -> larg_ok (tOl all_sizes) op -> bare r -> lbare op -> high_ok [OReg r; op] -> emits (imul_imm r op (s32 imm)) env pos its u ->
  runs (e_imul3 (bit_ r) (OReg r) op (arg32 imm mod 2 ^ bit_ r) m).
Proof.
  intros A1 A2 B1 B2 Hh H.
  pose proof (row2 (o1 := OReg r) (o2 := op) (imm := imm) (act := imul_imm r op (s32 imm)) s rest (imuli_entry ""%string (fun r op i => imul_imm r op (s32 i)) (fun _ _ _ => eq_refl)) eq_refl eq_refl A1 A2 B1 B2 Hh ltac:(repeat constructor) H) as Y.
  cbn [le_rows imuli_rows] in Y. inversion Y as [? ? X|? ? X]; subst; clear Y.
  - destruct (two_says rip 0 0x69 false Sv OsV I_z r op imm _ _ m X (or_introl eq_refl) (or_introl eq_refl)) as (h & reg & rm & tail & E & Ho & W & N8 & Os & Rr & Rm & I).
    { left. split; reflexivity. }
    specialize (N8 eq_refl). rewrite E. cbn [Z.eqb]. cbn iota in Rm. unfold exec_modrm. rewrite Ho. cbn [w_opc]. rewrite (Os N8).
    destruct (imm_z_take _ imm tail rest W I) as (v & T & V). change (Z.even 0x69) with false. cbv iota zeta. rewrite T, V.
    unfold reg_loc in Rr. replace (bit_ r =? 8) with false in Rr by lia. unfold e_imul3. rewrite <- Rr, <- Rm. reflexivity.
  - apply exists_1 in X.
    destruct (two_says rip 0 0x6B false Sv OsV I_8s r op imm _ _ m X (or_introl eq_refl) (or_introl eq_refl)) as (h & reg & rm & tail & E & Ho & W & N8 & Os & Rr & Rm & I).
    { left. split; reflexivity. }
    specialize (N8 eq_refl). rewrite E. cbn [Z.eqb]. cbn iota in Rm. unfold exec_modrm. rewrite Ho. cbn [w_opc]. rewrite (Os N8).
    destruct I as (IL & _ & IV). cbn [imm_len] in IL. change (Z.even 0x6B) with false. cbv iota zeta. rewrite (take_app _ _ _ IL), IV.
    unfold reg_loc in Rr. replace (bit_ r =? 8) with false in Rr by lia. unfold e_imul3. rewrite <- Rr, <- Rm. reflexivity.
Qed.
(* bswap *)
Lemma bswap_exec r : gpr r -> bit_ r = 32 \/ bit_ r = 64 -> bare r -> emits (bswap r) env pos its u -> runs (e_bswap (bit_ r) (OReg r) m).
Proof.
  intros G B Br H.
  pose proof (exists_1 _ _ (row1 (op := OReg r) (imm := 0) (act := bswap r) s rest (bswap_entry ""%string bswap (fun _ => eq_refl)) eq_refl eq_refl (conj G B) Br ltac:(repeat constructor) H)) as Y.
  destruct Y as (w & h & reg & rm & opc & tail & D & L & _ & F & Sz & I). cbn [bswap_row l_modrm l_ops l_imm] in *. destruct D as (D & -> & Eo).
  inversion F as [|? ? ? ? F1 _]; subst. cbn [existsb opr_ o_at orb] in L.
  assert (Lo : h_opc h - h_opc h mod 8 = 0xC8) by apply L. assert (Ew : bit_ r = w) by apply F1.
  assert (Rg : 0xC8 <= h_opc h <= 0xCF) by (pose proof (Z.mod_pos_bound (h_opc h) 8 ltac:(lia)); lia).
  destruct L as (E1 & Hw & H66 & H2 & H3 & Hl & Hs & Hm & HW & _). cbn [bswap_row l_map l_pp l_osz] in *.
  assert (Ez : opsize h = w).
  { clear - H66 HW Ew B. unfold opsize. rewrite H66. rewrite <- Ew in *. destruct B as [Q|Q]; rewrite Q in *; cbn in *; destruct (h_W h); try discriminate; reflexivity. }
  unfold exec. rewrite D. unfold plain. rewrite E1, Hs, H2, H3, Hl, Hm. cbn [pp_is pp_num Z.eqb orb negb andb Pos.eqb].
  replace (0xC8 <=? h_opc h) with true by lia. replace (h_opc h <=? 0xCF) with true by lia. cbn [andb]. rewrite Ez. replace (w =? 16) with false by lia.
  rewrite (no_tail _ _ _ _ (or_introl eq_refl) I). cbn [app]. unfold e_bswap. cbn [loc_of]. rewrite Ew. replace (w =? 8) with false by lia.
  destruct F1 as (_ & _ & F1 & _). cbn [opr_ o_at] in F1. rewrite F1. reflexivity.
Qed.
(* xchg *)
Lemma xchg_sym w l1 l2 st0 : (exists n, reg_order l1 = Some n /\ (reg_order l2 = Some n -> l1 = l2)) -> do_xchg w l1 l2 st0 = do_xchg w l2 l1 st0.
Proof.
  intros (n & E & N). unfold do_xchg. cbv zeta. rewrite E. destruct (reg_order l2) as [n2|] eqn:E2.
  - destruct (n <? n2) eqn:Q1, (n2 <? n) eqn:Q2; try reflexivity; [lia|]. assert (n = n2) by lia. subst. rewrite (N eq_refl). reflexivity.
  - destruct l2 as [?|[?|?]|x]; try discriminate. destruct l1 as [?|[?|?]|y]; try discriminate; reflexivity.
Qed.
Lemma xchg_regs w n1 n2 st0 : do_xchg w (LReg n1) (LReg n2) st0 = do_xchg w (LReg n2) (LReg n1) st0.
Proof. apply xchg_sym. exists n1. split; [reflexivity|]. intros Q. injection Q as ->. reflexivity. Qed.
Lemma xchg_locs w r q st0 : bit_ r = bit_ q -> do_xchg w (loc_of (OReg q) st0) (loc_of (OReg r) st0) st0 = do_xchg w (loc_of (OReg r) st0) (loc_of (OReg q) st0) st0.
Proof.
  intros Sz. cbn [loc_of]. rewrite <- Sz. destruct (bit_ r =? 8); [|apply xchg_regs].
  apply xchg_sym. destruct (byte_meaning q) as [n|n], (byte_meaning r) as [k|k]; cbn [reg_order]; eexists; (split; [reflexivity|]); intros Q; assert (Q2 := f_equal (fun o => match o with Some z => z | None => 0 end) Q); cbn iota beta in Q2; try lia; do 2 f_equal; lia.
Qed.
Lemma xchg_mem w l a st0 : (forall x, l <> LMem x) -> do_xchg w (LMem a) l st0 = do_xchg w l (LMem a) st0.
Proof. 
  intros N. symmetry. apply xchg_sym. destruct l as [n|[n|n]|x]; [..|exfalso; exact (N x eq_refl)]; (eexists; split; [reflexivity|discriminate]).
Qed.
Lemma xchg_exec o1 o2 : larg_ok tE o1 -> larg_ok tE o2 -> same_size o1 o2 -> high_ok [o1; o2] -> emits (xchg o1 o2) env pos its u ->
  exists r, (o1 = OReg r \/ o2 = OReg r) /\ runs (e_xchg (bit_ r) o1 o2 m).
Proof.
  intros A1 A2 Sz Hh H. pose proof (xchg_says o1 o2 0 env pos its s u rest A1 A2 Sz Hh H) as Y. unfold xchg_rows in Y.
  assert (AC : forall r a, bit_ a = bit_ r -> bit_ r <> 8 -> (bit_ r = 32 -> regno r <> 0 \/ regno a <> 0) ->
     forall row ops, (row = mkL NP 0 0x90 false None [acc_ Sv; opr_ Sv] OsV I_none /\ ops = [OReg a; OReg r] \/ row = mkL NP 0 0x90 false None [opr_ Sv; acc_ Sv] OsV I_none /\ ops = [OReg r; OReg a]) ->
     lsays row ops 0 (render s its) rest -> regno a = 0 /\ runs (do_xchg (bit_ r) (LReg (regno r)) (LReg (regno a)) m)).
  { intros r a Ba N8 Nop row ops Cs Q.
    assert (Q' : exists w h reg tail, dec_header (render s its ++ rest) = Some (h, tail ++ rest) /\ lhead (mkL NP 0 0x90 false None [] OsV I_none) w h (h_opc h - h_opc h mod 8)
       /\ oper_ok w h reg None (acc_ Sv) (OReg a) /\ oper_ok w h reg None (opr_ Sv) (OReg r) /\ imm_ok I_none w 0 tail).
    { destruct Cs as [[-> ->]|[-> ->]]; destruct Q as (w & h & reg & rm & opc & tail & D & L & _ & F & _ & I); cbn [l_modrm l_ops l_imm existsb acc_ opr_ o_at orb] in *;
        destruct D as (D & -> & ->); exists w, h, reg, tail; inversion F as [|? ? ? ? F1 F2]; subst; inversion F2 as [|? ? ? ? F3 _]; subst; (split; [exact D|split; [exact L|auto]]). }
    destruct Q' as (w & h & reg & tail & D & L & F1 & F2 & I).
    destruct F1 as (_ & _ & R0 & _). destruct F2 as (_ & Ew & Rr & _). cbn [acc_ opr_ o_at o_size size_is] in *.
    split; [exact R0|].
    assert (Lo : h_opc h - h_opc h mod 8 = 0x90) by apply L.
    assert (Rg : 0x90 <= h_opc h <= 0x97) by (pose proof (Z.mod_pos_bound (h_opc h) 8 ltac:(lia)); lia).
    rewrite (exec_plain_row rip _ _ _ _ _ _ _ m D L eq_refl eq_refl).
    2:{ unfold no_modrm. replace (0x90 <=? h_opc h) with true by lia. replace (h_opc h <=? 0x97) with true by lia. rewrite !orb_true_r. reflexivity. }
    unfold exec_plain. replace (0xB0 <=? h_opc h) with false by lia. replace (0xB8 <=? h_opc h) with false by lia. replace (h_opc h <? 0x40) with false by lia.
    replace (h_opc h <=? 0x57) with false by lia. replace (h_opc h <=? 0x5F) with false by lia. rewrite !andb_false_r. cbn [andb].
    replace (0x90 <=? h_opc h) with true by lia. replace (h_opc h <=? 0x97) with true by lia. cbn [andb].
    rewrite (opsize_row OsV w h) by (try (apply (lhead_plain _ _ _ _ L eq_refl eq_refl)); try apply L; auto; lia).
    rewrite (no_tail _ _ _ _ (or_introl eq_refl) I), Rr, R0, Ew. cbn [app].
    replace ((regno r =? 0) && (w =? 32)) with false; [reflexivity|]. symmetry. apply andb_false_iff. destruct (w =? 32) eqn:W; [left|right; reflexivity]. lia. }
  assert (MM : forall r q (rev : bool), lsays (if rev then orrow NP 0 0x86 Sv Sv OsB I_none else rorow NP 0 0x86 Sv Sv OsB I_none) (if rev then [q; OReg r] else [OReg r; q]) 0 (render s its) rest ->
     runs (do_xchg (bit_ r) (loc_of q m) (loc_of (OReg r) m) m)).
  { intros r q rev Q.
    destruct (two_says rip 0 0x86 rev Sv OsB I_none r q 0 _ _ m Q (or_intror eq_refl) (or_introl eq_refl)) as (h & reg & rm & tail & E & Ho & W & _ & Os & Rr & Rm & I).
    { left. split; [reflexivity|]. cbn [w_opc]. destruct (_ =? 8); reflexivity. }
    rewrite E, (no_tail _ _ _ _ (or_introl eq_refl) I). cbn [Z.eqb app]. cbn iota in Rm. cbn [w_opc] in Ho. unfold exec_modrm. rewrite Ho. bsplit (bit_ r).
    - change (Z.even 0x86) with true. cbv iota zeta. rewrite W8 in *. rewrite Rm, Rr. reflexivity.
    - change (0x86 + 1) with 0x87. change (Z.even 0x87) with false. cbv iota zeta. rewrite (Os W8), Rm, Rr. reflexivity. }
  unfold e_xchg.
  inversion Y as [? ? [X _]|? ? Y2]; subst; clear Y.
  { (* 86, operand in rm first *)
    assert (R2 : exists r, o2 = OReg r).
    { destruct X as (w & h & reg & rm & opc & tail & _ & _ & _ & F & _). cbn [orrow l_ops] in F. inversion F as [|? ? ? ? _ F']; subst. inversion F' as [|? ? ? ? F3 _]; subst.
      destruct o2 as [r|a]; [eauto|]. destruct F3 as [F3 _]. discriminate F3. }
    destruct R2 as [r ->]. exists r. split; [auto|]. exact (MM r o1 true X). }
  inversion Y2 as [? ? [X _]|? ? Y3]; subst; clear Y2.
  { assert (R1 : exists r, o1 = OReg r).
    { destruct X as (w & h & reg & rm & opc & tail & _ & _ & _ & F & _). cbn [rorow l_ops] in F. inversion F as [|? ? ? ? F3 _]; subst.
      destruct o1 as [r|a]; [eauto|]. destruct F3 as [F3 _]. discriminate F3. }
    destruct R1 as [r ->]. exists r. split; [auto|]. rewrite (MM r o2 false X). f_equal. f_equal.
    destruct o2 as [q|a].
    - apply xchg_locs. exact Sz.
    - cbn [loc_of]. apply xchg_mem. intros x. destruct (bit_ r =? 8); discriminate. }
  inversion Y3 as [? ? [X Nop]|? ? Y4]; subst; clear Y3.
  { destruct o1 as [a|]; [destruct o2 as [r|]|].
    - cbn [same_size] in Sz. exists r. split; [auto|].
      assert (N8 : bit_ r <> 8). { destruct X as (w & h & reg & rm & opc & tail & _ & L & _ & F & _). cbn [l_ops] in F. inversion F as [|? ? ? ? _ F']; subst. inversion F' as [|? ? ? ? F3 _]; subst.
        destruct F3 as (_ & F3 & _). cbn [opr_ o_size size_is] in F3. rewrite F3. destruct L as (_ & Hw & _). intros Q. rewrite Q in Hw. discriminate. }
      destruct (AC r a Sz N8 ltac:(intros B32; destruct (Nop eq_refl ltac:(cbn [ob]; lia)); auto) _ _ (or_introl (conj eq_refl eq_refl)) X) as [_ P].
      cbn [loc_of]. rewrite Sz. replace (bit_ r =? 8) with false by lia. rewrite xchg_regs. exact P.
    - exfalso. destruct X as (w & h & reg & rm & opc & tail & _ & _ & _ & F & _). inversion F as [|? ? ? ? _ F']; subst. inversion F' as [|? ? ? ? F3 _]; subst. destruct F3 as [F3 _]. discriminate F3.
    - exfalso. destruct X as (w & h & reg & rm & opc & tail & _ & _ & _ & F & _). inversion F as [|? ? ? ? F3 _]; subst. destruct F3 as [F3 _]. discriminate F3. }
  apply exists_1 in Y4. destruct Y4 as [X Nop].
  destruct o1 as [r|]; [destruct o2 as [a|]|].
  - cbn [same_size] in Sz. exists r. split; [auto|].
    assert (N8 : bit_ r <> 8). { destruct X as (w & h & reg & rm & opc & tail & _ & L & _ & F & _). cbn [l_ops] in F. inversion F as [|? ? ? ? F3 _]; subst.
      destruct F3 as (_ & F3 & _). cbn [opr_ o_size size_is] in F3. rewrite F3. destruct L as (_ & Hw & _). intros Q. rewrite Q in Hw. discriminate. }
    destruct (AC r a (eq_sym Sz) N8 ltac:(intros B32; destruct (Nop eq_refl ltac:(cbn [ob]; lia)); auto) _ _ (or_intror (conj eq_refl eq_refl)) X) as [_ P].
    cbn [loc_of]. rewrite <- Sz. replace (bit_ r =? 8) with false by lia. exact P.
  - exfalso. destruct X as (w & h & reg & rm & opc & tail & _ & _ & _ & F & _). inversion F as [|? ? ? ? _ F']; subst. inversion F' as [|? ? ? ? F3 _]; subst. destruct F3 as [F3 _]. discriminate F3.
  - exfalso. destruct X as (w & h & reg & rm & opc & tail & _ & _ & _ & F & _). inversion F as [|? ? ? ? F3 _]; subst. destruct F3 as [F3 _]. discriminate F3.
Qed.
End Instructions.
