(* The calls of UdivRun as calls of the methods of the 32-bit build (Encode32, Mnemonic32), and the bytes they emit. *)
From Coq Require Import ZArith List Bool Lia.
From Verif Require Import Base Types Emit EmitFacts SpecFixed FixedFacts Encode Encode32 Mnemonic Mnemonic32 B32Facts SpecDiv SpecDivDec Udiv UdivRun.
Import ListNotations.
Open Scope Z_scope.

(* ptr[r + off] (xbyak.h:1000-1004, 1056; size_t has 32 bits) *)
Definition ptr32 (b off : Z) : Operand := OMem (address0 0 false (mkRegExp (Reg32 b) noReg 1 (w32 off))).
Definition r32 (r : Z) : Operand := OReg (Reg32 r).
Definition call32 (i : ins) : E unit :=
  match i with
  | Load r b o => Encode32.mov_oo (r32 r) (ptr32 b o)
  | Store b o r => Encode32.mov_oo (ptr32 b o) (r32 r)
  | MovI r v => Encode32.mov_oi (r32 r) v
  | MovR r q => Encode32.mov_oo (r32 r) (r32 q)
  | Mul r => Mnemonic32.i_mul (r32 r)
  | AddI r v => Mnemonic32.i_add_oi (r32 r) v
  | AdcI r v => Mnemonic32.i_adc_oi (r32 r) v
  | ShrI r n => Mnemonic32.i_shr_oi (r32 r) n
  | Push r => Encode32.push_op (r32 r)
  | Pop r => Encode32.pop_op (r32 r)
  | Ret => Mnemonic.i_ret 0
  end.
Fixpoint calls32 (l : list ins) : E unit := match l with [] => ret tt | i :: l => call32 i ;;; calls32 l end.
Definition coded_as (i : ins) (bs : list Z) : Prop := emits_bytes (call32 i) bs /\ (bs <> [] /\ (length bs <= 15)%nat) /\ forall rest, fetch (bs ++ rest) = Some (i, rest).
Definition coded (i : ins) : Prop := exists bs, coded_as i bs.

Ltac one := eexists; split; [intros s env pos; unfold fn; destruct (env_noexc env); eexists; split; vm_compute; reflexivity|split; [split; [discriminate|cbn; lia]|reflexivity]].
Definition finite : list ins :=
  map (fun k => Load EAX ESI (Z.of_nat k * 4)) (seq 0 64) ++ map (fun k => Store EDI (Z.of_nat k * 4) EAX) (seq 0 64)
  ++ map (fun k => ShrI EAX (Z.of_nat k)) (seq 1 31) ++ map (fun k => ShrI EDX (Z.of_nat k)) (seq 1 31)
  ++ [Mul EDX; AdcI EDX 0; MovR EAX EDX; Push ESI; Push EDI; Pop EDI; Pop ESI; Ret; Load EDI ESP (4 * 2 + 4); Load ESI ESP (4 * 2 + 8)].
Lemma finite_coded : Forall coded finite.
Proof.
  unfold finite. cbn [map seq app]. unfold coded, coded_as. repeat (apply Forall_cons; [one|]). apply Forall_nil.
Qed.

(* ---- immediates ---- *)
Lemma le_val v : let b k := w8 (v / 256 ^ k) in b 0 + 256 * (b 1 + 256 * (b 2 + 256 * b 3)) = v mod 2 ^ 32.
Proof.
  cbv zeta. unfold w8. change (256 ^ 0) with 1. change (256 ^ 1) with 256. change (256 ^ 2) with (256 * 256). change (256 ^ 3) with (256 * 256 * 256).
  rewrite Z.div_1_r, <- !Z.div_div by lia. pose proof (Z.div_mod v 256 ltac:(lia)). pose proof (Z.div_mod (v / 256) 256 ltac:(lia)). pose proof (Z.div_mod (v / 256 / 256) 256 ltac:(lia)).
  pose proof (Z.div_mod (v / 256 / 256 / 256) 256 ltac:(lia)). pose proof (Z.mod_pos_bound v 256 ltac:(lia)). pose proof (Z.mod_pos_bound (v / 256) 256 ltac:(lia)).
  pose proof (Z.mod_pos_bound (v / 256 / 256) 256 ltac:(lia)). pose proof (Z.mod_pos_bound (v / 256 / 256 / 256) 256 ltac:(lia)).
  apply (Z.mod_unique _ _ (v / 256 / 256 / 256 / 256)); lia.
Qed.
Lemma id32_le v rest : id32 (le_bytes v 4 ++ rest) = Some (sx 32 (v mod 2 ^ 32), rest).
Proof.
  cbn [le_bytes app id32]. do 3 f_equal. rewrite <- (le_val v). cbv zeta. change (256 ^ 0) with 1. change (256 ^ 1) with 256. change (256 ^ 2) with (256 * 256). change (256 ^ 3) with (256 * 256 * 256).
  rewrite Z.div_1_r, <- !Z.div_div by lia. reflexivity.
Qed.
Lemma sx_s32 m : u32 m -> sx 32 m = s32 m.
Proof. intros H. unfold sx, s32, w32, u32 in *. rewrite Z.mod_small by lia. reflexivity. Qed.
Lemma w64_32 m v : u32 m -> at32 v = m -> w64 v mod 2 ^ 32 = m.
Proof. intros H <-. unfold w64, at32. change 18446744073709551616 with (2 ^ 32 * 2 ^ 32). rewrite Z.rem_mul_r by lia. rewrite Z.mul_comm, Z.mod_add by lia. apply Z.mod_mod. lia. Qed.
Lemma emits_dbs l : emits_bytes (dbs l) (map w8 l).
Proof. induction l as [|b l IH]; [intros s env pos; exists []; split; reflexivity|]. cbn [dbs map]. change (w8 b :: map w8 l) with ([w8 b] ++ map w8 l). apply emits_seq; [apply emits_db|exact IH]. Qed.
Lemma w8_w8 v : w8 (w8 v) = w8 v.
Proof. unfold w8. apply Z.mod_mod. lia. Qed.
Lemma le_w8 n : forall v, map w8 (le_bytes v n) = le_bytes v n.
Proof. induction n as [|n IH]; intros v; [reflexivity|]. cbn [le_bytes map]. now rewrite w8_w8, IH. Qed.
Lemma emits_dbn v n : n <= 8 -> emits_bytes (dbn v n) (le_bytes (w64 v) (Z.to_nat n)).
Proof.
  intros H. unfold dbn. apply fn_bytes. replace (8 <? n) with false by lia.
  assert (emits_bytes (when false do throw ERR_BAD_PARAMETER) []) as N by (intros s env pos; exists []; split; reflexivity).
  pose proof (emits_seq _ _ _ _ N (emits_dbs (le_bytes (w64 v) (Z.to_nat n)))) as K. rewrite le_w8 in K. exact K.
Qed.
Lemma mov_coded m : u32 m -> coded (MovI EDX (s32 m)).
Proof.
  intros H. pose proof (s32_at m H) as E. set (v := s32 m) in *. exists ([0xBA] ++ le_bytes (w64 (w64 v)) 4). split; [|split; [split; [discriminate|apply Nat.leb_le; reflexivity]|]].
  - unfold call32, Encode32.mov_oi, r32. apply fn_bytes. cbv zeta. change (isREG (Reg32 EDX)) with true. cbv iota.
    intros s env pos. destruct (emits_dbn (w64 v) 4 ltac:(lia) s env (pos + 1)) as (its & K & R). exists ([IDb 0xBA] ++ its). split; [|rewrite render_app, R; reflexivity].
    unfold Encode32.mov_imm. unfold Emit.bind at 1. 
    match goal with |- context [match ?f env pos with _ => _ end] => replace (f env pos) with ([IDb 0xBA], Ok 4) end.
    + cbn [items_size]. change (pos + _) with (pos + 1). rewrite K. reflexivity.
    + unfold fn. reflexivity.
  - intros rest. rewrite <- app_assoc. cbn [app fetch]. change (0xBA / 8 =? 0x50 / 8) with false. change (0xBA / 8 =? 0x58 / 8) with false. change (0xBA =? 0xC3) with false. change (0xBA / 8 =? 0xB8 / 8) with true. cbv iota.
    rewrite id32_le. rewrite (w64_32 m); [|exact H|]. { rewrite sx_s32 by exact H. reflexivity. }
    unfold at32. rewrite (w64_32 m v H E). reflexivity.
Qed.
Lemma immbit8 m : IsInDisp8 m = true -> forall env pos, getImmBit (r32 EAX) m env pos = ([], Ok 8).
Proof. intros H env pos. unfold getImmBit, fn. rewrite H. now destruct (env_noexc env). Qed.
Lemma immbit32 m : IsInDisp8 m = false -> forall env pos, getImmBit (r32 EAX) m env pos = ([], Ok 32).
Proof. intros H env pos. unfold getImmBit, fn. rewrite H. destruct (isInDisp16relaxed m); now destruct (env_noexc env). Qed.
Lemma emits_val {A} (f : E A) x g bs : (forall env pos, f env pos = ([], Ok x)) -> emits_bytes (g x) bs -> emits_bytes (Emit.bind f g) bs.
Proof.
  intros F G s env pos. unfold Emit.bind. rewrite F. cbn [items_size]. destruct (G s env (pos + 0)) as (i & K & R). rewrite Z.add_0_r in K. exists i. split; [|exact R].
  change (items_size []) with 0. rewrite ?Z.add_0_r, K. reflexivity.
Qed.
Lemma add_coded m : u32 m -> coded (AddI EAX (s32 m)).
Proof.
  intros H. pose proof (s32_at m H) as E. assert (w32 (w32 (s32 m)) = m) as W. { change (w32 (s32 m)) with (at32 (s32 m)). rewrite E. now apply at32_id. }
  assert (w64 m = m) as W64 by (unfold w64, u32 in *; apply Z.mod_small; lia).
  destruct (IsInDisp8 m) eqn:B.
  - exists ([0x83; 0xC0] ++ le_bytes (w64 m) (Z.to_nat 1)). split; [|split; [split; [discriminate|apply Nat.leb_le; reflexivity]|]].
    + unfold call32, Mnemonic32.i_add_oi, Encode32.opOI. cbv zeta. rewrite W. apply (emits_val _ 8); [now apply immbit8|]. change (8 / 8) with 1. apply emits_seq; [|now apply emits_dbn].
      byts.
    + intros rest. rewrite W64. change (le_bytes m (Z.to_nat 1)) with [w8 m]. cbn [app fetch ib]. change (0x83 / 8 =? 0x50 / 8) with false. change (0x83 / 8 =? 0x58 / 8) with false. change (0x83 =? 0xC3) with false.
      change (0x83 / 8 =? 0xB8 / 8) with false. cbn. do 3 f_equal. unfold IsInDisp8, u32, sx, s32, w32, w8 in *. rewrite (Z.mod_small m 4294967296) in B by lia. rewrite (Z.mod_small m 4294967296) by lia. apply orb_prop in B.
      destruct B as [B|B]; apply Z.leb_le in B.
      * replace (m mod 256) with (m - 4294967040). { destruct (Z.ltb_spec (m - 4294967040) (2 ^ (8 - 1))) as [K|K]; [change (2 ^ (8 - 1)) with 128 in K; lia|]. destruct (Z.ltb_spec m 2147483648); [lia|]. change (2 ^ 8) with 256. lia. }
        apply (Z.mod_unique _ _ 16777215); lia.
      * rewrite Z.mod_small by lia. destruct (Z.ltb_spec m (2 ^ (8 - 1))) as [K|K]; [|change (2 ^ (8 - 1)) with 128 in K; lia]. destruct (Z.ltb_spec m 2147483648); lia.
  - exists ([0x05] ++ le_bytes (w64 m) (Z.to_nat 4)). split; [|split; [split; [discriminate|apply Nat.leb_le; reflexivity]|]].
    + unfold call32, Mnemonic32.i_add_oi, Encode32.opOI. cbv zeta. rewrite W. apply (emits_val _ 32); [now apply immbit32|]. change (32 / 8) with 4. apply emits_seq; [|now apply emits_dbn].
      byts.
    + intros rest. rewrite <- app_assoc. change (Z.to_nat 4) with 4%nat. cbn [app]. unfold fetch. change (0x05 / 8 =? 0x50 / 8) with false. change (0x05 / 8 =? 0x58 / 8) with false. change (0x05 =? 0xC3) with false.
      change (0x05 / 8 =? 0xB8 / 8) with false. change (0x05 =? 0x05) with true. cbv iota. rewrite id32_le, W64. rewrite Z.mod_small by exact H. now rewrite sx_s32.
Qed.

(* ---- the whole function ---- *)
(* the bytes of a list of instructions *)
Inductive asm : list ins -> list Z -> Prop :=
| asm_nil : asm [] []
| asm_cons i b l bs : coded_as i b -> asm l bs -> asm (i :: l) (b ++ bs).
Lemma asm_some l : Forall coded l -> exists bs, asm l bs.
Proof. induction 1 as [|i l [b B] _ [bs Bs]]; [exists []; constructor|]. exists (b ++ bs). now constructor. Qed.
Lemma asm_emits l bs : asm l bs -> emits_bytes (calls32 l) bs.
Proof. induction 1 as [|i b l bs [B _] _ IH]; [intros s env pos; exists []; split; reflexivity|]. cbn [calls32]. now apply emits_seq. Qed.
Lemma asm_reads l bs : asm l bs -> forall n, (length l <= n)%nat -> disasm n bs = Some l.
Proof.
  induction 1 as [|i b l bs (B & [N _] & F') _ D]; [intros [|n] _; reflexivity|]. intros [|n] L; cbn [length] in L; [lia|]. destruct b as [|b0 b]; [contradiction|]. specialize (F' bs).
  cbn [app disasm] in *. rewrite F', D by lia. reflexivity.
Qed.
Lemma in_finite i : In i finite -> coded i.
Proof. intros H. exact (proj1 (Forall_forall _ _) finite_coded i H). Qed.
Lemma load_in k : 0 <= k < 64 -> In (Load EAX ESI (k * 4)) finite.
Proof. intros H. unfold finite. apply in_or_app. left. apply in_map_iff. exists (Z.to_nat k). split; [now rewrite Z2Nat.id by lia|]. apply in_seq. lia. Qed.
Lemma store_in k : 0 <= k < 64 -> In (Store EDI (k * 4) EAX) finite.
Proof. intros H. unfold finite. apply in_or_app. right. apply in_or_app. left. apply in_map_iff. exists (Z.to_nat k). split; [now rewrite Z2Nat.id by lia|]. apply in_seq. lia. Qed.
Lemma shr_in r n : r = EAX \/ r = EDX -> 0 < n < 32 -> In (ShrI r n) finite.
Proof.
  intros [-> | ->] H; unfold finite; do 2 (apply in_or_app; right); [apply in_or_app; left|apply in_or_app; right; apply in_or_app; left]; apply in_map_iff; exists (Z.to_nat n); (split; [now rewrite Z2Nat.id by lia|apply in_seq; lia]).
Qed.
Lemma rest_in i : In i [Mul EDX; AdcI EDX 0; MovR EAX EDX; Push ESI; Push EDI; Pop EDI; Pop ESI; Ret; Load EDI ESP (4 * 2 + 4); Load ESI ESP (4 * 2 + 8)] -> In i finite.
Proof. intros H. unfold finite. do 4 (apply in_or_app; right). exact H. Qed.
Ltac rest := apply in_finite, rest_in; cbn [In]; tauto.
Lemma udiv_coded p k : plan_ok p -> 0 <= k < 64 -> Forall coded (udiv_code p (k * 4)).
Proof.
  intros P K. unfold udiv_code. apply Forall_cons; [apply in_finite; now apply load_in|]. destruct p as [e|m a len]; cbn [plan_ok] in P.
  - destruct (Z.eqb_spec e 0); [apply Forall_nil|]. apply Forall_cons; [|apply Forall_nil]. apply in_finite, shr_in; [now left|lia].
  - destruct P as [Pm Pl]. repeat (apply Forall_app; split).
    + apply Forall_cons; [apply mov_coded; unfold u32; lia|]. apply Forall_cons; [rest|apply Forall_nil].
    + destruct a; [|apply Forall_nil]. apply Forall_cons; [apply add_coded; unfold u32; lia|]. apply Forall_cons; [rest|apply Forall_nil].
    + destruct (Z.eqb_spec len 0); [apply Forall_nil|]. apply Forall_cons; [|apply Forall_nil]. apply in_finite, shr_in; [now right|lia].
    + apply Forall_cons; [rest|apply Forall_nil].
Qed.
Lemma body_coded fuel q : Forall divisor q -> (64 <= fuel)%nat -> forall i l, body fuel i q = Some l -> 0 <= i -> i + Z.of_nat (length q) <= 64 -> Forall coded l.
Proof.
  intros H Hf. induction H as [|d q Hd Hq IH]; intros i l Hb Hi Hn; [injection Hb as <-; apply Forall_nil|].
  cbn [body] in Hb. cbn [length] in Hn. destruct (udiv_plan_ok fuel d Hd Hf) as (p & Ep & Pp & _). rewrite Ep in Hb. destruct (body fuel (i + 1) q) as [l'|] eqn:Eb; [|discriminate Hb].
  assert (l = udiv_code p (i * 4) ++ ([Store EDI (i * 4) EAX] ++ l')) as -> by congruence. apply Forall_app. split; [apply udiv_coded; [exact Pp|lia]|].
  apply Forall_app. split; [apply Forall_cons; [apply in_finite, store_in; lia|apply Forall_nil]|]. apply (IH (i + 1) l' Eb); lia.
Qed.
Lemma quantize_is fuel q l : quantize fuel q = Some l -> exists l', body fuel 0 q = Some l'
  /\ l = ([Push ESI; Push EDI; Load EDI ESP (4 * 2 + 4); Load ESI ESP (4 * 2 + 8)] ++ (l' ++ [Pop EDI; Pop ESI])) ++ [Ret].
Proof.
  intros Hq. unfold quantize in Hq. destruct (body fuel 0 q) as [l'|] eqn:Eb; [|discriminate Hq]. exists l'. split; [reflexivity|].
  rewrite <- !app_assoc. cbn [app] in *. congruence.
Qed.
Lemma quantize_asm fuel q l : Forall divisor q -> (64 <= fuel)%nat -> (length q <= 64)%nat -> quantize fuel q = Some l -> exists bs, asm l bs.
Proof.
  intros H Hf Hn Hq. apply asm_some. destruct (quantize_is _ _ _ Hq) as (l' & Eb & ->). repeat (apply Forall_app; split); try (repeat (apply Forall_cons; [rest|]); apply Forall_nil).
  apply (body_coded fuel q H Hf 0 l' Eb); lia.
Qed.
Lemma quantize_coded fuel q l : Forall divisor q -> (64 <= fuel)%nat -> (length q <= 64)%nat -> quantize fuel q = Some l ->
  exists bs, emits_bytes (calls32 l) bs /\ forall n, (length l <= n)%nat -> disasm n bs = Some l.
Proof. intros H Hf Hn Hq. destruct (quantize_asm _ _ _ H Hf Hn Hq) as [bs B]. exists bs. split; [now apply asm_emits|now apply asm_reads]. Qed.
