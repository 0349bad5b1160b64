(* Register conversions and address expressions of the 32-bit build (xbyak.h:738-784, 927-962, 984-1078 without XBYAK64). *)
From Coq Require Import ZArith List Bool Lia.
From Verif Require Import Base Types Emit Encode SpecX86 SpecAddr Wf EmitFacts BitFacts SpecReg RegFacts SpecExpr ExprProofs SpecFixed Spec32.
From Verif Require Encode32 Mnemonic32.
Import ListNotations.
Open Scope Z_scope.

(* ---- conversions ---- *)
(* the registers that the 32-bit build declares: al .. bh, ax .. di, eax .. edi, xmm0 .. zmm7 *)
Definition obj32 (r : Reg) : Prop :=
  0 <= idx_ r < 8 /\ ((kind_ r = REG /\ (bit_ r = 8 \/ bit_ r = 16 \/ bit_ r = 32)) \/ (kind_ r = XMM /\ bit_ r = 128) \/ (kind_ r = YMM /\ bit_ r = 256) \/ (kind_ r = ZMM /\ bit_ r = 512)).
Lemma obj_idx r : obj32 r -> getIdx r = idx_ r /\ isExt8bit r = false.
Proof.
  intros [B _]. unfold getIdx, isExt8bit. split.
  - change (31) with (Z.ones 5). rewrite Z.land_ones by lia. apply Z.mod_small. lia.
  - apply ext_low. lia.
Qed.
Lemma change32 r b env pos : obj32 r -> In b [16; 32; 128; 256; 512] -> Encode32.changeBit r b env pos = Emit.changeBit r b env pos.
Proof.
  intros O B. destruct (obj_idx r O) as [G X]. destruct O as [I _].
  unfold Encode32.changeBit, Emit.changeBit, Encode32.setBit, Emit.setBit. rewrite G, X.
  replace (16 <=? idx_ r) with false by lia. replace (32 <=? idx_ r) with false by lia.
  cbn in B. destruct B as [<-|[<-|[<-|[<-|[<-|[]]]]]]; reflexivity.
Qed.
(* only the first four registers have a low byte *)
Lemma change8 r env pos : obj32 r -> env_noexc env = false ->
  (idx_ r < 4 -> Encode32.changeBit r 8 env pos = Emit.changeBit r 8 env pos)
  /\ (4 <= idx_ r -> bit_ r <> 8 -> fails (Encode32.changeBit r 8) env pos ERR_CANT_CONVERT).
Proof.
  intros O N. destruct (obj_idx r O) as [G X]. destruct O as [I K]. split.
  - intros L. unfold Encode32.changeBit, Emit.changeBit, Encode32.setBit, Emit.setBit. rewrite G, X.
    replace (4 <=? idx_ r) with false by lia. replace (32 <=? idx_ r) with false by lia. reflexivity.
  - intros L W. unfold fails, Encode32.changeBit, Encode32.setBit, fn. rewrite N, G, X. replace (4 <=? idx_ r) with true by lia. replace (idx_ r <? 8) with true by lia.
    unfold isBit, isREGb, is_, getBit. destruct r as [i k w z m rd nf zu]; cbn [idx_ kind_ bit_] in *.
    destruct K as [[-> [-> | [-> | ->]]]|[[-> ->]|[[-> ->]|[-> ->]]]]; try lia; reflexivity.
Qed.

(* ---- address expressions ---- *)
Fixpoint build32 (e : aexp) : E RegExp :=
  match e with
  | XReg r => Encode32.regExpReg r 1
  | XScale r k => Encode32.regExpReg r k
  | XDisp d => ret (Encode32.regExpDisp d)
  | XAdd a b => x <- build32 a ;; y <- build32 b ;; Encode32.regExpAdd x y
  | XSub a d => x <- build32 a ;; ret (Encode32.regExpSub x d)
  end.
(* ptr[e], byte[e], ... *)
Definition at_frame32 (bit : Z) (bc : bool) (e : aexp) : E Address := x <- build32 e ;; frameAt bit bc x.

(* register objects other than tile registers, without r8 .. and 64-bit ones *)
Definition small (r : Reg) : Prop := obj r /\ 0 <= idx_ r < 8 /\ (kind_ r = REG -> bit_ r <> 64).
Fixpoint smalls (e : aexp) : Prop :=
  match e with XReg r | XScale r _ => small r | XDisp _ => True | XAdd a b => smalls a /\ smalls b | XSub a _ => smalls a end.
Lemma smalls_objs e : smalls e -> objs e.
Proof. induction e; cbn; intuition; match goal with K : small _ |- _ => apply K end. Qed.

Definition red (x : RegExp) : RegExp := mkRegExp (e_base x) (e_index x) (e_scale x) (w32 (e_disp x)).
Definition mapr {A B} (f : A -> B) (r : list item * res A) : list item * res B := (fst r, match snd r with Ok x => Ok (f x) | Err e => Err e end).
Lemma w32_w64 z : w32 (w64 z) = w32 z.
Proof. unfold w32, w64. symmetry. apply Znumtheory.Zmod_div_mod; try lia. exists (2 ^ 32). reflexivity. Qed.
Lemma w32_add x y : w32 (w32 x + w32 y) = w32 (x + y).
Proof. unfold w32. symmetry. apply Z.add_mod. lia. Qed.
Lemma w32_sub x y : w32 (w32 x - y) = w32 (x - y).
Proof. unfold w32. now rewrite Zminus_mod_idemp_l. Qed.
Lemma reg_red r k env pos : small r -> Encode32.regExpReg r k env pos = mapr red (Emit.regExpReg r k env pos).
Proof.
  intros (O & _ & N). unfold Encode32.regExpReg, Emit.regExpReg.
  assert (Q : isREGb r Encode32.i32e = isREGb r i32e).
  { unfold isREGb, is_, Encode32.i32e, i32e. destruct O as [(K & G)|[[V _]|[(K & W & _)|[(K & W & _)|[(K & W & _)|(K & W & _)]]]]].
    - specialize (N K). rewrite K. destruct G as [[[G|[G|[G|G]]] _]|[G _]]; rewrite G in *; try reflexivity. now destruct N.
    - destruct V as [[K W]|[[K W]|[K W]]]; rewrite K, W; reflexivity.
    - rewrite K, W; reflexivity.
    - rewrite K, W; reflexivity.
    - rewrite K, W; reflexivity.
    - rewrite K, W; reflexivity. }
  rewrite Q. unfold fn, mapr, throw, ret. 
  destruct (negb (isREGb r i32e) && _); [destruct (env_noexc env); reflexivity|]. destruct (k =? 0); [reflexivity|].
  destruct (negb (k =? 1) && _ && _ && _); [destruct (env_noexc env); reflexivity|]. destruct (_ || _); reflexivity.
Qed.
Lemma add_red x y env pos : Encode32.regExpAdd (red x) (red y) env pos = mapr red (Emit.regExpAdd x y env pos).
Proof.
  unfold Encode32.regExpAdd, Emit.regExpAdd, bind, fn, red, mapr. cbn [e_base e_index e_scale e_disp].
  assert (D : w32 (w64 (w32 (e_disp x) + w32 (e_disp y))) = w32 (w64 (e_disp x + e_disp y))) by now rewrite !w32_w64, w32_add.
  repeat match goal with |- context [if ?c then _ else _] => destruct c; cbn; rewrite ?D; try reflexivity end.
Qed.
Lemma build_items e env pos : env_noexc env = false -> smalls e -> fst (build e env pos) = [].
Proof.
  intros N. assert (R : forall r k p, fst (Emit.regExpReg r k env p) = []).
  { intros r k p. unfold Emit.regExpReg, fn, throw, ret. rewrite N. repeat match goal with |- context [if ?c then _ else _] => destruct c; try reflexivity end. }
  assert (A : forall x y p, fst (Emit.regExpAdd x y env p) = []).
  { intros x y p. unfold Emit.regExpAdd, fn, throw, ret. rewrite N. cbv zeta. repeat match goal with |- context [if ?c then _ else _] => destruct c; try reflexivity end. }
  revert pos. induction e as [r|r k|d|a IHa b IHb|a IHa d]; intros pos S; cbn [build smalls] in *; auto.
  - unfold bind. specialize (IHa pos (proj1 S)). destruct (build a env pos) as [l [x|x]]; cbn in IHa; subst l; [|reflexivity]. cbn [items_size].
    specialize (IHb (pos + 0) (proj2 S)). destruct (build b env (pos + 0)) as [l [y|y]]; cbn in IHb; subst l; [|reflexivity]. cbn.
    specialize (A x y (pos + 0 + 0)). destruct (Emit.regExpAdd x y env (pos + 0 + 0)) as [l [z|z]]; cbn in *; auto.
  - unfold bind. specialize (IHa pos S). destruct (build a env pos) as [l [x|x]]; cbn in IHa; subst l; reflexivity.
Qed.
Lemma build_red e env pos : env_noexc env = false -> smalls e -> build32 e env pos = mapr red (build e env pos).
Proof.
  intros N. revert pos. induction e as [r|r k|d|a IHa b IHb|a IHa d]; intros pos S; cbn [build build32 smalls] in *.
  - now apply reg_red.
  - now apply reg_red.
  - unfold Encode32.regExpDisp, regExpDisp, mapr, red, ret. cbn. now rewrite w32_w64.
  - unfold bind. rewrite (IHa pos (proj1 S)). pose proof (build_items a env pos N (proj1 S)) as Ia. destruct (build a env pos) as [l [x|x]]; cbn in Ia; subst l; cbn [mapr fst snd]; [|reflexivity].
    cbn [items_size]. rewrite (IHb (pos + 0) (proj2 S)). pose proof (build_items b env (pos + 0) N (proj2 S)) as Ib. destruct (build b env (pos + 0)) as [l [y|y]]; cbn in Ib; subst l; cbn [mapr fst snd]; [|reflexivity].
    cbn [items_size]. rewrite add_red. destruct (Emit.regExpAdd x y env (pos + 0 + 0)) as [l [z|z]]; reflexivity.
  - unfold bind. rewrite (IHa pos S). destruct (build a env pos) as [l [x|x]]; cbn [mapr fst snd]; [|reflexivity].
    unfold Encode32.regExpSub, regExpSub, ret, red, mapr. cbn. now rewrite w32_w64, w32_sub.
Qed.
Lemma frame_red e bit bc env pos : env_noexc env = false -> smalls e -> at_frame32 bit bc e env pos = mapr (fun a => address0 bit bc (red (a_e a))) (at_frame bit bc e env pos).
Proof.
  intros N S. unfold at_frame32, at_frame, bind. rewrite (build_red _ _ _ N S). destruct (build e env pos) as [l [x|x]]; cbn [mapr fst snd]; [|reflexivity].
  unfold frameAt, bind. change (verify (red x)) with (verify x). destruct (verify x env (pos + items_size l)) as [l2 [y|y]]; reflexivity.
Qed.

(* ptr[e] is accepted exactly if its terms fit base + index * scale *)
Lemma frame_iff32 e bit bc env pos : smalls e -> env_noexc env = false ->
  (typed e /\ encodable (terms e) <-> exists a, at_frame32 bit bc e env pos = ([], Ok a)).
Proof.
  intros S N. rewrite (frame_iff e bit bc env pos (smalls_objs _ S) N), (frame_red e bit bc env pos N S). split; intros [a H].
  - rewrite H. eexists. reflexivity.
  - destruct (at_frame bit bc e env pos) as [l [x|x]]; unfold mapr in H; cbn in H; [|discriminate]. injection H as -> _. now exists x.
Qed.
Lemma build_regs e env pos x : env_noexc env = false -> smalls e -> snd (build e env pos) = Ok x -> base32 (e_base x) /\ index32 (e_index x).
Proof.
  intros N. revert pos x.
  assert (B0 : base32 noReg) by now left.
  assert (R : forall r k p x, small r -> snd (Emit.regExpReg r k env p) = Ok x -> base32 (e_base x) /\ index32 (e_index x)).
  { intros r k p x (O & I & Q) H. assert (H2 : Emit.regExpReg r k env p = ([], Ok x)).
    { pose proof (build_items (XScale r k) env p N (conj O (conj I Q))) as F. cbn [build] in F. destruct (Emit.regExpReg r k env p). cbn in *. now subst. }
    destruct (obj_term r k env p x O N H2) as (A & _ & [(_ & ->)|[(_ & _ & ->)|(G & _ & ->)]]); cbn [e_base e_index].
    - split; [auto|now left].
    - split; [auto|]. destruct A as [(K & [W|W] & _)|[V _]]; [left; right; auto|now destruct (Q K)|right; auto].
    - destruct G as (K & [W|W] & _); [|now destruct (Q K)]. split; [right; auto|now left]. }
  induction e as [r|r k|d|a IHa b IHb|a IHa d]; intros pos x S H; cbn [build smalls] in *; eauto.
  - injection H as <-. cbn. split; [auto|now left].
  - unfold bind in H. destruct (build a env pos) as [l [y|]] eqn:Ea; [|discriminate]. destruct (build b env (pos + items_size l)) as [l2 [z|]] eqn:Eb; [|discriminate].
    destruct (IHa pos y (proj1 S)) as [Ba Ia]; [now rewrite Ea|]. destruct (IHb (pos + items_size l) z (proj2 S)) as [Bb Ib]; [now rewrite Eb|].
    unfold Emit.regExpAdd, fn, throw, ret in H. rewrite N in H. cbv zeta in H.
    repeat match type of H with context [if ?c then _ else _] => destruct c end; cbn in H; try discriminate H; injection H as <-; cbn [e_base e_index]; split; auto; now left.
  - unfold bind in H. destruct (build a env pos) as [l [y|]] eqn:Ea; [|discriminate]. injection H as <-. apply (IHa pos y S). now rewrite Ea.
Qed.
(* ptr, byte, word, dword, qword, xword, yword, zword; not tword, which stands for both 16 and 64 bits in the tests of the encoder *)
Definition frame_bits : list Z := [0; 8; 16; 32; 64; 128; 256; 512].
Lemma mod32 a b : a mod 2 ^ 64 = b mod 2 ^ 64 -> a mod 2 ^ 32 = b mod 2 ^ 32.
Proof.
  assert (M : forall z, z mod 2 ^ 32 = (z mod 2 ^ 64) mod 2 ^ 32) by (intros z; apply (Znumtheory.Zmod_div_mod (2 ^ 32) (2 ^ 64)); try lia; exists (2 ^ 32); reflexivity).
  intros H. now rewrite (M a), H, <- M.
Qed.
(* and is the sum of its terms modulo 2^32 *)
Lemma frame_value32 e bit bc env pos its a : smalls e -> In bit frame_bits -> emits (at_frame32 bit bc e) env pos its a ->
  its = [] /\ addr32 a /\ a_broadcast a = bc /\ getBit (a_op a) = bit /\ forall regs, written32 regs (a_e a) = value regs e mod 2 ^ 32.
Proof.
  intros S B [N H]. rewrite (frame_red e bit bc env pos N S) in H. unfold at_frame, bind in H.
  destruct (build e env pos) as [l [x|]] eqn:E1; [|discriminate].
  destruct (build_sound e env pos x (smalls_objs _ S) N) as (E' & T & R & V); [now rewrite E1|]. rewrite E1 in E'. injection E' as ->.
  destruct (build_regs e env pos x N S) as [Bx Ix]; [now rewrite E1|].
  destruct (verify_iff x _ env (pos + items_size []) R N) as [(Vf & Vd & C)|(er & Vf & _)]; unfold frameAt, bind in H; rewrite Vf in H; [|discriminate].
  cbn in H. injection H as <- <-. split; [reflexivity|]. split; [|split; [reflexivity|split]].
  - split; [reflexivity|]. split.
    + unfold reg32, isREG, isBit. cbn in B. destruct B as [<-|[<-|[<-|[<-|[<-|[<-|[<-|[<-|[]]]]]]]]]; vm_compute; repeat split; try discriminate; auto.
    + split; [reflexivity|]. split; [reflexivity|]. split; [exact Bx|]. split; [exact Ix|]. cbn. unfold w32. apply Z.mod_pos_bound. lia.
  - cbn in B. destruct B as [<-|[<-|[<-|[<-|[<-|[<-|[<-|[<-|[]]]]]]]]]; reflexivity.
  - intros regs. rewrite <- (mod32 _ _ (V regs)). unfold written32, written. cbn [a_e address0 red e_base e_index e_scale e_disp].
    assert (D : w32 (e_disp x) mod 2 ^ 32 = s64 (e_disp x) mod 2 ^ 32).
    { unfold w32. rewrite Z.mod_mod by lia. apply mod32. unfold s64, w64. destruct (_ <? _); [now rewrite Z.mod_mod by lia|]. change 18446744073709551616 with (1 * 2 ^ 64). rewrite Zminus_mod, Z_mod_mult, Z.sub_0_r, !Z.mod_mod by lia. reflexivity. }
    set (z := if present (e_base x) then _ else _). set (y := if present (e_index x) then _ else _).
    rewrite (Z.add_mod (z + y) (w32 _)), D, <- Z.add_mod by lia. reflexivity.
Qed.
Lemma cvts32 r env pos : obj32 r ->
  Encode32.cvt16 r env pos = Emit.cvt16 r env pos /\ Encode32.cvt32 r env pos = Emit.cvt32 r env pos
  /\ Encode32.cvt128 r env pos = Emit.cvt128 r env pos /\ Encode32.cvt256 r env pos = Emit.cvt256 r env pos /\ Encode32.cvt512 r env pos = Emit.cvt512 r env pos.
Proof.
  intros O. unfold Encode32.cvt16, Encode32.cvt32, Encode32.cvt128, Encode32.cvt256, Encode32.cvt512, Emit.cvt16, Emit.cvt32, Emit.cvt128, Emit.cvt256, Emit.cvt512, bind.
  rewrite !change32 by (auto; cbn; auto 10). repeat split.
Qed.
Lemma cvt8_32 r env pos : obj32 r -> env_noexc env = false ->
  (idx_ r < 4 -> Encode32.cvt8 r env pos = Emit.cvt8 r env pos)
  /\ (4 <= idx_ r -> bit_ r <> 8 -> fails (Encode32.cvt8 r) env pos ERR_CANT_CONVERT).
Proof.
  intros O N. destruct (change8 r env pos O N) as [A B]. split.
  - intros L. unfold Encode32.cvt8, Emit.cvt8, bind. now rewrite (A L).
  - intros L W. unfold fails, Encode32.cvt8, bind. rewrite (B L W). reflexivity.
Qed.
Lemma change64 : exists q, returns (Encode32.changeBit (Reg32 0) 64) env0 0 q /\ bit_ q = 64 /\ kind_ q = REG
  /\ emits_bytes (Mnemonic32.i_add_oo (OReg q) (OReg q)) [0x48; 0x01; 0xC0]
  /\ exists h t, dec_header32 [0x48; 0x01; 0xC0] = Some (h, t) /\ h_opc h = 0x48 /\ t = [0x01; 0xC0].
Proof.
  exists (Reg64 0). split; [reflexivity|]. split; [reflexivity|]. split; [reflexivity|]. split.
  - intros s env pos; unfold fn; destruct (env_noexc env); eexists; split; reflexivity.
  - eexists. eexists. split; [reflexivity|split; reflexivity].
Qed.
