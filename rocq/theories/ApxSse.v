(* The SHA, key locker and ENCODEKEY instructions with r16 .. r31: EVEX map 4 (C41).  xbyak.h:2818-2833,
   xbyak_mnemonic.h:989-995, 1912-1921. *)
From Coq Require Import ZArith List Bool Lia String.
From Verif Require Import Base Types Emit Encode Mnemonic SpecX86 SpecAddr EmitFacts BitFacts Wf MemFacts LegacyFacts VexFacts
  SpecIsa SpecInsn SpecLeg SpecApx ApxFacts ApxShapes ApxShapes2.
Import ListNotations.
Open Scope Z_scope.

(* ---- rows: "EVEX.LLZ.NP.MAP4.W0 D9 /r SHA1MSG1 xmm, m128" and so on ---- *)
Definition xg_ : aoper := mkAO AtReg (Some KX) false (Sn 128).
Definition xm_ : aoper := mkAO AtRm None true Sany.
Definition sse_row (pp : ppfx) (opc : Z) (im : immk) : arow := mkA pp 4 opc None [xg_; xm_] Os0 Nd0 NfNo None im.
Definition wide_row (opc digit : Z) : arow := mkA PF3 4 opc (Some digit) [xm_] Os0 Nd0 NfNo None I_none.
Definition key_row (opc : Z) : arow := mkA PF3 4 opc None [rgn_ 32; rrn_a 32] Os0 Nd0 NfNo None I_none.
Record sseentry := mkSE { se_name : string; se_fun : Reg -> Address -> Z -> E unit; se_row : arow }.
Record wideentry := mkWE { we_name : string; we_fun : Address -> E unit; we_row : arow }.
Record keyentry := mkKE { ke_name : string; ke_fun : Reg -> Reg -> E unit; ke_row : arow }.

Definition xmm_arg (x : Reg) : Prop := kind_ x = XMM /\ bit_ x = 128 /\ 0 <= idx_ x < 16 /\ NF_ x = false /\ ZU_ x = false.
Definition sse_says (e : sseentry) : Prop := forall s x a imm env pos its rest u,
  xmm_arg x -> amem a -> ext_reg (OMem a) = true -> imm_in (a_immk (se_row e)) imm ->
  emits (se_fun e x a imm) env pos its u -> asays (se_row e) [OReg x; OMem a] imm 0 (render s its) rest.
Definition wide_says (e : wideentry) : Prop := forall s a env pos its rest u,
  amem a -> ext_reg (OMem a) = true ->
  emits (we_fun e a) env pos its u -> asays (we_row e) [OMem a] 0 0 (render s its) rest.
Definition key_says (e : keyentry) : Prop := forall s r q env pos its rest u,
  gpr r -> bit_ r = 32 -> gpr q -> bit_ q = 32 -> NF_ r = false -> ZU_ r = false -> NF_ q = false -> ZU_ q = false ->
  ext_reg (OReg r) = true \/ ext_reg (OReg q) = true ->
  emits (ke_fun e r q) env pos its u -> asays (ke_row e) [OReg r; OReg q] 0 0 (render s its) rest.

Definition sse_table : list sseentry := [
  mkSE "sha1msg1" (fun x a _ => i_sha1msg1 x (OMem a)) (sse_row NP 0xD9 I_none);
  mkSE "sha1msg2" (fun x a _ => i_sha1msg2 x (OMem a)) (sse_row NP 0xDA I_none);
  mkSE "sha1nexte" (fun x a _ => i_sha1nexte x (OMem a)) (sse_row NP 0xD8 I_none);
  mkSE "sha1rnds4" (fun x a i => i_sha1rnds4 x (OMem a) i) (sse_row NP 0xD4 I_8);
  mkSE "sha256msg1" (fun x a _ => i_sha256msg1 x (OMem a)) (sse_row NP 0xDC I_none);
  mkSE "sha256msg2" (fun x a _ => i_sha256msg2 x (OMem a)) (sse_row NP 0xDD I_none);
  mkSE "sha256rnds2" (fun x a _ => i_sha256rnds2 x (OMem a)) (sse_row NP 0xDB I_none);
  mkSE "aesdec128kl" (fun x a _ => i_aesdec128kl x a) (sse_row PF3 0xDD I_none);
  mkSE "aesdec256kl" (fun x a _ => i_aesdec256kl x a) (sse_row PF3 0xDF I_none);
  mkSE "aesenc128kl" (fun x a _ => i_aesenc128kl x a) (sse_row PF3 0xDC I_none);
  mkSE "aesenc256kl" (fun x a _ => i_aesenc256kl x a) (sse_row PF3 0xDE I_none)]%string.
Definition wide_table : list wideentry := [
  mkWE "aesencwide128kl" i_aesencwide128kl (wide_row 0xD8 0);
  mkWE "aesdecwide128kl" i_aesdecwide128kl (wide_row 0xD8 1);
  mkWE "aesencwide256kl" i_aesencwide256kl (wide_row 0xD8 2);
  mkWE "aesdecwide256kl" i_aesdecwide256kl (wide_row 0xD8 3)]%string.
Definition key_table : list keyentry := [
  mkKE "encodekey128" i_encodekey128 (key_row 0xDA);
  mkKE "encodekey256" i_encodekey256 (key_row 0xDB)]%string.

(* ---- proofs ---- *)
Lemma ext_rex2 a : amem a -> ext_reg (OMem a) = true -> hasRex2 (OMem a) = true.
Proof.
  intros M H. pose proof (ext_mem a M) as Q. unfold extended in Q. cbn [ob] in Q. rewrite H, orb_true_r in Q. specialize (Q eq_refl).
  unfold hasRex2NFZU in Q. destruct (amem_nf a M) as [N Zu]. cbn [ob] in Q. rewrite N, Zu, !orb_false_r in Q. exact Q.
Qed.
Lemma xmm_low x : xmm_arg x -> (getIdx x <=? 15) = true.
Proof.
  intros (_ & _ & R & _). unfold getIdx. change 31 with (Z.ones 5). rewrite Z.land_ones, Z.mod_small by (cbn; lia). apply Z.leb_le. lia.
Qed.
Lemma xmm_bits x : xmm_arg x -> size_b x noReg false false false.
Proof. intros (_ & B & _). unfold size_b, isBit. rewrite B. repeat split. Qed.
Lemma imm8_ok w imm : 0 <= imm < 256 -> imm_ok I_8 w imm [imm].
Proof.
  intros R. split; [reflexivity|]. split; [repeat constructor; lia|]. unfold le_val. cbn. rewrite Z.mod_small by lia. lia.
Qed.
(* opSSE_APX takes the extended form *)
Lemma sse_apx_ext x a t1 c1 t2 c2 imm env pos its u : (getIdx x <=? 15) = true -> amem a -> ext_reg (OMem a) = true -> has t2 T_MUST_EVEX = true ->
  emits (opSSE_APX x (OMem a) t1 c1 t2 c2 imm) env pos its u ->
  exists i1, its = i1 ++ (if imm =? NONE then [] else [IDb (w8 imm)])
  /\ emits (opROO noReg (OMem a) (OReg x) t2 c2 (if imm =? NONE then 0 else 1) NONE) env pos i1 true.
Proof.
  intros X M Xr T H. unfold opSSE_APX in H. rewrite X, (ext_rex2 a M Xr) in H. cbn [andb] in H.
  ebind H i1 i2 b H1 H2. destruct (opROO_result _ _ _ _ _ _ _ _ _ _ _ H1) as (Eb & _). rewrite T in Eb. cbn [orb] in Eb. subst b.
  destruct (imm =? NONE); cbn [negb] in H2.
  - apply emits_ret in H2 as [-> _]. exists i1. split; [reflexivity|exact H1].
  - apply emits_db in H2 as ->. exists i1. split; [reflexivity|exact H1].
Qed.
Lemma sse_gen nm f pp opc im t1 c1 t2 c2 (has_imm : bool) :
  (forall x a imm, f x a imm = opSSE_APX x (OMem a) t1 c1 t2 c2 (if has_imm then w8 imm else NONE)) ->
  has t2 T_MUST_EVEX = true -> im = (if has_imm then I_8 else I_none) ->
  achkb (sse_row pp opc im) t2 c2 false 0 false false false = true -> has t2 T_ZU = false ->
  sse_says (mkSE nm f (sse_row pp opc im)).
Proof.
  intros Fn T Ei C TZ s x a imm env pos its rest u X M Xr Im H. cbn [se_fun se_row] in *. rewrite Fn in H.
  apply sse_apx_ext in H; auto using xmm_low. destruct H as (i1 & -> & H).
  rewrite render_app. pose proof X as (X1 & X2 & X3 & X4 & X5). pose proof (amem_nf a M) as (An & Az).
  match goal with |- asays _ _ _ _ (_ ++ ?t) _ => assert (K : imm_ok im 0 imm t) end.
  { subst im. cbn [sse_row a_immk] in Im. destruct has_imm.
    - assert (Nn : (w8 imm =? NONE) = false). { apply Z.eqb_neq. pose proof (Z.mod_pos_bound imm 256 ltac:(lia)). unfold w8, NONE in *. lia. }
      rewrite Nn. cbn [render render1 app]. cbn [imm_in] in Im.
      assert (Wi : w8 imm = imm) by (unfold w8; apply Z.mod_small; first [exact Im|lia]). rewrite !Wi.
      apply imm8_ok. first [exact Im|lia].
    - apply imm_none. }
  eapply says1; try exact H; try exact C; try reflexivity.
  - exact M.
  - apply xmm_bits. exact X.
  - apply nf_wants; [discriminate|]. unfold wants_nf. cbn. rewrite X4, An. reflexivity.
  - intros Q. congruence.
  - intros W. exfalso. unfold wants_zu in W. cbn in W. rewrite X5, Az in W. discriminate.
  - intros dg Q. discriminate.
  - intros h rm R V. constructor; [|constructor; [|constructor]].
    + split; [exists KX; repeat split; auto; lia|]. split; [exact X2|]. split; [reflexivity|]. intros B. rewrite X2 in B. discriminate.
    + split; [reflexivity|]. split; [reflexivity|]. split; [right; exact Logic.I|exact R].
  - left. reflexivity.
  - exact K.
Qed.
Lemma wide_gen nm f opc d t1 c1 t2 c2 :
  (forall a, f a = opSSE_APX (Xmm d) (OMem a) t1 c1 t2 c2 NONE) -> xmm_arg (Xmm d) -> regno (Xmm d) mod 8 = d ->
  has t2 T_MUST_EVEX = true ->
  achkb (wide_row opc d) t2 c2 false 0 false false false = true -> has t2 T_ZU = false ->
  wide_says (mkWE nm f (wide_row opc d)).
Proof.
  intros Fn X Rd T C TZ s a env pos its rest u M Xr H. cbn [we_fun we_row] in *. rewrite Fn in H.
  apply sse_apx_ext in H; auto using xmm_low. destruct H as (i1 & -> & H). cbn [Z.eqb] in *. change (NONE =? NONE) with true in *. cbn iota in *.
  rewrite render_app. cbn [render]. pose proof X as (X1 & X2 & X3 & X4 & X5). pose proof (amem_nf a M) as (An & Az).
  eapply says1; try exact H; try exact C; try reflexivity.
  - exact M.
  - apply xmm_bits. exact X.
  - apply nf_wants; [discriminate|]. unfold wants_nf. cbn. rewrite An. reflexivity.
  - intros Q. congruence.
  - intros W. exfalso. unfold wants_zu in W. cbn in W. rewrite Az in W. discriminate.
  - intros dg Q. cbn in Q. congruence.
  - intros h rm R V. constructor; [|constructor]. split; [reflexivity|]. split; [reflexivity|]. split; [right; exact Logic.I|exact R].
  - left. reflexivity.
  - repeat constructor.
Qed.
Lemma key_gen nm f opc c1 c2 : (forall r q, f r q = opEncodeKey r q c1 c2) ->
  achkb (key_row opc) (T_MUST_EVEX ||| T_F3) c2 false 0 false false false = true ->
  key_says (mkKE nm f (key_row opc)).
Proof.
  intros Fn C s r q env pos its rest u Gr Br Gq Bq Nr Zr Nq Zq Xr H. cbn [ke_fun ke_row] in *. rewrite Fn in H. unfold opEncodeKey in H.
  assert (Lo : (getIdx r <? 8) && (getIdx q <? 8) = false).
  { rewrite !regno_getIdx. unfold ext_reg in Xr. apply andb_false_iff. destruct Xr as [Q|Q]; apply Z.leb_le in Q; [left|right]; apply Z.ltb_ge; lia. }
  rewrite Lo in H. ebind H i1 i2 b H1 H2. apply emits_ret in H2 as [-> _]. rewrite app_nil_r.
  destruct (opROO_result _ _ _ _ _ _ _ _ _ _ _ H1) as (Eb & _). change (has (T_MUST_EVEX ||| T_F3) T_MUST_EVEX) with true in Eb. cbn [orb] in Eb. subst b.
  rewrite <- (app_nil_r (render s i1)).
  eapply says1; try exact H1; try exact C; try reflexivity.
  - unfold size_b, isBit. rewrite Br. repeat split.
  - apply nf_wants; [discriminate|]. unfold wants_nf. cbn. rewrite Nr, Nq. reflexivity.
  - intros Q. discriminate Q.
  - intros W. exfalso. unfold wants_zu in W. cbn in W. rewrite Zr, Zq in W. discriminate.
  - intros dg Q. discriminate.
  - intros h rm R V. constructor; [|constructor; [|constructor]].
    + split; [exists KG; split; [reflexivity|exact Gr]|]. split; [exact Br|]. split; [reflexivity|]. intros B. rewrite Br in B. discriminate.
    + split; [exists KG; split; [reflexivity|exact Gq]|]. split; [exact Bq|]. split; [exact R|]. intros B. rewrite Bq in B. discriminate.
  - left. reflexivity.
  - repeat constructor.
Qed.
Lemma sse_table_ok : Forall sse_says sse_table.
Proof.
  unfold sse_table. repeat (constructor; [first
    [eapply (sse_gen _ _ _ _ _ _ _ _ _ false); [intros; reflexivity|reflexivity|reflexivity|vm_compute; reflexivity|reflexivity]
    |eapply (sse_gen _ _ _ _ _ _ _ _ _ true); [intros; reflexivity|reflexivity|reflexivity|vm_compute; reflexivity|reflexivity]]|]). constructor.
Qed.
Lemma wide_table_ok : Forall wide_says wide_table.
Proof.
  unfold wide_table. repeat (constructor; [eapply wide_gen; [intros; reflexivity|repeat split; cbn; lia|reflexivity|reflexivity|vm_compute; reflexivity|reflexivity]|]). constructor.
Qed.
Lemma key_table_ok : Forall key_says key_table.
Proof. unfold key_table. repeat (constructor; [eapply key_gen; [intros; reflexivity|vm_compute; reflexivity]|]). constructor. Qed.
