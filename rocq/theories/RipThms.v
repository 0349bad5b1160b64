(* Rip-relative operands, from the call to the finished code. *)
From Coq Require Import ZArith List Bool Lia.
From Verif Require Import Base Types SpecX86 Emit EmitFacts Encode State Code Label Gen Wp CodeFacts Append LabelFacts LabelInv LabelEmit SpecMem SpecLabel LabelHist LabelThms LabelThms2 LabelThms3 LabelThms4 LabelThms5 LabelThms6 LabelThms7 LabelThms8 SpecRip.
Import ListNotations.
Open Scope Z_scope.

Lemma label_field_app pre l d post : label_field (map IDb pre ++ IPutL l true d :: post) = Some (Z.of_nat (length pre)).
Proof.
  induction pre as [|b pre IH]; cbn [map app label_field]; auto. rewrite IH. f_equal. cbn [length items_size item_size]. lia.
Qed.
Lemma pat_items_app l1 l2 : pat_items (l1 ++ l2) = pat_items l1 ++ pat_items l2.
Proof. unfold pat_items. apply flat_map_app. Qed.
Lemma pat_items_db l : length (pat_items (map IDb l)) = length l.
Proof. induction l as [|b l IH]; cbn; auto. Qed.

Lemma emit_ok m s s1 : exec (OpEmit m) s = Done s1 tt -> exists its, m (env_of s) (c_size (g_code s)) = (its, Ok tt).
Proof.
  cbn [exec]. unfold runE. destruct (m _ _) as [its r]. unfold mbind. destruct (exec_items its s) as [s' []|s' e|]; try discriminate.
  destruct r as [[]|e]; [eauto|discriminate].
Qed.
Lemma emit_size m s s1 its : ok_st s -> exec (OpEmit m) s = Done s1 tt -> m (env_of s) (c_size (g_code s)) = (its, Ok tt) ->
  c_size (g_code s1) = c_size (g_code s) + Z.of_nat (length (pat_items its)).
Proof.
  intros Hok H E. pose proof (appends_runE m s Hok) as A. cbn [exec] in H. unfold appends in A. rewrite H, E in A. apply A.
Qed.

Theorem reference_lands s a x m l s1 a1 os s2 a2 t o os' s3 a3 :
  run s a -> refers x m -> a_label x = Some l ->
  exec (OpEmit m) s = Done s1 tt -> shistory s a [OpEmit m] s1 a1 -> tid_of a (LObj l) = Some t ->
  shistory s1 a1 os s2 a2 -> no_reset os -> sp_defs a2 t = Some o ->
  shistory s2 a2 os' s3 a3 -> no_reset os' -> finished s3 a3 ->
  exists f, label_field (fst (m (env_of s) (c_size (g_code s)))) = Some f
    /\ 0 <= f /\ c_size (g_code s) + f + 4 <= c_size (g_code s1)
    /\ rip_target (g_code s3) (c_size (g_code s) + f) (c_size (g_code s1)) = w64 (c_top (g_code s3) + o + getDisp x).
Proof.
  intros HR Hx Hl Hex Hsh Ht Hos Hnr Hd Hos' Hnr' Hf.
  destruct (run_inv _ _ HR) as [Hok _].
  destruct (emit_ok _ _ _ Hex) as (its & E).
  assert (Em : emits m (env_of s) (c_size (g_code s)) its tt) by (split; [apply Hok|exact E]).
  destruct (Hx _ _ _ _ Em) as (pre & post & Hits). rewrite Hl in Hits. rewrite Z.add_0_r in Hits.
  pose proof (emit_size m s s1 its Hok Hex E) as Hs. subst its.
  pose proof (field_lands s a m s1 a1 pre _ true _ _ _ os s2 a2 t o os' s3 a3 HR Hex Hsh E Ht Hos Hnr Hd Hos' Hnr' Hf) as T. cbn zeta iota in T.
  rewrite pat_items_app, app_length, pat_items_db in Hs. cbn [pat_items flat_map pat_item] in Hs. rewrite app_length, repeat_length in Hs.
  fold (pat_items (map IDb post)) in Hs. rewrite pat_items_db in Hs. cbn [putSize] in Hs.
  exists (Z.of_nat (length pre)). rewrite E. cbn [fst]. rewrite label_field_app. repeat split; [lia|lia|].
  unfold rip_target. unfold branch_target in T. rewrite Hs. clear -T.
  set (v := SpecMem.read_signed _ _ _) in *. set (n := Z.of_nat (length post)) in *. set (p := Z.of_nat (length pre)) in *.
  unfold w64 in *.
  replace (c_top (g_code s3) + (c_size (g_code s) + Z.of_nat (length pre + (4 + length post))) + v)
    with ((c_top (g_code s3) + (c_size (g_code s) + p + 4) + v) + n) by lia.
  rewrite <- Zplus_mod_idemp_l. rewrite T. rewrite Zplus_mod_idemp_l.
  rewrite <- Z.add_assoc, (Z.add_comm (_ mod _) n), Z.add_assoc, Zplus_mod_idemp_r. f_equal. lia.
Qed.

From Verif Require Import Mnemonic MnemonicAvx RipFacts.
Lemma rip_parts bit bc n l b : let a := addressRip bit bc (mkRip n l b) in
  kind_ (a_op a) = MEM /\ 0 <= bit_ (a_op a) /\ NF_ (a_op a) = false /\ ZU_ (a_op a) = false /\ immSize a = 0 /\ a_e a = regExpDisp (getDisp a).
Proof.
  intros a. split; [reflexivity|]. split; [apply Z.mod_pos_bound; reflexivity|]. split; [reflexivity|]. split; [reflexivity|]. split; [reflexivity|].
  subst a. unfold addressRip, getDisp, regExpDisp. cbn [a_e e_disp rip_disp]. f_equal. unfold w64. now rewrite Z.mod_mod.
Qed.
Lemma rip_label_operand bit bc n l : rip_mem (addressRip bit bc (mkRip n (Some l) false)).
Proof. destruct (rip_parts bit bc n (Some l) false) as (A & B & C & D & F & G). unfold rip_mem. repeat (split; [assumption|]). left. split; [reflexivity|discriminate]. Qed.
Lemma rip_address_operand bit bc n : rip_mem (addressRip bit bc (mkRip n None true)).
Proof. destruct (rip_parts bit bc n None true) as (A & B & C & D & F & G). unfold rip_mem. repeat (split; [assumption|]). now right. Qed.
Lemma shift_by_one a d ext : rip_mem a -> refers a (opShift (OMem a) 1 ext (Some d)).
Proof. intros Ha. apply R_refers. now apply shift1_R. Qed.
Lemma ext2_small r : 0 <= getIdx r < 16 -> isExtIdx2 r = false.
Proof.
  intros H. unfold isExtIdx2. assert (In (getIdx r) (map Z.of_nat (seq 0 16))) as J.
  { apply in_map_iff. exists (Z.to_nat (getIdx r)). split; [lia|apply in_seq; lia]. }
  revert J. generalize (getIdx r). apply Forall_forall. cbn [seq map]. repeat (apply Forall_cons; [reflexivity|]). apply Forall_nil.
Qed.
Lemma rorx_legacy a r imm : rip_mem a -> 0 <= getIdx r < 16 -> NF_ r = false -> refers a (i_rorx r (OMem a) imm).
Proof.
  intros Ha Hi Hn. apply R_refers. unfold i_rorx. cbv zeta. apply rro_imm_R; auto.
  cbn [hasRex2]. unfold regHasRex2. now rewrite (ext2_small _ Hi), andb_false_r.
Qed.

Lemma split_unique pre : forall pre' l d post l' d' post',
  map IDb pre ++ IPutL l true d :: post = map IDb pre' ++ IPutL l' true d' :: post' -> d = d' /\ post = post'.
Proof.
  induction pre as [|b pre IH]; intros [|b' pre'] l d post l' d' post' H; cbn [map app] in H; try discriminate.
  - now inversion H.
  - inversion H. eauto.
Qed.
Fixpoint addend (its : list item) : option (Z * Z) :=
  match its with [] => None | IPutL _ true d :: post => Some (d, Z.of_nat (length post)) | _ :: l => addend l end.
Lemma reference_addend a l start its : a_label a = Some l -> reference a start its 0 -> match addend its with Some (d, n) => d = w64 (getDisp a - n) | None => False end.
Proof.
  intros Hl (pre & post & H). rewrite Hl in H. subst its.
  induction pre as [|b pre IH]; cbn [map app addend]; auto. now rewrite map_length, Z.add_0_r.
Qed.
Definition env0 := mkEnv false 0x1000 false false DefaultEncoding DefaultEncoding.
Definition misses (a : Address) (m : E unit) : bool :=
  match m env0 0 with
  | (its, Ok tt) => match addend its with Some (d, n) => negb (d =? w64 (getDisp a - n)) | None => false end
  | _ => false end.
Lemma misses_not a l m : a_label a = Some l -> misses a m = true -> ~ refers a m.
Proof.
  intros Hl H Hr. unfold misses in H. destruct (m env0 0) as [its [[]|e]] eqn:J; [|discriminate].
  assert (K : emits m env0 0 its tt) by (split; [reflexivity|exact J]). apply Hr in K. apply (reference_addend _ _ _ _ Hl) in K.
  destruct (addend its) as [[d n]|]; [|discriminate]. apply Z.eqb_eq in K. now rewrite K in H.
Qed.
Definition rx : Address := addressRip 64 false (mkRip 16 (Some 5%nat) false).
Lemma shift_destination ext imm : In ext [2; 3; 8; 9; 12; 13; 15] -> In imm [2; 3; 63] ->
  rip_mem rx /\ ~ refers rx (opShift (OMem rx) imm ext (Some (Reg64 0))).
Proof.
  intros He Hi. split; [apply rip_label_operand|]. apply (misses_not _ 5%nat); auto.
  assert (X : forallb (fun e => forallb (fun i => misses rx (opShift (OMem rx) i e (Some (Reg64 0)))) [2; 3; 63]) [2; 3; 8; 9; 12; 13; 15] = true) by (vm_compute; reflexivity).
  rewrite forallb_forall in X. specialize (X _ He). cbv beta in X. rewrite forallb_forall in X. exact (X _ Hi).
Qed.
Lemma rorx_extended : rip_mem rx /\ ~ refers rx (i_rorx (Reg64 16) (OMem rx) 3).
Proof. split; [apply rip_label_operand|]. apply (misses_not _ 5%nat); auto. Qed.
