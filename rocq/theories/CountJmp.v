(* The counting jumps loop, loope, loopne, jecxz and jrcxz (xbyak_mnemonic.h:662-670, 1858-1860): two-byte branches
   with an 8-bit displacement only. *)
From Coq Require Import ZArith List Bool Lia String.
From Verif Require Import Base Types Emit Encode State Code Label Gen Wp CodeFacts Append LabelFacts LabelInv LabelEmit SpecMem SpecLabel LabelHist
  LabelThms LabelThms2 LabelThms3 LabelThms4 Stable LabelThms5 Grow LabelThms6 LabelThms7 LabelThms8 MnemonicJmp EmitFacts.
Import ListNotations.
Open Scope Z_scope.

(* SDM vol. 2: LOOP E2 cb, LOOPE E1 cb, LOOPNE E0 cb, JRCXZ E3 cb, JECXZ 67 E3 cb; there is no form with a longer
   displacement *)
Definition count_table : list (list Z * (LabelRef -> M unit)) :=
  [([0xE2], i_loop); ([0xE1], i_loope); ([0xE0], i_loopne); ([0xE3], i_jrcxz); ([0x67; 0xE3], i_jecxz)].

Lemma short_only l sc s a t s1 :
  Inv s a -> isAutoGrowC (g_code s) && sp_ready a = false -> alive_ref a l -> lm_nextId (g_lm s) < 2147483647 ->
  tid_of a l = Some t -> c_size (g_code s) <= maxCode -> 0 <= sc < 256 ->
  opJmp l T_SHORT sc 0 0 s = Done s1 tt ->
  apps (g_code s) (g_code s1) [Some sc; None] /\ out_of_short (sp_defs a t) (c_size (g_code s)) = false.
Proof.
  intros HI Hf Ha Hn Ht Hm Hsc Hex.
  pose proof (opJmp_outcome l T_SHORT sc 0 0 s a t HI Hf Ha Hn Ht Hm ltac:(discriminate)) as O.
  pose proof (appends_opJmp l T_SHORT sc 0 0 s a t HI Hf Ha Hn Ht Hm) as H.
  unfold appends in H. rewrite Hex in O, H. destruct H as (H & _).
  assert (out_of_short (sp_defs a t) (c_size (g_code s)) = false) as F by (destruct (out_of_short _ _); auto; exfalso; now apply O).
  split; [|exact F].
  assert (takes_short (sp_defs a t) (g_jmpNear s) T_SHORT (c_size (g_code s)) = true) as TS.
  { unfold takes_short, out_of_short in *. destruct (sp_defs a t); [|now destruct (g_jmpNear s)].
    cbn [LabelType_beq negb andb]. now destruct (in8 _). }
  unfold jmp_pat in H. rewrite TS in H. unfold short_pat in H. assert (w8 sc = sc) as Ew by (apply Z.mod_small; lia). now rewrite Ew in H.
Qed.

(* one byte in front *)
Lemma prefix_step b s a s1 : Inv s a -> isAutoGrowC (g_code s) && sp_ready a = false -> lm_nextId (g_lm s) < 2147483647 -> runE (db b) s = Done s1 tt ->
  Inv s1 a /\ apps (g_code s) (g_code s1) [Some (w8 b)] /\ isAutoGrowC (g_code s1) = isAutoGrowC (g_code s) /\ g_lm s1 = g_lm s.
Proof.
  intros HI Hf Hn H. pose proof HI as (Hok & _).
  assert (exec (OpEmit (db b)) s = Done s1 tt) as X by exact H.
  assert (fst (db b (env_of s) (c_size (g_code s))) = [IDb (w8 b)]) as Hi by reflexivity.
  pose proof (step_ok (OpEmit (db b)) s a HI) as SO. unfold ids_left, wp in SO. rewrite X in SO.
  assert (Inv s1 a) as I1.
  { apply SO; auto.
    - cbn [legal]. rewrite Hi. repeat constructor.
    - cbn [mentions]. rewrite Hi. cbn [nput]. lia.
    - cbn [spec_step]. change (env_autoGrow (env_of s)) with (isAutoGrowC (g_code s)). rewrite Hf.
      cbn [db emit fst touch_items spec_items]. unfold db, emit. cbn. now destruct (_ <=? _). }
  split; [exact I1|].
  assert (runE (db b) s = mbind (dbM (w8 b)) (fun _ => mret tt) s) as E.
  { unfold runE, db, emit, exec_items, exec_item, mbind, mret. now destruct (dbM (w8 b) s). }
  pose proof (appends_dbM (w8 b) s Hok) as A. pose proof (wp_dbM (w8 b) s Hok) as W. unfold wp in W. unfold appends in A.
  rewrite H in E. unfold mbind, mret in E. destruct (dbM (w8 b) s) as [s2 []| |]; try discriminate. injection E as <-.
  destruct A as (A & _). destruct W as (c' & Hs & Hx & _). rewrite w8_idem in A. split; [exact A|]. subst s1. cbn.
  split; [|reflexivity]. unfold isAutoGrowC. now rewrite (ex_type _ _ Hx).
Qed.

Lemma count_bytes p l s a t s1 : In p count_table ->
  run s a -> isAutoGrowC (g_code s) && sp_ready a = false -> alive_ref a l -> lm_nextId (g_lm s) < 2147483647 ->
  tid_of a l = Some t -> c_size (g_code s) < maxCode -> snd p l s = Done s1 tt ->
  let n := Z.of_nat (List.length (fst p)) in
  c_size (g_code s1) = c_size (g_code s) + n + 1
  /\ mem_has (c_mem (g_code s1)) (c_size (g_code s)) (fst p)
  /\ out_of_short (sp_defs a t) (c_size (g_code s) + n - 1) = false.
Proof.
  intros HIn HR Hf Ha Hn Ht Hm Hex n. pose proof (run_inv _ _ HR) as HI.
  assert (forall sc, 0 <= sc < 256 -> n = 1 -> fst p = [sc] -> opJmp l T_SHORT sc 0 0 s = Done s1 tt ->
    c_size (g_code s1) = c_size (g_code s) + n + 1 /\ mem_has (c_mem (g_code s1)) (c_size (g_code s)) (fst p)
    /\ out_of_short (sp_defs a t) (c_size (g_code s) + n - 1) = false) as One.
  { intros sc Hsc -> -> H. destruct (short_only _ _ _ _ _ _ HI Hf Ha Hn Ht ltac:(lia) Hsc H) as ((_ & S1 & M1) & O).
    replace (c_size (g_code s) + 1 - 1) with (c_size (g_code s)) by lia. cbn in S1, M1 |- *. intuition lia. }
  unfold count_table in HIn. repeat (destruct HIn as [<-|HIn]; [try (eapply One; [| | |exact Hex]; [lia|reflexivity|reflexivity])|]); [|easy].
  clear One. cbn [fst snd] in *. unfold i_jecxz in Hex. unfold mbind in Hex.
  destruct (runE (db 103) s) as [s0 []| |] eqn:E; try discriminate.
  destruct (prefix_step _ _ _ _ HI Hf Hn E) as (I0 & (G0 & S0 & M0) & A0 & L0). rewrite <- A0 in Hf. rewrite <- L0 in Hn.
  pose proof HI as ((_ & Hw & _) & _). pose proof (cw_size0 _ Hw) as Hz.
  assert (c_size (g_code s0) = c_size (g_code s) + 1) as S0' by exact S0.
  destruct (short_only l 227 s0 a t s1 I0 Hf Ha Hn Ht ltac:(lia) ltac:(lia) Hex) as ((G1 & S1 & M1) & O).
  pose proof (apps_app _ _ _ [Some 103] [Some 227; None] Hz (conj G0 (conj S0 M0)) (conj G1 (conj S1 M1))) as (_ & S2 & M2).
  cbn in S2, M2 |- *. replace (c_size (g_code s) + 2 - 1) with (c_size (g_code s0)) by lia. intuition lia.
Qed.
