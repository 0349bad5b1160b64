(* Property theorems C47: operand modifiers and rip expressions (xbyak.h:639-653, 812-813, 879-881, 899-924, 1334-1335);
   with the vector conversions of C34 (927-962) and the Profiler histories of C45 (xbyak_util.h:1019-1150). *)
From Coq Require Import ZArith List Bool String Lia Permutation.
From Verif Require Import Base Types Emit SpecX86 SpecAddr Wf SpecReg RegFacts SpecMods ModsProofs CpuTopo SpecProf ProfProofs.
Import ListNotations.
Open Scope Z_scope.
Open Scope list_scope.

(* x | m1 | m2 | ...: exactly the attributes asked for, nothing else changed *)
Theorem C47_modifiers : forall r l env pos, plain r -> Forall modifier_ok l -> unambiguous l ->
  exists q, returns (decorate r l) env pos q /\ decorated r l q.
Proof. exact decorate_ok. Qed.
Print Assumptions C47_modifiers.
(* a second mask or rounding is refused *)
Theorem C47_twice : forall r l env pos, plain r -> Forall modifier_ok l -> env_noexc env = false -> ~ unambiguous l ->
  exists e, fails (decorate r l) env pos e /\ (e = ERR_OPMASK_IS_ALREADY_SET \/ e = ERR_ROUNDING_IS_ALREADY_SET).
Proof. exact decorate_bad. Qed.
Print Assumptions C47_twice.
(* the order does not matter *)
Theorem C47_order : forall r l l' env pos, plain r -> Forall modifier_ok l -> unambiguous l -> Permutation l l' ->
  decorate r l' env pos = decorate r l env pos.
Proof. exact decorate_order. Qed.
Print Assumptions C47_order.
(* zmm1 | k2 | T_z | T_ru_sae *)
Example C47_ex : let l := [MMask 2; MZero; MRound 3] in plain (Zmm 1) /\ Forall modifier_ok l /\ unambiguous l
  /\ returns (decorate (Zmm 1) l) env0 0 (mkReg 1 ZMM 512 true 2 3 false false) /\ ~ unambiguous (MMask 3 :: l).
Proof.
  cbn zeta. split; [split; reflexivity|]. split; [constructor; [cbn; lia|constructor; [cbn; auto|constructor; [cbn; lia|constructor]]]|].
  split; [split; cbn; lia|]. split; [reflexivity|]. intros [A _]. cbn in A. lia.
Qed.
(* k0 means no mask; in the no-exception build the first mask and rounding stay and the error is reported *)
Theorem C47_k0 : forall r env pos, 0 <= mask_ r < 8 -> mask_ r = 0 -> returns (orOpmask r (Opmask 0)) env pos r.
Proof. exact opmask0. Qed.
Print Assumptions C47_k0.
Theorem C47_first_stays : forall r k rc env pos, env_noexc env = true ->
  (mask_ r <> 0 -> orOpmask r k env pos = ([IErr ERR_OPMASK_IS_ALREADY_SET], Ok r))
  /\ (rounding_ r <> 0 -> orRounding r rc env pos = ([IErr ERR_ROUNDING_IS_ALREADY_SET], Ok r)).
Proof. intros r k rc env pos N. split; intros M; [exact (orOpmask_keep r k env pos M N)|exact (orRounding_keep r rc env pos M N)]. Qed.
Print Assumptions C47_first_stays.
(* memory operands: address, size and kind stay *)
Theorem C47_memory : forall a k env pos, mask_ (a_op a) = 0 -> 0 <= k <= 7 ->
  exists b, returns (addrOrOpmask a (Opmask k)) env pos b /\ mask_ (a_op b) = k
  /\ set_aop b (a_op a) = a /\ idx_ (a_op b) = idx_ (a_op a) /\ kind_ (a_op b) = kind_ (a_op a) /\ bit_ (a_op b) = bit_ (a_op a)
  /\ zero_ (a_op b) = zero_ (a_op a) /\ rounding_ (a_op b) = rounding_ (a_op a).
Proof. exact addr_mask. Qed.
Print Assumptions C47_memory.
Theorem C47_memory_twice : forall a k env pos, mask_ (a_op a) <> 0 -> env_noexc env = false ->
  fails (addrOrOpmask a k) env pos ERR_OPMASK_IS_ALREADY_SET.
Proof. exact addr_mask_bad. Qed.
Print Assumptions C47_memory_twice.
(* rip expressions: the numbers are added up, at most one label or pointer is kept *)
Theorem C47_rip : forall l env pos bit bc, (List.length (anchors l) <= 1)%nat ->
  exists q, returns (ripSum rip0 l) env pos q /\
  let a := addressRip bit bc q in
  same64 (e_disp (a_e a)) (numbers l) /\ a_broadcast a = bc
  /\ match anchors l with
     | [] => a_mode a = M_rip /\ a_label a = None
     | [ALabel h] => a_mode a = M_rip /\ a_label a = Some h
     | [APtr] => a_mode a = M_ripAddr /\ a_label a = None
     | _ => False
     end.
Proof. exact rip_operand. Qed.
Print Assumptions C47_rip.
Theorem C47_rip_two : forall l env pos, env_noexc env = false -> (List.length (anchors l) > 1)%nat ->
  fails (ripSum rip0 l) env pos ERR_BAD_ADDRESSING.
Proof. exact rip_bad. Qed.
Print Assumptions C47_rip_two.
(* rip + 8 + label - 3 *)
Example C47_rip_ex : returns (ripSum rip0 [RPlus 8; RLabel 7%nat; RMinus 3]) env0 0 (mkRip 5 (Some 7%nat) false)
  /\ anchors [RPlus 8; RLabel 7%nat; RMinus 3] = [ALabel 7%nat] /\ numbers [RPlus 8; RLabel 7%nat; RMinus 3] = 5
  /\ fails (ripSum rip0 [RLabel 7%nat; RPtr 4096]) env0 0 ERR_BAD_ADDRESSING.
Proof. repeat split. Qed.

(* cvt128, cvt256, cvt512 give the plain register of that width with the same number *)
Theorem C34_cvt_vector : forall r b env pos, vec_reg r -> In b vec_widths -> env_noexc env = false ->
  returns (vcvt b r) env pos (vec_of b (idx_ r)).
Proof. exact vcvt_vec. Qed.
Print Assumptions C34_cvt_vector.
Theorem C34_cvt_general_to_vector : forall r b env pos, gpr r -> In b vec_widths -> env_noexc env = false ->
  (is_high r -> fails (vcvt b r) env pos ERR_CANT_CONVERT)
  /\ (~ is_high r -> exists i, gpr_meaning r = BLow i /\ returns (vcvt b r) env pos (vec_of b i)).
Proof. exact vcvt_gpr. Qed.
Print Assumptions C34_cvt_general_to_vector.
Example C34_cvt_vector_ex : vec_reg (Xmm 17) /\ returns (cvt512 (Xmm 17)) env0 0 (Zmm 17) /\ returns (cvt256 (Reg8e 5)) env0 0 (Ymm 5).
Proof. repeat split; cbn; auto; lia. Qed.
(* changeBit() keeps the mask and the rounding of a vector register (C34_vector_registers), cvt128 .. cvt512 lose them *)
Theorem C34_cvt_mask_refuted : exists r, returns (orOpmask (Zmm 3) (Opmask 1)) env0 0 r /\ vec_reg r /\ mask_ r = 1
  /\ (exists q, returns (changeBit r 128) env0 0 q /\ mask_ q = 1) /\ (exists q, returns (cvt128 r) env0 0 q /\ mask_ q = 0)
  /\ (exists q, returns (cvt512 r) env0 0 q /\ mask_ q = 0).
Proof.
  eexists. split; [reflexivity|]. split; [split; [right; right; split; reflexivity|cbn; lia]|]. split; [reflexivity|].
  split; [|split]; eexists; split; reflexivity.
Qed.
Print Assumptions C34_cvt_mask_refuted.

(* Profiler: the lines of the perf map for any history of calls *)
Theorem C45_profiler_history : forall l, pf_lines (fold_left profCall_step l prof0) = map_lines [] l.
Proof. exact prof_history0. Qed.
Print Assumptions C45_profiler_history.
Example C45_profiler_history_ex :
  map_lines [] [PSet "a" 1 2; PInit 1 true; PSuffix "_x"; PStart 100; PSetEnd "f" 140; PClose; PSet "g" 1 2; PInit 1 true; PSet "gh" 7 8; PInit 0 true; PSet "i" 1 1]
  = [(100, 40, "f_x"%string); (7, 8, "gh_x"%string)].
Proof. reflexivity. Qed.
