(* Tactics for MixTables.v. *)
From Coq Require Import ZArith List Bool String Lia.
From Verif Require Import Base Types Emit Encode Mnemonic SpecX86 SpecAddr SpecIsa SpecInsn SpecLeg SpecMix Wf EmitFacts BitFacts MemFacts LegacyFacts VexFacts EncThms LegFacts LegShapes LegGpr LegGpr2 LegGpr3 SseFacts SseShapes.
Import ListNotations.
Open Scope Z_scope.

Ltac fnis := let H := fresh in intros r [q|a] imm act H; cbn in H; first [discriminate H | injection H as <-; reflexivity].
(* the entry as a pick over srcs *)
Ltac start := match goal with |- mimplements ?e => unfold e end.
Ltac dgt d b := start; eapply (e_dg _ _ _ _ d b); [reflexivity|vm_compute; reflexivity].
Ltac anyt vf i srcs := start; refine (e_any _ _ srcs _ _ i _ _ _ _ _ _ _ vf _ _); [fnis|vm_compute; reflexivity].
Ltac sset i srcs := start;
  match goal with |- mimplements (mkME _ [?a; ?b] _ _) =>
    match srcs with
    | [SReg; SRm] => refine (e_sse _ _ srcs a b _ i _ _ _ _ _)
    | [SRm; SReg] => refine (e_sse _ _ srcs b a _ i _ _ _ _ _)
    end end; [fnis|vm_compute; reflexivity].
Ltac fnis2 := let H := fresh in intros r [q|a] imm act H; cbn in H; first [discriminate H | injection H as <-; reflexivity].
Definition on_mem (f : Address -> Reg -> E unit) : Reg -> Operand -> Z -> E unit :=
  fun r op _ => match op with OMem a => f a r | OReg _ => throw ERR_INTERNAL end.
Definition on_reg (f : Reg -> Reg -> E unit) : Reg -> Operand -> Z -> E unit :=
  fun r op _ => match op with OReg q => f r q | OMem _ => throw ERR_INTERNAL end.
Ltac st16 f := start;
  match goal with |- mimplements (mkME _ [?a; ?b] _ _) =>
    refine (e_stand _ _ [SRm; SReg] a _ (@None bool) (Some 16) T_0F _ (fun r => regOf (getIdx r) REG 16 false) (on_mem f) _ _ _) end;
  [fnis2
  |intros r [q|a] imm env pos its u V M H; [contradiction|]; cbn [on_mem] in H; unfold f in H; apply emits_fn in H;
   rewrite regno_getIdx in H; destruct (16 <=? regno r) eqn:Q; [einv H|]; rewrite <- regno_getIdx in H;
   pose proof (regno_range r); split; [lia|]; split; [apply stands_gpr; auto; lia|exact H]
  |vm_compute; reflexivity].
Lemma vec_xmm_bit r : vec_reg r /\ kind_ r = XMM -> bit_ r = 128.
Proof. intros [[[[K B]|[[K B]|[K B]]] _] K']; auto; rewrite K in K'; discriminate K'. Qed.
Lemma valid_xmm i : 0 <= i < 32 -> isValidSSE (OReg (Xmm i)) = true -> i < 16.
Proof.
  intros R V. unfold isValidSSE, oXMM, isXMM, is_, ogetIdx in V. cbn [ob] in V. rewrite regno_getIdx in V. cbn in V.
  unfold regno, Xmm, regOf in V. cbn [idx_] in V. rewrite Z.lor_0_r, (Z.mod_small i 64), (Z.mod_small i 32) in V by lia. lia.
Qed.
Ltac stx f := start;
  match goal with |- mimplements (mkME _ [?a; ?b] _ _) =>
    refine (e_stand _ _ [SRm; SReg] a _ (@None bool) None T_0F _ (fun r => Xmm (getIdx r)) (on_mem f) _ _ _) end;
  [fnis2
  |intros r [q|a] imm env pos its u V M H; [contradiction|]; cbn [on_mem] in H; unfold f in H;
   let R := fresh in assert (R : regno r < 16);
   [apply (opSSE_split (fun _ _ _ => 0)) in H as (_ & V1 & _); rewrite regno_getIdx in V1; apply valid_xmm in V1; [exact V1|apply regno_range]
   |split; [exact R|]; split; [destruct (stands_xmm r R) as [X|X]; [exact X|exfalso; apply X; now apply vec_xmm_bit]|exact H]]
  |vm_compute; reflexivity].
(* methods that only check their operands *)
Ltac ifs H := repeat match type of H with emits (if ?c then _ else _) _ _ _ _ => destruct c eqn:?; [einv H|] end.
Ltac chk2 i srcs act := start;
  match goal with |- mimplements (mkME _ [?a; ?b] _ _) =>
    match srcs with
    | [SReg; SRm] => refine (e_sse2 _ _ srcs a b _ i _ _ _ act _ _ _)
    | [SRm; SReg] => refine (e_sse2 _ _ srcs b a _ i _ _ _ act _ _ _)
    end end;
  [fnis2
  |intros r [q|a] imm env pos its u A1 A2 H; try contradiction; cbn [on_mem on_reg] in H; apply emits_fn in H; ifs H; exact H
  |vm_compute; reflexivity].
Lemma emits_ret_bind (k : E unit) env pos its u : emits (ret tt ;;; k) env pos its u -> emits k env pos its u.
Proof. intros H. ebind H i1 i2 x Hd Hs. apply emits_ret in Hd as [-> _]. cbn [app items_size] in *. rewrite Z.add_0_r in Hs. exact Hs. Qed.
Lemma aX_is r : marg_ok aX (OReg r) -> isXMM r = true.
Proof. intros [_ K]. unfold isXMM, is_. rewrite K. reflexivity. Qed.
Lemma aMm_is r : marg_ok aMm (OReg r) -> isXMM r = false.
Proof. intros (K & _). unfold isXMM, is_. rewrite K. reflexivity. Qed.
Definition np_of (rows : list lrow) : lrow := set_pp NP (last rows (mkL NP 0 0 true None [] OsN I_none)).
Definition on_op (f : Reg -> Operand -> E unit) : Reg -> Operand -> Z -> E unit := fun r op _ => f r op.
Definition op_on (f : Operand -> Reg -> E unit) : Reg -> Operand -> Z -> E unit := fun r op _ => f op r.
Definition reg_on (f : Reg -> Reg -> E unit) : Reg -> Operand -> Z -> E unit :=
  fun r op _ => match op with OReg q => f q r | OMem _ => throw ERR_INTERNAL end.
Ltac isx A := let Q := fresh in first [pose proof (aX_is _ A) as Q | pose proof (aMm_is _ A) as Q].
Ltac rwx H := match goal with Q : isXMM _ = _ |- _ => rewrite Q in H end.
Ltac opened f H := cbn [on_mem on_reg on_op op_on reg_on] in H; unfold f in H; try apply emits_fn in H; ifs H.
Ltac half_plain f i srcs a b act := refine (e_sse2 _ _ srcs a b _ i _ _ None act _ _ _);
  [fnis2|intros r op imm env pos its u A1 A2 H; isx A1; (destruct op as [q|ad]; try contradiction); opened f H; rwx H; apply emits_ret_bind in H; exact H|vm_compute; reflexivity].
Ltac half_pre p byte f i srcs a b act :=
  match goal with |- mimplements (mkME _ _ _ ?rows) => let row0 := eval vm_compute in (np_of rows) in
  refine (e_pre p row0 _ _ srcs a b _ i _ _ None act _ _ _ _ _ _) end;
  [fnis2|intros r op imm env pos its u A1 A2 H; isx A1; exists byte; split; [reflexivity|]; (destruct op as [q|ad]; try contradiction); opened f H; rwx H; exact H
  |vm_compute; reflexivity|reflexivity|reflexivity|cbn; auto].
Ltac orp p byte f i srcs act := start;
  match srcs with
  | [SReg; SRm] => match goal with |- mimplements (mkME _ [_; ?c] _ _) => apply mi_or1; [half_plain f i srcs aMm c act|half_pre p byte f i srcs aX c act] end
  | [SRm; SReg] => match goal with |- mimplements (mkME _ [?c; _] _ _) => apply mi_or2; [half_plain f i srcs aMm c act|half_pre p byte f i srcs aX c act] end
  end.
Ltac movqt f := start;
  apply mi_or1; (apply mi_or2; [apply mi_or2|]);
  [ half_plain f (@None bool) [SReg; SRm] aMm aMm (on_op f)
  | refine (e_vac _ _ [SReg; SRm] aMm aX _ (on_op f) _ _ _ _); [fnis2|reflexivity|reflexivity|
      intros r [q|ad] imm env pos its u A1 A2 H; [|contradiction]; cbn [on_op] in H; unfold f in H; apply emits_fn in H; destruct A1 as [K1 _]; destruct A2 as [_ K2]; cbn [ob isMEM] in H; rewrite K1, K2 in H; ifs H; discriminate]
  | match goal with |- mimplements (mkME _ [_; ?c] _ _) => half_plain f (@None bool) [SReg; SRm] aMm c (on_op f) end
  | refine (e_vac _ _ [SReg; SRm] aX aMm _ (on_op f) _ _ _ _); [fnis2|reflexivity|reflexivity|
      intros r [q|ad] imm env pos its u A1 A2 H; [|contradiction]; cbn [on_op] in H; unfold f in H; apply emits_fn in H; destruct A1 as [_ K1]; destruct A2 as [K2 _]; cbn [ob isMEM] in H; rewrite K1, K2 in H; ifs H; discriminate]
  | half_pre PF3 0xF3 f (@None bool) [SReg; SRm] aX aX (on_op f)
  | match goal with |- mimplements (mkME _ [_; ?c] _ _) => half_pre PF3 0xF3 f (@None bool) [SReg; SRm] aX c (on_op f) end ].
(* the same with the register class of the other operand *)
Ltac half_plain2 f i srcs a b act := refine (e_sse2 _ _ srcs a b _ i _ _ None act _ _ _);
  [fnis2|intros r op imm env pos its u A1 A2 H; (destruct op as [q|ad]; try contradiction); isx A2; opened f H; rwx H; apply emits_ret_bind in H; exact H|vm_compute; reflexivity].
Ltac half_pre2 p byte f i srcs a b act :=
  match goal with |- mimplements (mkME _ _ _ ?rows) => let row0 := eval vm_compute in (np_of rows) in
  refine (e_pre p row0 _ _ srcs a b _ i _ _ None act _ _ _ _ _ _) end;
  [fnis2|intros r op imm env pos its u A1 A2 H; exists byte; split; [reflexivity|]; (destruct op as [q|ad]; try contradiction); try isx A2; opened f H; try (rwx H); exact H
  |vm_compute; reflexivity|reflexivity|reflexivity|cbn; auto].
Ltac orq p byte f i srcs act := start;
  match goal with |- mimplements (mkME _ [?c; _] _ _) => apply mi_or2; [half_plain2 f i srcs c aMm act|half_pre2 p byte f i srcs c aX act] end.
Ltac prt p byte f i srcs act := start;
  match goal with |- mimplements (mkME _ [?c1; ?c2] _ _) => half_pre2 p byte f i srcs c1 c2 act end.
Definition on_opi (f : Reg -> Operand -> Z -> E unit) : Reg -> Operand -> Z -> E unit := fun r op imm => f r op imm.
Definition op_oni (f : Operand -> Reg -> Z -> E unit) : Reg -> Operand -> Z -> E unit := fun r op imm => f op r imm.
Ltac pwt f := start;
  match goal with |- mimplements (mkME _ [?a; ?b] _ _) =>
    refine (e_sse2 _ _ [SReg; SRm] a b _ (Some false) _ _ None (on_opi f) _ _ _) end;
  [fnis2
  |intros r [q|ad] imm env pos its u A1 A2 H; isx A1; cbn [on_opi] in H; unfold f in H; apply emits_fn in H; cbv zeta in H; ifs H; rwx H; exact H
  |vm_compute; reflexivity].
Ltac st64 f srcs act := start;
  match goal with |- mimplements (mkME _ [?a; ?b] _ _) =>
    let c2 := match srcs with [SReg; SRm] => b | [SRm; SReg] => a end in
    refine (e_stand _ _ srcs c2 _ (Some true) (Some 64) (T_66 ||| T_0F3A) _ (fun r => regOf (getIdx r) REG 64 false) act _ _ _) end;
  [fnis2
  |intros r op imm env pos its u V M H; cbn [on_opi op_oni] in H; unfold f in H; apply emits_fn in H; cbv zeta in H; ifs H;
   let R := fresh in assert (R : regno r < 16);
   [apply (opSSE_split (fun _ _ _ => 0)) in H as (_ & _ & _ & n & i1 & H & _); apply opRO_call in H as (op' & _ & H & _);
    [destruct (regno16 r) as [R|R]; [exact R|exfalso; eapply call_rex2; [|exact R|exact H]; reflexivity]
    |destruct op; [exact Logic.I|destruct M as [M|M]; [contradiction|apply M]]]
   |pose proof (regno_range r); split; [exact R|]; split; [apply stands_gpr; auto; lia|exact H]]
  |vm_compute; reflexivity].
Ltac ext f := start;
  match goal with |- mimplements (mkME _ [?a; ?b] _ _) => refine (e_sse2 _ _ [SRm; SReg] b a _ (Some true) _ _ (Some isXMM_REG32orMEM) (op_oni f) _ _ _) end;
  [fnis2
  |intros r op imm env pos its u A1 A2 H; cbn [op_oni] in H; unfold f, opExt in H; cbv zeta in H; apply emits_fn in H; cbn [andb] in H; ifs H; exact H
  |vm_compute; reflexivity].
