(* SSE instruction calls as statements of programs (SpecProg): they emit at most 15 bytes and no label fields. *)
From Coq Require Import ZArith List Bool String Lia.
From Verif Require Import Base Types Emit EmitFacts Encode Mnemonic SpecX86 SpecAddr SpecIsa SpecInsn SpecLeg SpecMix Wf SpecExec SpecVec SpecSse SpecSseRun SseIsa SpecMach SpecLen LenFacts PlainFacts ProgMach ProgInsn VecPlain LegShapes LegTables MixTables SseRun.
Import ListNotations.
Open Scope list_scope.
Open Scope Z_scope.

Lemma NP_opSSE r o t c v i : omodrm o -> NP (opSSE r o t c v i).
Proof. intros H. unfold opSSE. np. Qed.
#[global] Hint Resolve NP_opSSE : np.
Lemma NP_opMMX r o c t p i : omodrm o -> NP (opMMX r o c t p i).
Proof. apply NP_opSSE. Qed.
#[global] Hint Resolve NP_opMMX : np.
Definition plain_le (e : lentry) : Prop :=
  sse_named (le_name e) <> None -> forall ops imm act, le_fun e ops imm = Some act -> Forall omodrm ops -> within 15 act /\ NP act.
Definition plain_me (e : mentry) : Prop :=
  sse_named (me_name e) <> None -> forall ops imm act, me_fun e ops imm = Some act -> Forall omodrm ops -> within 15 act /\ NP act.
Ltac sl := match goal with |- plain_le ?e => unfold e | |- plain_me ?e => unfold e end; intros _ ops imm act H M; cbn [le_fun me_fun] in H; unfold ro, roi, f_ar, f_ra in H; ops_of H; inv_mod; (split; [len_of|np_of]).
Ltac sln := first [solve [let N := fresh in intros N; exfalso; apply N; vm_compute; reflexivity] | solve [sl]].
Lemma legacy_plain : Forall plain_le legacy_table. Proof. unfold legacy_table. repeat (apply Forall_cons; [sln|]); apply Forall_nil. Qed.
Lemma mix_plain : Forall plain_me mix_table. Proof. unfold mix_table. repeat (apply Forall_cons; [sln|]); apply Forall_nil. Qed.

(* the call of an SSE method, of a name in SseIsa, and its meaning *)
Inductive sinsn : E unit -> (st -> st) -> Prop :=
| S_call e q ops imm act : In e legacy_table -> sse_named (le_name e) = Some q -> le_fun e ops imm = Some act ->
    Forall2 larg_ok (le_sig e) ops -> Forall lbare ops -> not_mmx ops -> 0 <= imm < 256 -> sinsn act (smeans q imm ops)
| S_store e q ops imm act : In e mix_table -> sse_named (me_name e) = Some q -> me_fun e ops imm = Some act ->
    Forall2 marg_ok (me_sig e) ops -> Forall lbare ops -> 0 <= imm < 256 -> sinsn act (smeans q imm ops).
Lemma larg_modrm c o : larg_ok c o -> omodrm o.
Proof. destruct o as [r|a]; [intros; exact Logic.I|]. destruct c; cbn; intros H; try contradiction; apply mem_modrm; tauto. Qed.
Lemma marg_modrm c o : marg_ok c o -> omodrm o.
Proof.
  revert o. induction c; intros o; cbn; try (destruct o as [r|a]; [intros; exact Logic.I|]; intros H; try contradiction; apply mem_modrm; tauto).
  - intros [H|H]; auto.
  - intros [H _]; auto.
Qed.
Theorem sinsn_encoded m f : sinsn m f -> encoded m f.
Proof.
  intros H. destruct H as [e q ops imm act Hin N Hf Ha Hb Hn Hi|e q ops imm act Hin N Hf Ha Hb Hi]; intros env pos its u He.
  - assert (Forall omodrm ops) as Hm. { clear - Ha. induction Ha; constructor; eauto using larg_modrm. }
    pose proof legacy_plain as P. rewrite Forall_forall in P. destruct (P _ Hin ltac:(now rewrite N) ops imm act Hf Hm) as [H15 Hnp].
    split; [eapply Hnp; exact He|]. split; [eapply H15; exact He|]. intros s rest rip x. apply sexec_x.
    exact (sse_methods e q Hin N ops imm act Hf Ha Hb Hn Hi s env pos its rest u rip x He).
  - assert (Forall omodrm ops) as Hm. { clear - Ha. induction Ha; constructor; eauto using marg_modrm. }
    pose proof mix_plain as P. rewrite Forall_forall in P. destruct (P _ Hin ltac:(now rewrite N) ops imm act Hf Hm) as [H15 Hnp].
    split; [eapply Hnp; exact He|]. split; [eapply H15; exact He|]. intros s rest rip x. apply sexec_x.
    exact (sse_stores e q Hin N ops imm act Hf Ha Hb Hi s env pos its rest u rip x He).
Qed.
