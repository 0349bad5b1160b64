(* Boolean versions of the operand conditions of SpecInsn.v, used to exhibit instances. *)
From Coq Require Import ZArith List Bool Lia.
From Verif Require Import Base Types Emit SpecAddr SpecIsa Wf SpecInsn.
Import ListNotations.
Open Scope Z_scope.

Definition bareb (r : Reg) := (mask_ r =? 0) && (rounding_ r =? 0) && negb (zero_ r).
Definition mods_okb (r : Reg) := (0 <=? mask_ r) && (mask_ r <? 8) && (0 <=? rounding_ r) && (rounding_ r <? 6).
Definition mem_okb (a : Address) : bool :=
  wf_modrmb a && (disp8N a =? 0) && negb (permitVsib a) && bareb (e_base (a_e a)) && bareb (e_index (a_e a))
  && (0 <=? mask_ (a_op a)) && (mask_ (a_op a) <? 8) && existsb (Z.eqb (bit_ (a_op a))) [0; 8; 16; 32; 64; 128; 256; 512].
Definition gprb (r : Reg) : bool :=
  (kind_ r =? REG) && ((((bit_ r =? 8) || (bit_ r =? 16) || (bit_ r =? 32) || (bit_ r =? 64)) && (0 <=? idx_ r) && (idx_ r <? 32))
    || ((bit_ r =? 8) && (36 <=? idx_ r) && (idx_ r <? 40))).
Definition opmaskb (r : Reg) : bool := (kind_ r =? OPMASK) && (bit_ r =? 64) && (0 <=? idx_ r) && (idx_ r <? 8).
Definition tmmb (r : Reg) : bool := (kind_ r =? TMM) && (bit_ r =? 8192) && (0 <=? idx_ r) && (idx_ r <? 8).
Definition arg_okb (c : cls) (o : Operand) : bool :=
  match c, o with
  | cX, OReg r => vec_regb r && mods_okb r
  | cY, OReg r => vec_regb r && mods_okb r && (256 <=? bit_ r)
  | cZ, OReg r => vec_regb r && mods_okb r && (bit_ r =? 512)
  | cK, OReg r => opmaskb r && mods_okb r
  | cR w, OReg r => gprb r && bareb r && (bit_ r =? w)
  | cRe, OReg r => gprb r && bareb r && ((bit_ r =? 32) || (bit_ r =? 64))
  | cX4, OReg r => vec_regb r && bareb r && (regno r <? 16)
  | cT, OReg r => tmmb r && bareb r
  | cG w, OReg r => gprb r && bareb r && (bit_ r =? w) && (regno r <? 16)
  | cMs w, OMem a => mem_okb a && (bit_ (a_op a) =? w)
  | cMn w, OMem a => mem_okb a && negb (bit_ (a_op a) =? w)
  | cO, OReg r => (vec_regb r && mods_okb r) || (gprb r && bareb r)
  | cO, OMem a | cA, OMem a => mem_okb a
  | _, _ => false
  end.
Lemma bareb_ok r : bareb r = true -> bare r.
Proof. unfold bareb, bare. destruct (zero_ r); cbn; lia. Qed.
Lemma mods_okb_ok r : mods_okb r = true -> mods_ok r.
Proof. unfold mods_okb, mods_ok. lia. Qed.
Lemma gprb_ok r : gprb r = true -> gpr r.
Proof. unfold gprb, gpr. lia. Qed.
Lemma opmaskb_ok r : opmaskb r = true -> opmask_reg r.
Proof. unfold opmaskb, opmask_reg. lia. Qed.
Lemma tmmb_ok r : tmmb r = true -> tmm_reg r.
Proof. unfold tmmb, tmm_reg. lia. Qed.
Lemma mem_okb_ok a : mem_okb a = true -> mem_ok a.
Proof.
  unfold mem_okb. intros H. do 7 apply andb_prop in H as [H ?]. constructor; auto using wf_modrmb_ok, bareb_ok; try lia.
  - now apply negb_true_iff.
  - apply existsb_exists in H0 as (x & I & E). apply Z.eqb_eq in E. now rewrite E.
Qed.
Lemma arg_okb_ok c o : arg_okb c o = true -> arg_ok c o.
Proof.
  destruct c, o; cbn [arg_okb arg_ok]; try discriminate; intros H; try (apply mem_okb_ok; exact H);
  try (apply orb_prop in H as [H|H]; [left|right]);
  repeat match goal with Q : _ && _ = true |- _ => apply andb_prop in Q as [? ?] end;
  auto 6 using vec_regb_ok, mods_okb_ok, gprb_ok, opmaskb_ok, tmmb_ok, bareb_ok, mem_okb_ok;
  repeat match goal with |- _ /\ _ => split end; try (apply vec_regb_ok || apply mods_okb_ok || apply gprb_ok || apply opmaskb_ok || apply tmmb_ok || apply bareb_ok || apply mem_okb_ok); auto; lia.
Qed.
Fixpoint args_okb (cs : list cls) (ops : list Operand) : bool :=
  match cs, ops with [], [] => true | c :: cs, o :: ops => arg_okb c o && args_okb cs ops | _, _ => false end.
Lemma args_okb_ok cs ops : args_okb cs ops = true -> Forall2 arg_ok cs ops.
Proof.
  revert ops. induction cs as [|c cs IH]; intros [|o ops] H; cbn in H; try discriminate; constructor.
  - apply andb_prop in H. now apply arg_okb_ok.
  - apply andb_prop in H. now apply IH.
Qed.
Lemma one_mask_none ops : forallb (fun o => match o with OMem a => mask_ (a_op a) =? 0 | _ => true end) ops = true -> one_mask ops.
Proof. intros H a o I M. rewrite forallb_forall in H. specialize (H _ I). cbn in H. lia. Qed.
