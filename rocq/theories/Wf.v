(* Operands as the public API can build them (register objects with their class invariants,
   address expressions over 32/64-bit general registers and vector indexes). *)
From Coq Require Import ZArith List Bool Lia.
From Verif Require Import Base Types.
Import ListNotations.
Open Scope Z_scope.

Definition no_reg (r : Reg) : Prop := kind_ r = 0 /\ bit_ r = 0 /\ idx_ r = 0.
(* r0..r31 as 32- or 64-bit registers *)
Definition addr_gpr (r : Reg) : Prop :=
  kind_ r = REG /\ (bit_ r = 32 \/ bit_ r = 64) /\ 0 <= idx_ r < 32.
(* xmm/ymm/zmm 0..31 *)
Definition vec_reg (r : Reg) : Prop :=
  ((kind_ r = XMM /\ bit_ r = 128) \/ (kind_ r = YMM /\ bit_ r = 256) \/ (kind_ r = ZMM /\ bit_ r = 512))
  /\ 0 <= idx_ r < 32.
(* general purpose registers of any width; idx_ >= 32 are spl, bpl, sil, dil *)
Definition gpr (r : Reg) : Prop :=
  kind_ r = REG /\
  (((bit_ r = 8 \/ bit_ r = 16 \/ bit_ r = 32 \/ bit_ r = 64) /\ 0 <= idx_ r < 32)
   \/ (bit_ r = 8 /\ 36 <= idx_ r < 40)).
Definition mmx_reg (r : Reg) : Prop := kind_ r = MMX /\ bit_ r = 64 /\ 0 <= idx_ r < 8.
Definition opmask_reg (r : Reg) : Prop := kind_ r = OPMASK /\ bit_ r = 64 /\ 0 <= idx_ r < 8.
Definition tmm_reg (r : Reg) : Prop := kind_ r = TMM /\ bit_ r = 8192 /\ 0 <= idx_ r < 8.
Definition bnd_reg (r : Reg) : Prop := kind_ r = BNDREG /\ bit_ r = 128 /\ 0 <= idx_ r < 4.
Definition fpu_reg (r : Reg) : Prop := kind_ r = FPU /\ bit_ r = 32 /\ 0 <= idx_ r < 8.

Definition scale_ok (s : Z) : Prop := s = 1 \/ s = 2 \/ s = 4 \/ s = 8.

(* an address expression [base + index * scale + disp] *)
Record wf_regexp (e : RegExp) : Prop := {
  wf_base : no_reg (e_base e) \/ addr_gpr (e_base e);
  wf_index : no_reg (e_index e) \/ ((addr_gpr (e_index e) \/ vec_reg (e_index e)) /\ scale_ok (e_scale e));
  wf_disp : 0 <= e_disp e < 18446744073709551616
}.
(* what RegExp::verify() accepts *)
Record verified (e : RegExp) : Prop := {
  ver_sp : addr_gpr (e_index e) -> getIdx (e_index e) <> 4;
  ver_size : addr_gpr (e_index e) -> addr_gpr (e_base e) -> bit_ (e_base e) = bit_ (e_index e)
}.
(* memory operands in the ModRM form *)
Record wf_modrm (a : Address) : Prop := {
  wm_mode : a_mode a = M_ModRM;
  wm_e : wf_regexp (a_e a);
  wm_ver : verified (a_e a);
  wm_kind : kind_ (a_op a) = MEM
}.

(* modifiers: {k1}..{k7}, {rn-sae}..{rz-sae}, {sae} *)
Definition mods_ok (r : Reg) : Prop := 0 <= mask_ r < 8 /\ 0 <= rounding_ r <= 5.
(* modifiers are never written on the registers of an address expression *)
Definition bare (r : Reg) : Prop := mask_ r = 0 /\ rounding_ r = 0 /\ zero_ r = false.
Record mem_ok (a : Address) : Prop := {
  mo_wf : wf_modrm a;
  mo_d8 : disp8N a = 0;
  mo_vsib : permitVsib a = false;
  mo_base : bare (e_base (a_e a));
  mo_index : bare (e_index (a_e a));
  mo_mask : 0 <= mask_ (a_op a) < 8;
  (* xbyak.h:3356-3357: the sizes of the address frames *)
  mo_size : In (bit_ (a_op a)) [0; 8; 16; 32; 64; 128; 256; 512]
}.

(* boolean version, used to exhibit instances *)
Definition no_regb (r : Reg) := (kind_ r =? 0) && (bit_ r =? 0) && (idx_ r =? 0).
Definition addr_gprb (r : Reg) := (kind_ r =? REG) && ((bit_ r =? 32) || (bit_ r =? 64)) && (0 <=? idx_ r) && (idx_ r <? 32).
Definition vec_regb (r : Reg) :=
  (((kind_ r =? XMM) && (bit_ r =? 128)) || ((kind_ r =? YMM) && (bit_ r =? 256)) || ((kind_ r =? ZMM) && (bit_ r =? 512)))
  && (0 <=? idx_ r) && (idx_ r <? 32).
Definition wf_modrmb (a : Address) : bool :=
  AMode_beq (a_mode a) M_ModRM && (kind_ (a_op a) =? MEM)
  && (no_regb (e_base (a_e a)) || addr_gprb (e_base (a_e a)))
  && (no_regb (e_index (a_e a)) || ((addr_gprb (e_index (a_e a)) || vec_regb (e_index (a_e a)))
        && ((e_scale (a_e a) =? 1) || (e_scale (a_e a) =? 2) || (e_scale (a_e a) =? 4) || (e_scale (a_e a) =? 8))))
  && (0 <=? e_disp (a_e a)) && (e_disp (a_e a) <? 18446744073709551616)
  && (negb (addr_gprb (e_index (a_e a)))
      || (negb (getIdx (e_index (a_e a)) =? 4)
          && (negb (addr_gprb (e_base (a_e a))) || (bit_ (e_base (a_e a)) =? bit_ (e_index (a_e a)))))).
Lemma no_regb_ok r : no_regb r = true -> no_reg r.
Proof. unfold no_regb, no_reg. lia. Qed.
Lemma addr_gprb_ok r : addr_gprb r = true <-> addr_gpr r.
Proof. unfold addr_gprb, addr_gpr. lia. Qed.
Lemma vec_regb_ok r : vec_regb r = true -> vec_reg r.
Proof. unfold vec_regb, vec_reg. lia. Qed.
Lemma wf_modrmb_ok a : wf_modrmb a = true -> wf_modrm a.
Proof.
  unfold wf_modrmb. intros H. repeat (apply andb_prop in H as [H ?]).
  constructor; [destruct (a_mode a); auto; discriminate| | |lia]; constructor.
  - apply orb_prop in H4 as [Q|Q]; [left; now apply no_regb_ok|right; now apply addr_gprb_ok].
  - apply orb_prop in H3 as [Q|Q]; [left; now apply no_regb_ok|right]. apply andb_prop in Q as [Q S]. split.
    + apply orb_prop in Q as [Q|Q]; [left; now apply addr_gprb_ok|right; now apply vec_regb_ok].
    + unfold scale_ok. lia.
  - lia.
  - intros G. apply addr_gprb_ok in G. rewrite G in H0. cbn [negb orb] in H0. lia.
  - intros G B. apply addr_gprb_ok in G, B. rewrite G, B in H0. cbn [negb orb] in H0. lia.
Qed.
