(* Specification: byte strings that begin alike in 32-bit and in 64-bit mode, and the arguments for which methods emit them. *)
From Coq Require Import ZArith List Bool String.
From Verif Require Import Base Types Emit EmitFacts SpecX86 Spec32 SpecB32.
Import ListNotations.
Open Scope Z_scope.

(* first opcode byte: not a prefix, REX (inc, dec), REX2 (aad), VEX (les, lds) or EVEX (bound) *)
Definition plain (b : Z) : bool :=
  negb ((0x40 <=? b) && (b <=? 0x4F)) && negb (existsb (Z.eqb b) [0x26; 0x2E; 0x36; 0x3E; 0x64; 0x65; 0x66; 0x67; 0xF0; 0xF2; 0xF3; 0xD5; 0xC4; 0xC5; 0x62]).
Fixpoint starts_leg (bs : list Z) : bool :=
  match bs with
  | [] => false
  | b :: r => if (b =? 0x66) || (b =? 0xF2) || (b =? 0xF3) then starts_leg r else plain b
  end.
Definition is_byte (b : Z) : bool := (0 <=? b) && (b <? 256).
(* VEX, EVEX: register fields for registers 0..7, so that the second byte is at least C0; not map 4 *)
Definition starts_vex (bs : list Z) : bool :=
  match bs with
  | b :: q1 :: r =>
    if b =? 0xC5 then is_byte q1 && tb q1 7 && tb q1 6
    else match r with
    | q2 :: r =>
      if b =? 0xC4 then is_byte q1 && is_byte q2 && tb q1 7 && tb q1 6 && tb q1 5 && tb q2 6
      else match r with
      | q3 :: _ =>
        (b =? 0x62) && is_byte q1 && is_byte q2 && is_byte q3 && tb q1 7 && tb q1 6 && tb q1 5 && tb q1 4 && negb (tb q1 3)
        && tb q2 6 && tb q2 2 && tb q3 3 && negb (q1 mod 8 =? 4)
      | [] => false
      end
    | [] => false
    end
  | _ => false
  end.
Definition starts32 (bs : list Z) : bool := starts_leg bs || starts_vex bs.

(* without rounding, {nf} and {zu} *)
Definition nomods (r : Reg) : Prop := rounding_ r = 0 /\ NF_ r = false /\ ZU_ r = false.
Definition nomods_addr (a : Address) : Prop := nomods (a_op a) /\ nomods (e_base (a_e a)) /\ nomods (e_index (a_e a)).
Definition nomods_op (o : Operand) : Prop := match o with OReg r => nomods r | OMem a => nomods_addr a end.
Definition args_nomods (v : b_args) : Prop := (forall i, nomods_op (ar_o v i)) /\ (forall i, nomods_addr (ar_a v i)) /\ (forall i, nomods (ar_r v i)).
Definition no_qword (v : b_args) : Prop := (forall i, match ar_o v i with OMem a => isBit (a_op a) 64 = false | OReg _ => True end) /\ (forall i, isBit (ar_r v i) 64 = false).

Definition no_rex (h : header) : header :=
  mkHeader (h_66 h) (h_67 h) (h_F2 h) (h_F3 h) (h_lock h) (h_seg h) (h_space h) false (h_map h) (h_pp h) (h_W h) (h_R h) (h_X h) (h_B h)
    (h_V h) (h_vbit4 h) (h_L h) (h_b h) (h_z h) (h_aaa h) (h_u h) (h_nd h) (h_nf h) (h_sc h) (h_opc h).
(* what the call emits is in 32-bit mode the instruction that it is in 64-bit mode *)
Definition alike (m : E unit) : Prop := forall s env pos its, emits m env pos its tt -> forall rest h t,
  dec_header (render s its ++ rest) = Some (h, t) ->
  dec_header32 (render s its ++ rest) = Some (no_rex h, t) /\ (h_space h = Legacy -> h_rex h = false).
(* the same with the operands: [rip + disp32] in 64-bit mode is [disp32] in 32-bit mode *)
Definition alike_operands (m : E unit) : Prop := forall s env pos its, emits m env pos its tt -> forall rest vsib n8 h reg rm tl,
  decode vsib n8 (render s its ++ rest) = Some (h, reg, rm, tl) -> decode32 vsib n8 (render s its ++ rest) = Some (no_rex h, reg, absolute rm, tl).

(* methods whose instructions do not exist in 32-bit mode (three-operand and conditional APX forms), and methods for which a
   64-bit memory operand (or MMX register) makes the encoder emit REX.W *)
Definition entry_alike (apx small : list string) (x : b_entry) : Prop :=
  existsb (String.eqb (b_name x)) apx = false -> forall v, args32 v -> args_nomods v ->
  (existsb (String.eqb (b_name x)) small = true -> no_qword v) -> alike (b_call32 x v) /\ alike_operands (b_call32 x v).
