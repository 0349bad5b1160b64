(* Specification for C27: segment registers. *)
From Coq Require Import ZArith List Bool.
From Verif Require Import Base Types Encode SpecX86 SpecAddr.
Import ListNotations.
Open Scope Z_scope.

(* the segment that a program names, and its number in ModRM.reg (SDM vol. 2, mov Sreg) *)
Definition seg_is (s : Segment) (x : segreg) : Prop :=
  match s, x with ES, SegES | CS, SegCS | SS, SegSS | DS, SegDS | FS, SegFS | GS, SegGS => True | _, _ => False end.
Definition sreg_num (x : segreg) : Z := match x with SegES => 0 | SegCS => 1 | SegSS => 2 | SegDS => 3 | SegFS => 4 | SegGS => 5 end.
(* an instruction whose header is h, with the override x in front: an override of its own comes later and wins *)
Definition with_seg (x : segreg) (h : header) : header :=
  mkHeader (h_66 h) (h_67 h) (h_F2 h) (h_F3 h) (h_lock h) (Some match h_seg h with Some y => y | None => x end) (h_space h) (h_rex h) (h_map h)
    (h_pp h) (h_W h) (h_R h) (h_X h) (h_B h) (h_V h) (h_vbit4 h) (h_L h) (h_b h) (h_z h) (h_aaa h) (h_u h) (h_nd h) (h_nf h) (h_sc h) (h_opc h).
(* one-byte opcodes that raise #UD in 64-bit mode (SDM vol. 2, opcode map, i64): push and pop of es, cs, ss, ds *)
Definition invalid64 (o : Z) : bool := existsb (Z.eqb o) [0x06; 0x07; 0x0E; 0x16; 0x17; 0x1E; 0x1F].
Definition hseg (x : segreg) (q : option (header * list Z)) : option (header * list Z) :=
  match q with Some (h, r) => Some (with_seg x h, r) | None => None end.
(* the r/m field names the operand *)
Definition op_means (op : Operand) (h : header) (rm : rmop) : Prop :=
  match op with
  | OReg q => rm = RReg (regno q) (regno q)
  | OMem a => exists m, rm = RMem m /\ denotes (a_e a) h m
  end.
