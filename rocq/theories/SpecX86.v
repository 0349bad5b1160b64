(* Specification: decoding of 64-bit-mode x86 instructions, written from the Intel SDM vol. 2
   (chapter 2: prefixes, ModRM/SIB, VEX, EVEX), the APX architecture specification (REX2,
   extended EVEX) and independent of the model of xbyak.  The decoder is generic in the
   opcode: it splits an instruction with a ModRM byte into its architectural fields. *)
From Coq Require Import ZArith List Bool.
Import ListNotations.
Open Scope Z_scope.

Definition tb (x i : Z) : bool := Z.testbit x i.
Definition z_of (b : bool) : Z := if b then 1 else 0.

Inductive space := Legacy | Vex | Evex.
Inductive segreg := SegES | SegCS | SegSS | SegDS | SegFS | SegGS.

(* Everything in front of the ModRM byte. *)
Record header := mkHeader {
  h_66 : bool; h_67 : bool; h_F2 : bool; h_F3 : bool; h_lock : bool; h_seg : option segreg;
  h_space : space;
  h_rex : bool;          (* REX, REX2, VEX or EVEX present: byte registers 4..7 are spl,bpl,sil,dil *)
  h_map : Z;             (* 0, 1 = 0F, 2 = 0F38, 3 = 0F3A, 4 = APX legacy, 5, 6 *)
  h_pp : Z;              (* VEX/EVEX: 0 none, 1 = 66, 2 = F3, 3 = F2 *)
  h_W : bool;
  h_R : Z; h_X : Z; h_B : Z;   (* extension of reg / index / base,rm: 0, 8, 16, 24 *)
  h_V : Z;               (* the vvvv register operand, 0..31 *)
  h_vbit4 : bool;        (* EVEX V' (true = set): bit 4 of a VSIB index *)
  h_L : Z;               (* VEX.L / EVEX.LL *)
  h_b : bool; h_z : bool; h_aaa : Z;   (* EVEX *)
  h_u : bool;            (* EVEX.U as written (true = 1) *)
  h_nd : bool; h_nf : bool; h_sc : Z;  (* APX views of the third EVEX payload byte *)
  h_opc : Z
}.

(* legacy prefix bytes *)
Record prefixes := mkPfx {
  p_66 : bool; p_67 : bool; p_F2 : bool; p_F3 : bool; p_lock : bool; p_seg : option segreg }.
Definition pfx0 := mkPfx false false false false false None.
Definition prefix_step (p : prefixes) (b : Z) : option prefixes :=
  if b =? 0x66 then Some (mkPfx true (p_67 p) (p_F2 p) (p_F3 p) (p_lock p) (p_seg p))
  else if b =? 0x67 then Some (mkPfx (p_66 p) true (p_F2 p) (p_F3 p) (p_lock p) (p_seg p))
  else if b =? 0xF2 then Some (mkPfx (p_66 p) (p_67 p) true (p_F3 p) (p_lock p) (p_seg p))
  else if b =? 0xF3 then Some (mkPfx (p_66 p) (p_67 p) (p_F2 p) true (p_lock p) (p_seg p))
  else if b =? 0xF0 then Some (mkPfx (p_66 p) (p_67 p) (p_F2 p) (p_F3 p) true (p_seg p))
  else
    let seg s := Some (mkPfx (p_66 p) (p_67 p) (p_F2 p) (p_F3 p) (p_lock p) (Some s)) in
    if b =? 0x26 then seg SegES else if b =? 0x2E then seg SegCS else if b =? 0x36 then seg SegSS
    else if b =? 0x3E then seg SegDS else if b =? 0x64 then seg SegFS else if b =? 0x65 then seg SegGS
    else None.
Fixpoint scan_prefixes (p : prefixes) (bs : list Z) : prefixes * list Z :=
  match bs with
  | [] => (p, [])
  | b :: bs' => match prefix_step p b with Some p' => scan_prefixes p' bs' | None => (p, bs) end
  end.

Definition leg_header (p : prefixes) (rex : bool) (map : Z) (W : bool) (R X B opc : Z) : header :=
  mkHeader (p_66 p) (p_67 p) (p_F2 p) (p_F3 p) (p_lock p) (p_seg p) Legacy rex map 0 W R X B
           0 false 0 false false 0 true false false 0 opc.

(* opcode with its 0F / 0F 38 / 0F 3A escapes *)
Definition dec_opcode (bs : list Z) : option (Z * Z * list Z) :=
  match bs with
  | [] => None
  | o :: r =>
    if o =? 0x0F then
      match r with
      | [] => None
      | o1 :: r1 =>
        if o1 =? 0x38 then match r1 with o2 :: r2 => Some (2, o2, r2) | [] => None end
        else if o1 =? 0x3A then match r1 with o2 :: r2 => Some (3, o2, r2) | [] => None end
        else Some (1, o1, r1)
      end
    else Some (0, o, r)
  end.

Definition dec_legacy (p : prefixes) (rex : bool) (W : bool) (R X B : Z) (bs : list Z) : option (header * list Z) :=
  match dec_opcode bs with
  | Some (map, o, r) => Some (leg_header p rex map W R X B o, r)
  | None => None
  end.

(* VEX and EVEX instructions must not have 66, F2, F3 or lock prefixes (#UD) *)
Definition no_simd_pfx (p : prefixes) : bool := negb (p_66 p || p_F2 p || p_F3 p || p_lock p).

(* fields of the VEX / EVEX prefixes are stored inverted *)
Definition dec_header (bs : list Z) : option (header * list Z) :=
  let (p, bs) := scan_prefixes pfx0 bs in
  match bs with
  | [] => None
  | b :: r =>
    if (0x40 <=? b) && (b <=? 0x4F) then   (* REX.WRXB *)
      dec_legacy p true (tb b 3) (8 * z_of (tb b 2)) (8 * z_of (tb b 1)) (8 * z_of (tb b 0)) r
    else if b =? 0xD5 then                  (* REX2: M0 R4 X4 B4 W R3 X3 B3, then opcode *)
      match r with
      | q :: o :: r' =>
          Some (leg_header p true (z_of (tb q 7)) (tb q 3)
                  (16 * z_of (tb q 6) + 8 * z_of (tb q 2))
                  (16 * z_of (tb q 5) + 8 * z_of (tb q 1))
                  (16 * z_of (tb q 4) + 8 * z_of (tb q 0)) o, r')
      | _ => None
      end
    else if negb (no_simd_pfx p) && ((b =? 0xC5) || (b =? 0xC4) || (b =? 0x62)) then None
    else if b =? 0xC5 then                  (* two byte VEX: ~R ~vvvv L pp *)
      match r with
      | q :: o :: r' =>
          Some (mkHeader (p_66 p) (p_67 p) (p_F2 p) (p_F3 p) (p_lock p) (p_seg p) Vex true 1 (q mod 4) false
                  (8 * z_of (negb (tb q 7))) 0 0 (15 - q / 8 mod 16) false (z_of (tb q 2))
                  false false 0 true false false 0 o, r')
      | _ => None
      end
    else if b =? 0xC4 then                  (* three byte VEX: ~R ~X ~B mmmmm, W ~vvvv L pp *)
      match r with
      | q1 :: q2 :: o :: r' =>
          Some (mkHeader (p_66 p) (p_67 p) (p_F2 p) (p_F3 p) (p_lock p) (p_seg p) Vex true
                  (q1 mod 32) (q2 mod 4) (tb q2 7)
                  (8 * z_of (negb (tb q1 7))) (8 * z_of (negb (tb q1 6))) (8 * z_of (negb (tb q1 5)))
                  (15 - q2 / 8 mod 16) false (z_of (tb q2 2))
                  false false 0 true false false 0 o, r')
      | _ => None
      end
    else if b =? 0x62 then                  (* EVEX: ~R3 ~X3 ~B3 ~R4 B4 mmm, W ~vvvv ~X4(U) pp, z LL b ~V4 aaa *)
      match r with
      | q1 :: q2 :: q3 :: o :: r' =>
          Some (mkHeader (p_66 p) (p_67 p) (p_F2 p) (p_F3 p) (p_lock p) (p_seg p) Evex true
                  (q1 mod 8) (q2 mod 4) (tb q2 7)
                  (16 * z_of (negb (tb q1 4)) + 8 * z_of (negb (tb q1 7)))
                  (16 * z_of (negb (tb q2 2)) + 8 * z_of (negb (tb q1 6)))
                  (16 * z_of (tb q1 3) + 8 * z_of (negb (tb q1 5)))
                  (16 * z_of (negb (tb q3 3)) + (15 - q2 / 8 mod 16))
                  (negb (tb q3 3)) (q3 / 32 mod 4)
                  (tb q3 4) (tb q3 7) (q3 mod 8) (tb q2 2)
                  (tb q3 4) (tb q3 2) (q3 mod 16) o, r')
      | _ => None
      end
    else dec_legacy p false false 0 0 0 bs
  end.

(* ---- ModRM / SIB ---- *)
Definition signed (n : Z) (v : Z) : Z := if v <? 2 ^ (n - 1) then v else v - 2 ^ n.

Inductive mbase := BNone | BReg (n : Z) | BRip.
Record mem := mkMem { m_base : mbase; m_index : option Z; m_scale : Z; m_disp : Z }.
(* the r/m operand: a register (numbers for the general and the vector register file) or memory *)
Inductive rmop := RReg (gpr vec : Z) | RMem (m : mem).

Definition dec_disp (n8 md : Z) (bs : list Z) : option (Z * list Z) :=
  if md =? 0 then Some (0, bs)
  else if md =? 1 then match bs with d :: r => Some (signed 8 d * n8, r) | _ => None end
  else match bs with
       | d0 :: d1 :: d2 :: d3 :: r => Some (signed 32 (d0 + 256 * (d1 + 256 * (d2 + 256 * d3))), r)
       | _ => None end.

(* n8: the factor applied to an 8-bit displacement (1 unless EVEX).
   vsib: the index is a vector register (then SIB.index = 4 is a register). *)
Definition dec_rm (h : header) (vsib : bool) (n8 : Z) (bs : list Z) : option (Z * rmop * list Z) :=
  match bs with
  | [] => None
  | m :: r =>
    let md := m / 64 in
    let reg := h_R h + m / 8 mod 8 in
    let rm := m mod 8 in
    if md =? 3 then
      Some (reg, RReg (h_B h + rm)
                      (match h_space h with
                       | Evex => 16 * z_of (tb (h_X h) 3) + 8 * z_of (tb (h_B h) 3) + rm
                       | _ => h_B h + rm end), r)
    else if rm =? 4 then
      match r with
      | [] => None
      | s :: r =>
        let scale := 2 ^ (s / 64) in
        let ix := s / 8 mod 8 in
        let bs3 := s mod 8 in
        let index :=
          if vsib then
            Some (match h_space h with
                  | Evex => 16 * z_of (h_vbit4 h) + 8 * z_of (tb (h_X h) 3) + ix
                  | _ => h_X h + ix end)
          else if h_X h + ix =? 4 then None else Some (h_X h + ix) in
        if (bs3 =? 5) && (md =? 0) then
          match dec_disp n8 2 r with
          | Some (d, r') => Some (reg, RMem (mkMem BNone index scale d), r') | None => None end
        else
          match dec_disp n8 md r with
          | Some (d, r') => Some (reg, RMem (mkMem (BReg (h_B h + bs3)) index scale d), r') | None => None end
      end
    else if (rm =? 5) && (md =? 0) then
      match dec_disp n8 2 r with
      | Some (d, r') => Some (reg, RMem (mkMem BRip None 1 d), r') | None => None end
    else
      match dec_disp n8 md r with
      | Some (d, r') => Some (reg, RMem (mkMem (BReg (h_B h + rm)) None 1 d), r') | None => None end
  end.

(* A whole instruction with ModRM: header, reg, r/m, and the bytes that follow (immediates). *)
Definition decode (vsib : bool) (n8 : Z) (bs : list Z) : option (header * Z * rmop * list Z) :=
  match dec_header bs with
  | Some (h, r) =>
      match dec_rm h vsib (match h_space h with Evex => n8 | _ => 1 end) r with
      | Some (reg, rm, r') => Some (h, reg, rm, r')
      | None => None
      end
  | None => None
  end.

(* ---- effective address ---- *)
Definition base_val (regs : Z -> Z) (rip : Z) (b : mbase) : Z :=
  match b with BNone => 0 | BReg n => regs n | BRip => rip end.
(* rip: address of the next instruction *)
Definition eff_addr (regs : Z -> Z) (rip : Z) (a32 : bool) (m : mem) : Z :=
  (base_val regs rip (m_base m)
   + (match m_index m with Some i => regs i * m_scale m | None => 0 end) + m_disp m)
  mod (if a32 then 2 ^ 32 else 2 ^ 64).

(* byte register operand n: with any REX prefix 4..7 are spl..dil, without they are ah..bh *)
Inductive breg := BLow (n : Z) (* low byte of register n *) | BHigh (n : Z) (* bits 8..15 of register n, n < 4 *).
Definition byte_reg (rex : bool) (n : Z) : breg :=
  if negb rex && (4 <=? n) && (n <? 8) then BHigh (n - 4) else BLow n.

(* ---- compressed displacement (EVEX disp8*N), SDM vol. 2, 2.7.5, tables 2-34 and 2-35 ---- *)
Inductive tuple :=
| TFull          (* Full, Full Mem: N = vector length in bytes *)
| TFixed (n : Z) (* Scalar, Tuple1 Fixed, Mem128, ...: N = n *)
| TPerVL (n : Z) (* Half, Quarter, Eighth Mem, ...: N = n for 128-bit, 2n for 256-bit, 4n for 512-bit *)
| TMovddup.      (* N = 8, 32, 64 *)
(* vl: vector length in bits (scalar instructions count as 128); bcast: size in bytes of the
   element that embedded broadcast loads, if broadcast is used *)
Definition disp8_factor (t : tuple) (vl : Z) (bcast : option Z) : Z :=
  match bcast with
  | Some n => n
  | None =>
      match t with
      | TFull => vl / 8
      | TFixed n => n
      | TPerVL n => n * (vl / 128)
      | TMovddup => if vl =? 128 then 8 else vl / 8
      end
  end.
