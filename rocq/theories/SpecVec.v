(* Specification: what the processor does for VEX and EVEX instructions, lane by lane: vector registers of 512 bits, opmasks,
   merging and zeroing, embedded broadcast and rounding; and what the same instructions mean for operands as they are
   written in a program.  From the Intel SDM vol. 1 chapter 15 and vol. 2.  Independent of xbyak; the encodings are rows of
   IsaRows.v.  Simplifications: no exceptions (faults, MXCSR flags, alignment); what a floating-point operation computes is
   an arbitrary function of the operation, its width, the rounding and the operands (component fpu of the state). *)
From Coq Require Import ZArith List Bool String.
From Verif Require Import Base Types SpecX86 SpecAddr SpecIsa SpecLeg SpecCond SpecExec.
Import ListNotations.
Open Scope list_scope.
Open Scope Z_scope.

(* vector registers, opmasks *)
Definition vx (s : st) : Z -> Z := xr (vu s).
Definition vk (s : st) : Z -> Z := kr (vu s).
(* lane i of es bits; the value of n lanes *)
Definition lane (es i v : Z) : Z := v / 2 ^ (es * i) mod 2 ^ es.
Fixpoint build (n : nat) (es : Z) (f : Z -> Z) : Z :=
  match n with O => 0 | S n' => build n' es f + f (Z.of_nat n') mod 2 ^ es * 2 ^ (es * Z.of_nat n') end.

(* ---- operations on lanes ---- *)
Inductive lop :=
| Add | Sub | And | Andn | Or | Xor | Mullo | Mulhs | Mulhu | Mulhrs | Muls32 | Mulu32 | Mins | Minu | Maxs | Maxu | Avg | Sign
| Adds | Addus | Subs | Subus | Shlv | Shrv | Sarv | Rolv | Rorv | Shldv | Shrdv | Shldi | Shrdi | Madd52lo | Madd52hi
| Eq | Gts | CmpS | CmpU | Testn | Abs | Popcnt | Lzcnt | Mov | Tern
| Fp (o : fop) | FpI (o : fop)                            (* of the sources; of the sources and the immediate *)
| Fp2 (o : fop) | Fp2I (o : fop)                          (* of the second source only *)
| Fp132 (o : fop) | Fp213 (o : fop) | Fp231 (o : fop).    (* of destination and sources; o a b c = +-(a * b) +- c *)
Definition clamp (lo hi v : Z) : Z := Z.max lo (Z.min hi v).
Definition ones (es : Z) : Z := 2 ^ es - 1.
(* bit j of the result is bit (a_j b_j c_j) of imm *)
Definition tern_bit (imm a b c j : Z) : Z :=
  if Z.testbit imm (4 * Z.b2z (Z.testbit a j) + 2 * Z.b2z (Z.testbit b j) + Z.b2z (Z.testbit c j)) then 1 else 0.
Fixpoint bits_set (n : nat) (a : Z) : Z := match n with O => 0 | S n' => bits_set n' a + Z.b2z (Z.testbit a (Z.of_nat n')) end.
(* the comparison number imm *)
Definition cmp_says (imm a b : Z) : bool :=
  let p := imm mod 8 in
  if p =? 0 then a =? b else if p =? 1 then a <? b else if p =? 2 then a <=? b else if p =? 3 then false
  else if p =? 4 then negb (a =? b) else if p =? 5 then b <=? a else if p =? 6 then b <? a else true.
(* d: old lane of the destination, l: lanes of the sources *)
Definition apply (fp : fop -> Z -> Z -> list Z -> Z) (o : lop) (es rnd imm d : Z) (l : list Z) : Z :=
  let a := nth 0 l 0 in let b := nth 1 l 0 in
  let sa := sval es a in let sb := sval es b in
  let lo := - 2 ^ (es - 1) in let hi := 2 ^ (es - 1) - 1 in
  match o with
  | Add => a + b | Sub => a - b | And => Z.land a b | Andn => Z.land (ones es - a) b | Or => Z.lor a b | Xor => Z.lxor a b
  | Mullo => a * b | Mulhrs => (sa * sb / 2 ^ (es - 2) + 1) / 2 | Mulhs => sa * sb / 2 ^ es | Mulhu => a * b / 2 ^ es
  | Muls32 => sval 32 (a mod 2 ^ 32) * sval 32 (b mod 2 ^ 32) | Mulu32 => a mod 2 ^ 32 * (b mod 2 ^ 32)
  | Mins => Z.min sa sb | Minu => Z.min a b | Maxs => Z.max sa sb | Maxu => Z.max a b | Avg => (a + b + 1) / 2
  | Adds => clamp lo hi (sa + sb) | Addus => clamp 0 (ones es) (a + b) | Subs => clamp lo hi (sa - sb) | Subus => clamp 0 (ones es) (a - b)
  | Shlv => if b <? es then a * 2 ^ b else 0 | Shrv => if b <? es then a / 2 ^ b else 0 | Sarv => sa / 2 ^ Z.min b es
  | Sign => if sb <? 0 then - a else if sb =? 0 then 0 else a
  | Rolv => a * 2 ^ (b mod es) + a / 2 ^ (es - b mod es) | Rorv => a / 2 ^ (b mod es) + a * 2 ^ (es - b mod es)
  | Shldv => d * 2 ^ (b mod es) + a / 2 ^ (es - b mod es) | Shrdv => d / 2 ^ (b mod es) + a * 2 ^ (es - b mod es)
  | Shldi => a * 2 ^ (imm mod es) + b / 2 ^ (es - imm mod es) | Shrdi => a / 2 ^ (imm mod es) + b * 2 ^ (es - imm mod es)
  | Madd52lo => d + (a mod 2 ^ 52 * (b mod 2 ^ 52)) mod 2 ^ 52 | Madd52hi => d + a mod 2 ^ 52 * (b mod 2 ^ 52) / 2 ^ 52
  | CmpS => if cmp_says imm sa sb then ones es else 0 | CmpU => if cmp_says imm a b then ones es else 0
  | Testn => if Z.land a b =? 0 then ones es else 0
  | Popcnt => bits_set (Z.to_nat es) a | Lzcnt => if a =? 0 then es else es - 1 - Z.log2 a
  | Eq => if a =? b then ones es else 0 | Gts => if sb <? sa then ones es else 0
  | Abs => Z.abs sa | Mov => a
  | Tern => build (Z.to_nat es) 1 (tern_bit imm d a b)
  | Fp f => fp f es rnd l | FpI f => fp f es rnd (l ++ [imm]) | Fp2 f => fp f es rnd [b] | Fp2I f => fp f es rnd [b; imm]
  | Fp132 f => fp f es rnd [d; b; a] | Fp213 f => fp f es rnd [a; d; b] | Fp231 f => fp f es rnd [a; b; d]
  end.

(* ---- instructions ---- *)
Inductive meaning :=
| MLane (o : lop) (es : Z)       (* every lane *)
| MScalar (o : lop) (es : Z)     (* lane 0; the rest of the 128 bits from the first source *)
| MCmp (o : lop) (es : Z)        (* one bit of an opmask per lane: is the result of o not zero *)
| MExt (sg : bool) (es ss : Z)   (* lanes of ss bits extended to es bits, with their sign or with zeros *)
| MSplat (es n : Z)              (* the first n bits of the source repeated *)
| MOne (es : Z)                  (* a move of one lane from or to memory; the rest of a register becomes zero *)
| MShuf (es n : Z)               (* lane i from the n bits of lane i: the lane selected by two bits of imm *)
| MShufB                         (* bytes of the first source within 128 bits, selected by the second; 0 if its bit 7 is set *)
| MDup (hi : bool) (es : Z)      (* lanes 0, 0, 2, 2, .. or 1, 1, 3, 3, .. *)
| MPerm2 (t : bool) (es : Z)     (* lane i is a lane of two tables: the sources selected by the destination, or (t) destination and second source selected by the first *)
| MAlign (es : Z)                (* lanes of the second source followed by the first, from lane imm *)
| MPerm (es : Z)                 (* lane i is the lane of the second source selected by lane i of the first *)
| MUnpack (hi : bool) (es : Z).  (* in every 128 bits the lanes of the low or high halves of both sources alternate *)
Definition esize (m : meaning) : Z :=
  match m with MLane _ e | MScalar _ e | MCmp _ e | MExt _ e _ | MSplat e _ | MOne e | MShuf e _ | MDup _ e | MPerm2 _ e | MAlign e | MPerm e | MUnpack _ e => e
  | MShufB => 8 end.
Definition one_lane (m : meaning) : bool := match m with MScalar _ _ | MOne _ => true | _ => false end.
Definition lanes (m : meaning) (vl : Z) : Z := if one_lane m then 1 else vl / esize m.
(* bytes of a memory operand *)
Definition mem_bytes (m : meaning) (vl : Z) : Z :=
  match m with
  | MScalar _ e | MOne e => e / 8
  | MSplat _ n => n / 8
  | MExt _ e s => vl / e * s / 8
  | _ => vl / 8 end.
(* lane i of the result *)
Definition result (fp : fop -> Z -> Z -> list Z -> Z) (m : meaning) (vl rnd imm d : Z) (src : list Z) (i : Z) : Z :=
  let a := nth 0 src 0 in let b := nth 1 src 0 in
  match m with
  | MLane o e | MScalar o e | MCmp o e => apply fp o e rnd imm (lane e i d) (map (lane e i) src)
  | MExt sg e s => if sg then sval s (lane s i a) else lane s i a
  | MSplat e n => lane e (i mod (n / e)) a
  | MOne e => lane e 0 a
  | MShuf e n => let q := n / e in lane e (i - i mod q + imm / 2 ^ (2 * (i mod q)) mod 4) a
  | MShufB => let c := lane 8 i b in if 128 <=? c then 0 else lane 8 (i - i mod 16 + c mod 16) a
  | MDup hi e => lane e (i - i mod 2 + (if hi then 1 else 0)) a
  | MPerm2 t e => let n := vl / e in let j := lane e i (if t then a else d) mod (2 * n) in
      if j <? n then lane e j (if t then d else a) else lane e (j - n) b
  | MAlign e => let n := vl / e in let j := i + imm mod n in if j <? n then lane e j b else lane e (j - n) a
  | MPerm e => lane e (lane e i a mod (vl / e)) b
  | MUnpack hi e => let q := 128 / e in let j := i mod q in
      lane e (i - j + (if hi then q / 2 else 0) + j / 2) (if Z.even j then a else b)
  end.
(* vector and mask registers, memory *)
Inductive vloc := XReg (n : Z) | KReg (n : Z) | XMem (a : Z).
Definition set_v (s : st) (x k : Z -> Z) : st := mkSt (rg s) (mm s) (fl s) (un s) (mkV x k (fpu (vu s))).
Definition set_x (s : st) (n v : Z) : st := set_v s (upd (vx s) n v) (vk s).
Definition set_k (s : st) (n v : Z) : st := set_v s (vx s) (upd (vk s) n v).
Definition set_m (s : st) (m : Z -> Z) : st := mkSt (rg s) m (fl s) (un s) (vu s).
(* a source; bc: embedded broadcast *)
Definition source (m : meaning) (vl : Z) (bc : bool) (s : st) (l : vloc) : Z :=
  match l with
  | XReg n => vx s n
  | KReg n => vk s n
  | XMem a => if bc then build (Z.to_nat (lanes m vl)) (esize m) (fun _ => load (mm s) a (Z.to_nat (esize m / 8)))
              else load (mm s) a (Z.to_nat (mem_bytes m vl))
  end.
(* masked stores, lane after lane *)
Fixpoint store_lanes (n : nat) (es : Z) (on : Z -> bool) (f : Z -> Z) (a : Z) (mem : Z -> Z) : Z -> Z :=
  match n with
  | O => mem
  | S n' => let i := Z.of_nat n' in let mem := store_lanes n' es on f a mem in
            if on i then store mem (a + i * (es / 8)) (f i mod 2 ^ es) (Z.to_nat (es / 8)) else mem end.
(* k: number of the opmask register, 0 for none; z: zeroing *)
Definition perform (m : meaning) (vl rnd imm k : Z) (z bc : bool) (dst : vloc) (src : list vloc) (s : st) : st :=
  let on i := (k =? 0) || Z.testbit (vk s k) i in
  let n := Z.to_nat (lanes m vl) in
  let v := map (source m vl bc s) src in
  let d := match dst with XReg r => vx s r | _ => 0 end in
  let f := result (fpu (vu s)) m vl rnd imm d v in
  match dst with
  | XReg r =>
      let low := build n (esize m) (fun i => if on i then f i else if z then 0 else lane (esize m) i d) in
      set_x s r (match m with MScalar _ e => low + nth 0 v 0 / 2 ^ e mod 2 ^ (128 - e) * 2 ^ e | _ => low end)
  | KReg r => set_k s r (build n 1 (fun i => if on i && negb (f i =? 0) then 1 else 0))
  | XMem a => set_m s (store_lanes n (esize m) on f a (mm s))
  end.

(* ---- execution of bytes ---- *)
Definition form_okb (f : form) (h : header) : bool :=
  (h_pp h =? pp_num (f_pp f)) && (h_map h =? map_num (f_map f)) && W_ok (f_W f) (h_W h) && (h_opc h =? f_opc f)
  && negb (h_66 h || h_F2 h || h_F3 h || h_lock h) && match h_seg h with None => true | Some _ => false end.
Definition form_of (h : header) (row : vrow) : option form :=
  match h_space h with Vex => r_vex row | Evex => option_map e_form (r_evex row) | _ => None end.
Definition is_row (h : header) (row : vrow) : bool := match form_of h row with Some f => form_okb f h | None => false end.
Definition ignores_L (h : header) (row : vrow) : bool := match form_of h row with Some f => match f_L f with LIG => true | _ => false end | None => false end.
Definition vlen (l : Z) : Z := if l =? 0 then 128 else if l =? 1 then 256 else 512.
Definition kdest (m : meaning) : bool := match m with MCmp _ _ => true | _ => false end.
Definition is_one (m : meaning) : bool := match m with MOne _ => true | _ => false end.
Definition is_vexs (h : header) : bool := match h_space h with Vex => true | _ => false end.
(* the location named by a slot *)
Definition place (m : meaning) (h : header) (reg : Z) (rm : rmop) (rip : Z) (s : st) (sl : slot) : vloc :=
  match sl with
  | SR => if kdest m then KReg reg else XReg reg
  | SV => XReg (h_V h)
  | _ => match rm with RReg _ v => XReg v | RMem a => XMem (eff_addr (rg s) rip (h_67 h) a) end end.
(* isa: the instructions of the processor *)
Definition vexec (isa : list (vrow * meaning)) (rip : Z) (bs : list Z) (s : st) : option (list Z * st) :=
  match dec_header bs with
  | None => None
  | Some (h, _) =>
  match find (fun p => is_row h (fst p)) isa with
  | None => None
  | Some (row, m) =>
  let bcsize := match r_evex row with Some f => e_bcast f | None => None end in
  let n8 := match r_evex row with Some f => disp8_factor (e_tuple f) (vlen (h_L h)) (if h_b h then bcsize else None) | None => 1 end in
  match decode false n8 bs with
  | None => None
  | Some (_, reg, rm, c) =>
  let inreg := match rm with RReg _ _ => true | RMem _ => false end in
  let b := negb (is_vexs h) && h_b h in
  (* b with a register: rounding, and the length is 512 *)
  let rc := match r_evex row with Some f => e_rc f | None => NoRc end in
  let rnd := if b && inreg then match rc with Er => h_L h + 1 | Sae => 5 | NoRc => 0 end else 0 in
  let vl := if b && inreg then 512 else vlen (h_L h) in
  let k := if is_vexs h then 0 else h_aaa h in
  let at_ := place m h reg rm rip s in
  match filter (fun sl => negb (slot_eqb SI sl)) (r_enc row) with
  | [] => None
  | dst :: src =>
      let run imm c := Some (c, perform m vl rnd imm k (negb (is_vexs h) && h_z h) (b && negb inreg) (at_ dst) (map at_ src) s) in
      let z := negb (is_vexs h) && h_z h in
      (* #UD: reserved length; vvvv without a meaning; b without a meaning; zeroing without a mask, of memory or of an opmask *)
      if (3 <=? h_L h) && negb (b && inreg) && negb (ignores_L h row) then None
      else if negb (existsb (slot_eqb SV) (r_enc row)) && negb (h_V h =? 0) then None
      else if z && ((k =? 0) || match at_ dst with XReg _ => false | _ => true end) then None
      else if b && inreg && match rc with NoRc => true | _ => false end then None
      else if b && negb inreg && match bcsize with None => true | _ => false end then None
      else if is_one m && inreg then None   (* another instruction *)
      else if existsb (slot_eqb SI) (r_enc row)
      then match c with i :: c => run i c | [] => None end
      else run 0 c
  end end end end.

(* ---- meaning of the operands as written ---- *)
Definition opmask (r : Reg) : bool := kind_ r =? OPMASK.
Definition where_ (s : st) (o : Operand) : vloc :=
  match o with
  | OReg r => if opmask r then KReg (regno r) else XReg (regno r)
  | OMem a => XMem (written (rg s) (a_e a) mod addr_size (uses32 (a_e a))) end.
Definition pick (l : list Z) : Z := fold_right Z.max 0 l.
(* the instruction with operands ops (destination first): the mask, zeroing and rounding written on any operand, the
   broadcast of the memory operand *)
Definition means (m : meaning) (vl imm : Z) (ops : list Operand) (s : st) : st :=
  match ops with
  | [] => s
  | d :: src =>
      let k := pick (map omask ops) in
      perform m vl (pick (map ornd ops)) imm k (negb (k =? 0) && existsb ozero ops) (existsb bcast ops) (where_ s d) (map (where_ s) src) s
  end.
