(* The encoder monad.  An encoder function of CodeGenerator is modelled as a
   function of the generator settings and of the current code size; it returns
   the emission items it performs, in order, and its result.

   [throw] is XBYAK_THROW / XBYAK_THROW_RET (xbyak.h:303-350).  In the default
   build it throws, i.e. nothing after it runs.  With XBYAK_NO_EXCEPTION it
   records the error and returns from the *enclosing C++ function* with a given
   value; [fn d body] marks a C++ function boundary whose error return value is d. *)
From Coq Require Import ZArith List Bool String.
From Verif Require Import Base Types.
Import ListNotations.
Open Scope Z_scope.

(* xbyak.h:1698-1704 *)
Inductive PreferredEncoding :=
  DefaultEncoding | VexEncoding | EvexEncoding | PreAVX10v2Encoding | AVX10v2Encoding.
Scheme Equality for PreferredEncoding.

(* A label argument: a std::string or a Label object (by handle). *)
Inductive LabelRef := LStr (s : string) | LObj (h : LabelH).

Inductive item :=
| IDb (b : Z)                                              (* db(b), xbyak.h:1190 *)
| IPutL (lab : LabelRef) (relative : bool) (disp : Z)      (* putL_inner, xbyak.h:2447 *)
| IErr (e : xerr).                                         (* local::SetError (no-exception build) *)

(* number of code bytes an item occupies (jmpSize of xbyak.h:2449) *)
Definition item_size (i : item) : Z :=
  match i with IDb _ => 1 | IPutL _ rel _ => if rel then 4 else 8 | IErr _ => 0 end.
Fixpoint items_size (l : list item) : Z :=
  match l with [] => 0 | i :: l' => item_size i + items_size l' end.

Record Env := mkEnv {
  env_autoGrow : bool;               (* isAutoGrow() *)
  env_top : Z;                       (* size_t(top_) *)
  env_noexc : bool;                  (* XBYAK_NO_EXCEPTION *)
  env_jmpNear : bool;                (* isDefaultJmpNEAR_ *)
  env_enc0 : PreferredEncoding;      (* defaultEncoding_[0] *)
  env_enc1 : PreferredEncoding       (* defaultEncoding_[1] *)
}.

Inductive res (A : Type) := Ok (a : A) | Err (e : xerr).
Arguments Ok {A} a. Arguments Err {A} e.

Definition E (A : Type) := Env -> Z -> list item * res A.

Definition ret {A} (a : A) : E A := fun _ _ => ([], Ok a).
Definition bind {A B} (m : E A) (f : A -> E B) : E B := fun env pos =>
  match m env pos with
  | (l, Ok a) => let (l', r) := f a env (pos + items_size l) in (l ++ l', r)
  | (l, Err e) => (l, Err e)
  end.
Definition throw {A} (e : xerr) : E A := fun _ _ => ([], Err e).
Definition fn {A} (d : A) (m : E A) : E A := fun env pos =>
  match m env pos with
  | (l, Err e) => if env_noexc env then (l ++ [IErr e], Ok d) else (l, Err e)
  | r => r
  end.
Definition ask : E Env := fun env _ => ([], Ok env).
(* size_t(getCurr()), xbyak.h:1216 *)
Definition getCurr : E Z := fun env pos => ([], Ok (w64 (env_top env + pos))).
Definition emit (i : item) : E unit := fun _ _ => ([i], Ok tt).

Notation "x <- m ;; k" := (bind m (fun x => k)) (at level 61, m at next level, right associativity).
Notation "' p <- m ;; k" := (bind m (fun x => match x with p => k end))
  (at level 61, p pattern, m at next level, right associativity).
Notation "m ;;; k" := (bind m (fun _ => k)) (at level 61, right associativity).
Notation "'when' c 'do' m" := (if c then m else ret tt) (at level 60, m at level 60).

(* xbyak.h:1190 db(int) ; the byte stored is static_cast<uint8_t>(code) *)
Definition db (b : Z) : E unit := emit (IDb (w8 b)).
Fixpoint dbs (l : list Z) : E unit :=   (* xbyak.h:1201-1204 *)
  match l with [] => ret tt | b :: l' => db b ;;; dbs l' end.
(* xbyak.h:1205-1209 *)
Definition dbn (code n : Z) : E unit := fn tt
  (when 8 <? n do throw ERR_BAD_PARAMETER ;;;
   dbs (le_bytes (w64 code) (Z.to_nat n))).
Definition dw (c : Z) := dbn (w32 c) 2.   (* xbyak.h:1210 *)
Definition dd (c : Z) := dbn (w32 c) 4.   (* xbyak.h:1211 *)
Definition dq (c : Z) := dbn c 8.         (* xbyak.h:1212 *)

(* xbyak.h:414-423 *)
Definition IsInDisp8 (x : Z) : bool := (0xFFFFFF80 <=? w32 x) || (w32 x <=? 0x7F).
Definition IsInInt32 (x : Z) : bool := (0xFFFFFFFF80000000 <=? w64 x) || (w64 x <=? 0x7FFFFFFF).
Definition VerifyInInt32 (x : Z) : E Z := fn 0
  (if IsInInt32 x then ret (w32 x) else throw ERR_OFFSET_IS_TOO_BIG).

(* ---- operand construction (xbyak.h:631-963) ---- *)
(* xbyak.h:738-784 Operand::setBit; returns the modified object (unmodified on error) *)
Definition setBit (r : Reg) (bit : Z) : E Reg := fn r
  (if negb ((bit =? 8) || (bit =? 16) || (bit =? 32) || (bit =? 64) || (bit =? 128)
            || (bit =? 256) || (bit =? 512) || (bit =? 8192)) then throw ERR_CANT_CONVERT else
   if isBit r bit then ret r else
   if is_ r (MEM ||| OPMASK) 0 then ret (set_kindbit r (kind_ r) bit) else
   if is_ r (REG ||| XMM ||| YMM ||| ZMM ||| TMM) 0 then
     let idx := getIdx r in
     if isREGb r 8 && ((4 <=? idx) && (idx <? 8)) && negb (isExt8bit r) then throw ERR_CANT_CONVERT else
     let fin idx' kind :=
       ret (if 128 <=? bit
            then mkReg idx' kind bit (zero_ r) (mask_ r) (rounding_ r) (NF_ r) (ZU_ r)
            else mkReg idx' kind bit (zero_ r) 0 0 (NF_ r) (ZU_ r)) in
     if bit =? 8 then
       (if 32 <=? idx then throw ERR_CANT_CONVERT
        else fin (if (4 <=? idx) && (idx <? 8) then idx ||| EXT8BIT else idx) REG)
     else if (bit =? 16) || (bit =? 32) || (bit =? 64) then
       (if 32 <=? idx then throw ERR_CANT_CONVERT else fin idx REG)
     else if bit =? 128 then fin idx XMM
     else if bit =? 256 then fin idx YMM
     else if bit =? 512 then fin idx ZMM
     else fin idx TMM
   else throw ERR_CANT_CONVERT).
(* xbyak.h:802 *)
Definition changeBit (r : Reg) (bit : Z) : E Reg := setBit r bit.
(* xbyak.h:927-962 *)
Definition cvt8 (r : Reg) : E Reg :=
  r' <- changeBit r 8 ;; ret (regOf (getIdx r') REG 8 (isExt8bit r')).
Definition cvt16 (r : Reg) : E Reg := r' <- changeBit r 16 ;; ret (Reg16 (getIdx r')).
Definition cvt32 (r : Reg) : E Reg := r' <- changeBit r 32 ;; ret (Reg32 (getIdx r')).
Definition cvt64 (r : Reg) : E Reg := r' <- changeBit r 64 ;; ret (Reg64 (getIdx r')).
Definition cvt128 (r : Reg) : E Reg := r' <- changeBit r 128 ;; ret (Xmm (getIdx r')).
Definition cvt256 (r : Reg) : E Reg := r' <- changeBit r 256 ;; ret (Ymm (getIdx r')).
Definition cvt512 (r : Reg) : E Reg := r' <- changeBit r 512 ;; ret (Zmm (getIdx r')).
(* xbyak.h:639-648, 879-881  x | k, x | rounding, x | T_z *)
Definition orOpmask (r k : Reg) : E Reg := fn r
  (if negb (mask_ r =? 0) then throw ERR_OPMASK_IS_ALREADY_SET else ret (set_mask r (getIdx k))).
Definition orRounding (r : Reg) (rc : Z) : E Reg := fn r
  (if negb (rounding_ r =? 0) then throw ERR_ROUNDING_IS_ALREADY_SET else ret (set_rounding r rc)).
(* addr | k *)
Definition addrOrOpmask (a : Address) (k : Reg) : E Address :=
  o <- orOpmask (a_op a) k ;; ret (set_aop a o).

(* ---- address expressions (xbyak.h:984-1078) ---- *)
(* xbyak.h:992-1004 RegExp(const Reg& r, int scale); in the no-exception build an error leaves
   base and index empty *)
Definition regExpReg (r : Reg) (scale : Z) : E RegExp :=
  fn (mkRegExp noReg noReg scale 0)
  (if negb (isREGb r i32e) && negb (is_ r (XMM ||| YMM ||| ZMM ||| TMM) 0)
   then throw ERR_BAD_SIZE_OF_REGISTER else
   if scale =? 0 then ret (mkRegExp noReg noReg scale 0) else
   if negb (scale =? 1) && negb (scale =? 2) && negb (scale =? 4) && negb (scale =? 8)
   then throw ERR_BAD_SCALE else
   if (128 <=? getBit r) || negb (scale =? 1)
   then ret (mkRegExp noReg r scale 0) else ret (mkRegExp r noReg scale 0)).
(* xbyak.h:1024-1031 *)
Definition verify (e : RegExp) : E unit := fn tt
  (if 128 <=? getBit (e_base e) then throw ERR_BAD_SIZE_OF_REGISTER else
   if negb (getBit (e_index e) =? 0) && (getBit (e_index e) <=? 64) then
     (if getIdx (e_index e) =? 4 then throw ERR_ESP_CANT_BE_INDEX else
      if negb (getBit (e_base e) =? 0) && negb (getBit (e_base e) =? getBit (e_index e))
      then throw ERR_BAD_SIZE_OF_REGISTER else ret tt)
   else ret tt).
(* xbyak.h:1045-1064 operator+ *)
Definition regExpAdd (a b : RegExp) : E RegExp := fn (regExpDisp 0)
  (if negb (getBit (e_index a) =? 0) && negb (getBit (e_index b) =? 0) then throw ERR_BAD_ADDRESSING else
   let noidx := getBit (e_index a) =? 0 in
   let idx1 := if noidx then e_index b else e_index a in
   let sc1 := if noidx then e_scale b else e_scale a in
   let disp := w64 (e_disp a + e_disp b) in
   if negb (getBit (e_base b) =? 0) then
     if negb (getBit (e_base a) =? 0) then
       if negb (getBit idx1 =? 0) then throw ERR_BAD_ADDRESSING else
       (* base + base => base + index * 1 ; [reg + esp] => [esp + reg] *)
       if getIdx (e_base b) =? 4
       then ret (mkRegExp (e_base b) (e_base a) 1 disp)
       else ret (mkRegExp (e_base a) (e_base b) 1 disp)
     else ret (mkRegExp (e_base b) idx1 sc1 disp)
   else ret (mkRegExp (e_base a) idx1 sc1 disp)).
(* xbyak.h:1073-1078 operator- *)
Definition regExpSub (e : RegExp) (disp : Z) : RegExp :=
  mkRegExp (e_base e) (e_index e) (e_scale e) (w64 (e_disp e - disp)).
(* xbyak.h:1326-1330, 1399-1402  AddressFrame::operator[](RegExp) *)
Definition frameAt (bit : Z) (bc : bool) (e : RegExp) : E Address :=
  verify e ;;; ret (address0 bit bc e).
(* xbyak.h:904-923 RegRip arithmetic (int64_t; wraps by 64-bit two's complement) *)
Definition ripAdd (r : RegRip) (d : Z) : RegRip := mkRip (w64 (rip_disp r + d)) (rip_label r) (rip_isAddr r).
Definition ripAddLabel (r : RegRip) (l : LabelH) : E RegRip := fn (mkRip 0 None false)
  (if (match rip_label r with Some _ => true | None => false end) || rip_isAddr r
   then throw ERR_BAD_ADDRESSING else ret (mkRip (rip_disp r) (Some l) false)).
Definition ripAddPtr (r : RegRip) (p : Z) : E RegRip := fn (mkRip 0 None false)
  (if (match rip_label r with Some _ => true | None => false end) || rip_isAddr r
   then throw ERR_BAD_ADDRESSING else ret (mkRip (w64 (rip_disp r + p)) None true)).
