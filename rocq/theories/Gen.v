(* CodeGenerator as a state machine: label references, jumps, emission of encoder output, and the
   history of API calls (xbyak.h:2121-2171, 2446-2466, 2919-2956, 3208-3230). *)
From Coq Require Import ZArith List Bool String.
From Verif Require Import Base Types Emit Encode State Code Label.
Import ListNotations.
Open Scope Z_scope.
Open Scope M_scope.

(* size_ + 16 >= maxSize_ *)
Definition nearFull (c : Code) : bool := c_max c <=? w64 (c_size c + 16).
Definition growIfNearFull : M unit :=
  c <- get g_code ;; whenM isAutoGrowC c && nearFull c do growMemory.

(* xbyak.h:2446-2466; sizeof(size_t) = 8.  db(uint64_t, size_t) with size 4 or 8 *)
Definition putL_inner (l : LabelRef) (relative : bool) (disp : Z) : M unit :=
  let jmpSize := if relative then 4 else 8 in
  growIfNearFull ;;;
  '(o, l') <- getOffsetL l ;;
  c <- get g_code ;;
  match o with
  | Some offset =>
      if relative then
        v <- verifyInInt32M (w64 (offset + disp - c_size c - jmpSize)) ;; dbnM v jmpSize
      else if isAutoGrowC c then
        dbnM 0 jmpSize ;;;
        c <- get g_code ;; save (w64 (c_size c - jmpSize)) offset jmpSize LaddTop
      else dbnM (w64 (c_top c + offset)) jmpSize
  | None =>
      dbnM 0 jmpSize ;;;
      c <- get g_code ;;
      addUndefL l' (mkJmp (c_size c) jmpSize
                     (if relative then LasIs else if isAutoGrowC c then LaddTop else Labs) disp)
  end.

(* execution of the emission items of an encoder *)
Definition exec_item (i : item) : M unit :=
  match i with
  | IDb b => dbM b
  | IPutL l rel disp => putL_inner l rel disp
  | IErr e => put (fun s => setError s e)
  end.
Fixpoint exec_items (l : list item) : M unit :=
  match l with [] => mret tt | i :: l' => exec_item i ;;; exec_items l' end.

Definition env_of (s : St) : Env :=
  mkEnv (isAutoGrowC (g_code s)) (c_top (g_code s)) (g_noexc s) (g_jmpNear s) (g_enc0 s) (g_enc1 s).
(* An encoder call.  The encoder reads the settings, top_ and size_ as they are at the call: the
   items emitted so far are accounted for by Emit.bind; top_ is read by encoders only in a fixed
   buffer (M_ripAddr) or before the first byte (align), so a reallocation in the middle does not
   matter.  In the no-exception build the computed positions are those of the bytes as planned:
   after an ERR_CODE_IS_TOO_BIG inside one instruction the real positions fall behind. *)
Definition runE {A} (m : E A) : M A := fun s =>
  let '(its, r) := m (env_of s) (c_size (g_code s)) in
  mbind (exec_items its) (fun _ => match r with Ok a => mret a | Err e => mthrow e end) s.

(* xbyak.h:2134 *)
Definition isNEAR (jmpNear : bool) (type : LabelType) : bool :=
  LabelType_beq type T_NEAR || (LabelType_beq type T_AUTO && jmpNear).

Definition dbIf (b : Z) : M unit := whenM negb (b =? 0) do dbM b.   (* if (longPref) db(longPref) *)

(* xbyak.h:2135-2156 *)
Definition opJmp (l : LabelRef) (type : LabelType) (shortCode longCode longPref : Z) : M unit := fnS tt
  (if LabelType_beq type T_FAR then mthrow ERR_NOT_SUPPORTED else
   growIfNearFull ;;;
   '(o, l') <- getOffsetL l ;;
   c <- get g_code ;;
   match o with
   | Some offset =>
       d <- verifyInInt32M (w64 (offset - c_size c)) ;;
       runE (makeJmp d type shortCode longCode longPref)
   | None =>
       jn <- get g_jmpNear ;;
       jmpSize <- (if isNEAR jn type then dbIf longPref ;;; dbM longCode ;;; dbnM 0 4 ;;; mret 4
                   else dbM shortCode ;;; dbM 0 ;;; mret 1) ;;
       c <- get g_code ;;
       addUndefL l' (mkJmp (c_size c) jmpSize LasIs 0)
   end).

(* xbyak.h:2157-2171 *)
Definition opJmpAbs (addr : Z) (type : LabelType) (shortCode longCode longPref : Z) : M unit := fnS tt
  (if LabelType_beq type T_FAR then mthrow ERR_NOT_SUPPORTED else
   c <- get g_code ;;
   if isAutoGrowC c then
     jn <- get g_jmpNear ;;
     if negb (isNEAR jn type) then mthrow ERR_ONLY_T_NEAR_IS_SUPPORTED_IN_AUTO_GROW else
     (whenM nearFull c do growMemory) ;;;
     dbIf longPref ;;; dbM longCode ;;; dbnM 0 4 ;;;
     c <- get g_code ;;
     save (w64 (c_size c - 4)) (w64 (addr - c_size c)) 4 Labs
   else
     d <- verifyInInt32M (w64 (addr - w64 (c_top c + c_size c))) ;;
     runE (makeJmp d type shortCode longCode longPref)).

(* xbyak.h:3215 *)
Definition hasUndefinedLabel (s : St) : bool := hasUndefS (g_lm s) || hasUndefC (g_lm s).
(* xbyak.h:3220-3227; readyRE 3229 differs only in the protection mode passed to the OS *)
Definition ready : M unit := fnS tt
  (s <- get (fun s => s) ;;
   if hasUndefinedLabel s then mthrow ERR_LABEL_IS_NOT_FOUND else
   if isAutoGrowC (g_code s) then
     calcJmpAddress ;;;
     whenM o_useProtect (g_or s) do (setProtectMode true ;;; mret tt)
   else mret tt).
(* xbyak.h:3208-3214 *)
Definition reset : M unit :=
  put (fun s => set_err s None) ;;; resetSize ;;; lmReset.
(* xbyak.h:3244-3255 *)
Definition setDefaultEncoding (e : PreferredEncoding) : M unit := fnS tt
  (match e with
   | VexEncoding | EvexEncoding => put (fun s => set_enc s e (g_enc1 s))
   | _ => mthrow ERR_BAD_ENCODING_MODE end).
Definition setDefaultEncodingAVX10 (e : PreferredEncoding) : M unit := fnS tt
  (match e with
   | PreAVX10v2Encoding | AVX10v2Encoding => put (fun s => set_enc s (g_enc0 s) e)
   | _ => mthrow ERR_BAD_ENCODING_MODE end).

(* ---- histories of API calls ---- *)
Inductive op :=
| OpEmit (m : E unit)        (* any instruction, data or putL call: an encoder of the E level *)
| OpJmp (l : LabelRef) (type : LabelType) (shortCode longCode longPref : Z)
| OpJmpAbs (addr : Z) (type : LabelType) (shortCode longCode longPref : Z)
| OpL (l : LabelRef)
| OpAssign (dst src : LabelH)
| OpInLocal | OpOutLocal
| OpNewLabel (h : LabelH) | OpCopy (dst src : LabelH) | OpCopyAssign (dst src : LabelH) | OpDestroy (h : LabelH)
| OpReset | OpReady
| OpSetJmpNear (b : bool) | OpSetEnc (e : PreferredEncoding) | OpSetEncAVX10 (e : PreferredEncoding).

Definition exec (o : op) : M unit :=
  match o with
  | OpEmit m => runE m
  | OpJmp l t s lc p => opJmp l t s lc p
  | OpJmpAbs a t s lc p => opJmpAbs a t s lc p
  | OpL (LStr s) => defineSlabel s
  | OpL (LObj h) => defineClabel h
  | OpAssign d s => assign d s
  | OpInLocal => enterLocal
  | OpOutLocal => leaveLocal
  | OpNewLabel h => newLabel h
  | OpCopy d s => copyLabel d s
  | OpCopyAssign d s => copyAssign d s
  | OpDestroy h => destroyLabel h
  | OpReset => reset
  | OpReady => ready
  | OpSetJmpNear b => put (fun s => set_jmpNear s b)
  | OpSetEnc e => setDefaultEncoding e
  | OpSetEncAVX10 e => setDefaultEncodingAVX10 e
  end.

(* xbyak.h:3144-3206: a new generator *)
Definition init (maxSize : Z) (u : UserPtr) (or : Oracle) (noexc : bool) : out unit :=
  let '(c, e) := ctorCode maxSize u or noexc in
  let s := mkSt c freshLM (fun _ => mkLab false false 0) false EvexEncoding PreAVX10v2Encoding noexc None or in
  match e with
  | None => Done s tt
  | Some e => if noexc then Done (setError s e) tt else Thrown s e
  end.

(* A history: the outcome of each call (None: no error), the program catching exceptions and going on. *)
Inductive history : St -> list (op * option xerr) -> St -> Prop :=
| H_nil s : history s [] s
| H_done s o s' tr s'' : exec o s = Done s' tt -> history s' tr s'' -> history s ((o, None) :: tr) s''
| H_thrown s o e s' tr s'' : exec o s = Thrown s' e -> history s' tr s'' -> history s ((o, Some e) :: tr) s''.
