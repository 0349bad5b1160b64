(* CodeArray (xbyak.h:1084-1316). *)
From Coq Require Import ZArith List Bool String.
From Verif Require Import Base Types Emit State.
Import ListNotations.
Open Scope Z_scope.
Open Scope M_scope.

Definition DEFAULT_MAX_CODE_SIZE := 4096.   (* xbyak.h:157 *)

Definition with_code (f : Code -> Code) : M unit := put (fun s => set_code s (f (g_code s))).
Definition upd (m : Z -> Z) (i v : Z) : Z -> Z := fun k => if k =? i then v else m k.
Definition c_setmem (c : Code) (m : Z -> Z) : Code :=
  mkCode (c_type c) (c_max c) (c_cap c) (c_top c) m (c_size c) (c_infos c) (c_called c) (c_nalloc c).
Definition c_setsize (c : Code) (n : Z) : Code :=
  mkCode (c_type c) (c_max c) (c_cap c) (c_top c) (c_mem c) n (c_infos c) (c_called c) (c_nalloc c).
Definition c_setinfos (c : Code) (l : list AddrInfo) : Code :=
  mkCode (c_type c) (c_max c) (c_cap c) (c_top c) (c_mem c) (c_size c) l (c_called c) (c_nalloc c).
Definition c_setcalled (c : Code) (b : bool) : Code :=
  mkCode (c_type c) (c_max c) (c_cap c) (c_top c) (c_mem c) (c_size c) (c_infos c) b (c_nalloc c).

(* top_[i] = v *)
Definition poke (i v : Z) : M unit := fun s =>
  let c := g_code s in
  if (0 <=? i) && (i <? c_cap c) then Done (set_code s (c_setmem c (upd (c_mem c) i v))) tt else UB.

Definition isAutoGrowC (c : Code) : bool := BufType_beq (c_type c) AUTO_GROW.  (* xbyak.h:1265 *)

(* alloc_->alloc(size): one answer of the oracle *)
Definition allocM (n : Z) : M (option (Z * (Z -> Z))) := fun s =>
  let c := g_code s in
  Done (set_code s (mkCode (c_type c) (c_max c) (c_cap c) (c_top c) (c_mem c) (c_size c) (c_infos c) (c_called c)
                           (S (c_nalloc c))))
       (o_alloc (g_or s) (c_nalloc c) n).

(* xbyak.h:1126-1135; the copy loop writes newTop[0..size_), which is outside the new area if
   size_ > newSize (possible only when maxSize_ * 2 wraps), and reads top_[0..size_) *)
Definition growMemory : M unit := fnS tt
  (c <- get g_code ;;
   let newSize := Z.max DEFAULT_MAX_CODE_SIZE (w64 (c_max c * 2)) in
   a <- allocM newSize ;;
   match a with
   | None => mthrow ERR_CANT_ALLOC
   | Some (newTop, fresh) =>
       if (newSize <? c_size c) || (c_cap c <? c_size c) then mUB else
       with_code (fun c => mkCode (c_type c) newSize newSize newTop
                             (fun i => if (0 <=? i) && (i <? c_size c) then c_mem c i else fresh i)
                             (c_size c) (c_infos c) (c_called c) (c_nalloc c))
   end).

(* xbyak.h:1190-1200 *)
Definition dbM (code : Z) : M unit := fnS tt
  (c <- get g_code ;;
   (if c_max c <=? c_size c then
      if isAutoGrowC c then growMemory else mthrow ERR_CODE_IS_TOO_BIG
    else mret tt) ;;;
   c <- get g_code ;;
   poke (c_size c) (w8 code) ;;;
   with_code (fun c => c_setsize c (w64 (c_size c + 1)))).
(* xbyak.h:1201-1204 *)
Fixpoint dbsM (l : list Z) : M unit :=
  match l with [] => mret tt | b :: l' => dbM b ;;; dbsM l' end.
(* xbyak.h:1205-1209 *)
Definition dbnM (code n : Z) : M unit := fnS tt
  (if 8 <? n then mthrow ERR_BAD_PARAMETER else dbsM (le_bytes (w64 code) (Z.to_nat n))).

(* xbyak.h:1184-1189 *)
Definition resetSize : M unit :=
  with_code (fun c => mkCode (c_type c) (c_max c) (c_cap c) (c_top c) (c_mem c) 0 [] false (c_nalloc c)).
(* xbyak.h:1220-1224 *)
Definition setSize (n : Z) : M unit := fnS tt
  (c <- get g_code ;;
   if c_max c <? n then mthrow ERR_OFFSET_IS_TOO_BIG else with_code (fun c => c_setsize c n)).

Fixpoint pokes (i : Z) (l : list Z) : M unit :=
  match l with [] => mret tt | b :: l' => poke i b ;;; pokes (i + 1) l' end.
(* xbyak.h:1252-1260 *)
Definition rewrite (offset disp size : Z) : M unit := fnS tt
  (if negb (size =? 1) && negb (size =? 2) && negb (size =? 4) && negb (size =? 8)
   then mthrow ERR_BAD_PARAMETER else
   pokes offset (le_bytes disp (Z.to_nat size))).
(* xbyak.h:1261-1264 *)
Definition save (offset val size : Z) (mode : LabelMode) : M unit :=
  with_code (fun c => c_setinfos c (c_infos c ++ [mkAI offset val size mode])).

(* xbyak.h:420-424 *)
Definition verifyInInt32M (x : Z) : M Z := fnS 0
  (if IsInInt32 x then mret (w32 x) else mthrow ERR_OFFSET_IS_TOO_BIG).
(* xbyak.h:1100-1105 *)
Definition getVal (i : AddrInfo) (top : Z) : M Z :=
  let disp := match ai_mode i with
              | LaddTop => w64 (ai_val i + top) | LasIs => ai_val i | Labs => w64 (ai_val i - top) end in
  if ai_size i =? 4 then verifyInInt32M disp else mret disp.
(* xbyak.h:1139-1147 *)
Fixpoint calcLoop (l : list AddrInfo) : M unit :=
  match l with
  | [] => mret tt
  | i :: l' => c <- get g_code ;; d <- getVal i (c_top c) ;; rewrite (ai_off i) d (ai_size i) ;;; calcLoop l'
  end.
Definition calcJmpAddress : M unit :=
  c <- get g_code ;;
  if c_called c then mret tt else
  calcLoop (c_infos c) ;;; with_code (fun c => c_setcalled c true).

(* xbyak.h:1171-1178 setProtectMode(mode, throwException); the system call's answer is o_protect;
   its effect on later writes is not modelled *)
Definition setProtectMode (throwException : bool) : M bool := fnS false
  (ok <- get (fun s => o_protect (g_or s)) ;;
   if (ok : bool) then mret true else if throwException then mthrow ERR_CANT_PROTECT else mret false).

(* xbyak.h:1154-1169 the constructor, as a function of the user pointer argument:
   UPtr p mem: a user buffer of maxSize bytes at address p with contents mem *)
Inductive UserPtr := UNull | UDontSetProtectRWE | UAutoGrow | UPtr (p : Z) (mem : Z -> Z).
Definition ctorCode (maxSize : Z) (u : UserPtr) (or : Oracle) (noexc : bool) : Code * option xerr :=
  let type := match u with UAutoGrow => AUTO_GROW | UPtr _ _ => USER_BUF | _ => ALLOC_BUF end in
  match u with
  | UPtr p m => (mkCode type maxSize maxSize p m 0 [] false 0, if (0 <? maxSize) && (p =? 0) then Some ERR_CANT_ALLOC else None)
  | _ =>
      let n := Z.max maxSize 1 in
      match o_alloc or 0%nat n with
      | None => (mkCode type maxSize 0 0 (fun _ => 0) 0 [] false 1, if 0 <? maxSize then Some ERR_CANT_ALLOC else None)
      | Some (p, m) =>
          (mkCode type maxSize n p m 0 [] false 1,
           match u with
           | UNull => if o_useProtect or && negb (o_protect or) then Some ERR_CANT_PROTECT else None
           | _ => None
           end)
      end
  end.
