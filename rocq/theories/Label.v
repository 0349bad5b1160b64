(* LabelManager and the Label objects (xbyak.h:1413-1696).

   unordered_map / unordered_multimap are association lists; unordered_multimap::find may return
   any entry with the key: the choice is made by the oracle o_pick.  labelPtrList_ (a set of
   pointers) is a list without duplicates of label handles.  A Label object belongs to one
   generator, the one modelled (l_mgr: mgr != 0).  The int reference counts are not wrapped
   (fewer than 2^31 copies of one label); labelId_++ on INT_MAX is UB. *)
From Coq Require Import ZArith List Bool String Ascii.
From Verif Require Import Base Types Emit State Code.
Import ListNotations.
Open Scope Z_scope.
Open Scope M_scope.

Section Assoc.
  Context {K V : Type} (eqb : K -> K -> bool).
  Fixpoint assoc (k : K) (l : list (K * V)) : option V :=
    match l with [] => None | (k', v) :: l' => if eqb k k' then Some v else assoc k l' end.
  Definition erase (k : K) (l : list (K * V)) : list (K * V) :=
    filter (fun p => negb (eqb k (fst p))) l.
  (* the n-th entry with key k, and the list without it *)
  Fixpoint takeNth (k : K) (n : nat) (l : list (K * V)) : option (V * list (K * V)) :=
    match l with
    | [] => None
    | (k', v) :: l' =>
        if eqb k k' then
          match n with
          | O => Some (v, l')
          | S n' => match takeNth k n' l' with Some (v', r) => Some (v', (k', v) :: r) | None => None end
          end
        else match takeNth k n l' with Some (v', r) => Some (v', (k', v) :: r) | None => None end
    end.
  Definition matches_of (k : K) (l : list (K * V)) : list V :=
    map snd (filter (fun p => eqb k (fst p)) l).
  (* multimap find + erase of the entry found *)
  Definition findErase (pick : list V -> nat) (k : K) (l : list (K * V)) : option (V * list (K * V)) :=
    let ms := matches_of k l in takeNth k (Nat.modulo (pick ms) (List.length ms)) l.
End Assoc.

Definition with_lm (f : LabelMgr -> LabelMgr) : M unit := put (fun s => set_lm s (f (g_lm s))).

(* xbyak.h:1502-1517: the body of the loop for one pending reference *)
Definition patchOne (addrOffset : Z) (jmp : JmpLabel) : M unit :=
  c <- get g_code ;;
  let offset := w64 (j_end jmp - j_size jmp) in
  disp <- (match j_mode jmp with
           | LaddTop => mret addrOffset
           | Labs => mret (w64 (c_top c + c_size c))
           | LasIs =>
               let disp := w64 (addrOffset - j_end jmp + j_disp jmp) in
               if (j_size jmp <=? 4) && negb (IsInInt32 disp) then mthrow ERR_OFFSET_IS_TOO_BIG else
               if (j_size jmp =? 1) && negb (IsInDisp8 (w32 disp)) then mthrow ERR_LABEL_IS_TOO_FAR else
               mret disp
           end) ;;
  if isAutoGrowC c then save offset disp (j_size jmp) (j_mode jmp) else rewrite offset disp (j_size jmp).

(* xbyak.h:1498-1519: resolve all pending references to labelId.  The list shrinks at each round;
   the fuel is its initial length plus one. *)
Section Define.
  Context {K : Type} (eqb : K -> K -> bool).
  Variables (getU : LabelMgr -> list (K * JmpLabel)) (setU : LabelMgr -> list (K * JmpLabel) -> LabelMgr).
  Fixpoint defLoop (fuel : nat) (labelId : K) (addrOffset : Z) : M unit :=
    match fuel with
    | O => mUB
    | S f =>
        s <- get (fun s => s) ;;
        match findErase eqb (o_pick (g_or s)) labelId (getU (g_lm s)) with
        | None => mret tt
        | Some (jmp, rest) =>
            patchOne addrOffset jmp ;;;
            with_lm (fun lm => setU lm rest) ;;;
            defLoop f labelId addrOffset
        end
    end.
  (* xbyak.h:1489-1520; [insert] performs defList.insert and tells whether it was new *)
  Definition define_inner (insert : LabelMgr -> option LabelMgr) (labelId : K) (addrOffset : Z) : M unit :=
    fnS tt
    (lm <- get g_lm ;;
     match insert lm with
     | None => mthrow ERR_LABEL_IS_REDEFINED
     | Some lm' =>
         with_lm (fun _ => lm') ;;;
         defLoop (S (List.length (getU lm))) labelId addrOffset
     end).
End Define.

(* ---- string labels ---- *)
Definition emptySS := mkSS [] [].
(* *label.c_str() == '.' *)
Definition isLocalStr (s : string) : bool :=
  match s with String c _ => Ascii.eqb c "."%char | EmptyString => false end.
(* stateList_.back() / stateList_.front(); lm_stack is never empty *)
Definition getSS (lm : LabelMgr) (loc : bool) : SState :=
  if loc then hd emptySS (lm_stack lm) else lm_front lm.
Definition setSS (lm : LabelMgr) (loc : bool) (x : SState) : LabelMgr :=
  if loc then mkLM (lm_front lm) (x :: tl (lm_stack lm)) (lm_nextId lm) (lm_def lm) (lm_undef lm) (lm_ptrs lm)
  else mkLM x (lm_stack lm) (lm_nextId lm) (lm_def lm) (lm_undef lm) (lm_ptrs lm).
Definition insertS (k : string) (off : Z) (lm : LabelMgr) : option LabelMgr :=
  let loc := isLocalStr k in
  let st := getSS lm loc in
  match assoc String.eqb k (ss_def st) with
  | Some _ => None
  | None => Some (setSS lm loc (mkSS ((k, off) :: ss_def st) (ss_undef st)))
  end.
Definition getUS (k : string) (lm : LabelMgr) := ss_undef (getSS lm (isLocalStr k)).
Definition setUS (k : string) (lm : LabelMgr) (u : list (string * JmpLabel)) : LabelMgr :=
  let loc := isLocalStr k in setSS lm loc (mkSS (ss_def (getSS lm loc)) u).

Definition sIn (k : string) (l : list (string * Z)) : bool :=
  match assoc String.eqb k l with Some _ => true | None => false end.

(* xbyak.h:1596-1615 *)
Definition defineSlabel (label : string) : M unit := fnS tt
  (if String.eqb label "@b"%string || String.eqb label "@f"%string then mthrow ERR_BAD_LABEL_STR else
   label <-
     (if String.eqb label "@@"%string then
        lm <- get g_lm ;;
        let d := ss_def (lm_front lm) in
        let setd d' lm := setSS lm false (mkSS d' (ss_undef (lm_front lm))) in
        if sIn "@f"%string d then with_lm (setd (erase String.eqb "@f"%string d)) ;;; mret "@b"%string
        else if sIn "@b"%string d then with_lm (setd (erase String.eqb "@b"%string d)) ;;; mret "@f"%string
        else mret "@f"%string
      else mret label) ;;
   c <- get g_code ;;
   define_inner String.eqb (getUS label) (setUS label) (insertS label (c_size c)) label (c_size c)).

(* xbyak.h:1630-1646; returns the offset if defined and the label as renamed *)
Definition getOffsetS (label : string) : M (option Z * string) := fnS (None, label)
  (lm <- get g_lm ;;
   let d := ss_def (lm_front lm) in
   label <-
     (if String.eqb label "@b"%string then
        if sIn "@f"%string d then mret "@f"%string
        else if sIn "@b"%string d then mret label else mthrow ERR_LABEL_IS_NOT_FOUND
      else if String.eqb label "@f"%string then
        if sIn "@f"%string d then mret "@b"%string else mret label
      else mret label) ;;
   mret (assoc String.eqb label (ss_def (getSS lm (isLocalStr label))), label)).

(* xbyak.h:1651-1655 *)
Definition addUndefS (label : string) (jmp : JmpLabel) : M unit :=
  with_lm (fun lm => setUS label lm ((label, jmp) :: getUS label lm)).

(* xbyak.h:1585-1594 *)
Definition enterLocal : M unit :=
  with_lm (fun lm => mkLM (lm_front lm) (emptySS :: lm_stack lm) (lm_nextId lm) (lm_def lm) (lm_undef lm) (lm_ptrs lm)).
Definition nonempty {A} (l : list A) : bool := match l with [] => false | _ => true end.
Definition leaveLocal : M unit := fnS tt
  (lm <- get g_lm ;;
   if (List.length (lm_stack lm) <=? 1)%nat then mthrow ERR_UNDER_LOCAL_LABEL else
   if nonempty (ss_undef (getSS lm true)) then mthrow ERR_LABEL_IS_NOT_FOUND else
   with_lm (fun lm => mkLM (lm_front lm) (tl (lm_stack lm)) (lm_nextId lm) (lm_def lm) (lm_undef lm) (lm_ptrs lm))).

(* ---- Label objects ---- *)
Definition set_nextId (lm : LabelMgr) (n : Z) : LabelMgr :=
  mkLM (lm_front lm) (lm_stack lm) n (lm_def lm) (lm_undef lm) (lm_ptrs lm).
Definition set_cdef (lm : LabelMgr) (d : list (Z * (Z * Z))) : LabelMgr :=
  mkLM (lm_front lm) (lm_stack lm) (lm_nextId lm) d (lm_undef lm) (lm_ptrs lm).
Definition set_cundef (lm : LabelMgr) (u : list (Z * JmpLabel)) : LabelMgr :=
  mkLM (lm_front lm) (lm_stack lm) (lm_nextId lm) (lm_def lm) u (lm_ptrs lm).
Definition set_ptrs (lm : LabelMgr) (p : list LabelH) : LabelMgr :=
  mkLM (lm_front lm) (lm_stack lm) (lm_nextId lm) (lm_def lm) (lm_undef lm) p.

(* access to a Label object; UB if it has been destroyed *)
Definition labelOf (h : LabelH) : M LabelObj := fun s =>
  if l_alive (g_labels s h) then Done s (g_labels s h) else UB.
(* labelPtrList_.insert / erase (a set) *)
Definition ptrsInsert (h : LabelH) (lm : LabelMgr) : LabelMgr :=
  if existsb (Nat.eqb h) (lm_ptrs lm) then lm else set_ptrs lm (h :: lm_ptrs lm).
Definition ptrsErase (h : LabelH) (lm : LabelMgr) : LabelMgr :=
  set_ptrs lm (filter (fun k => negb (Nat.eqb h k)) (lm_ptrs lm)).

(* xbyak.h:1484-1488 *)
Definition getIdM (h : LabelH) : M Z :=
  o <- labelOf h ;;
  if l_id o =? 0 then
    n <- get (fun s => lm_nextId (g_lm s)) ;;
    if n =? 2147483647 then mUB else
    put (fun s => set_lm (set_label s h (mkLab true (l_mgr o) n)) (set_nextId (g_lm s) (n + 1))) ;;;
    mret n
  else mret (l_id o).

Definition insertC (id off : Z) (lm : LabelMgr) : option LabelMgr :=
  match assoc Z.eqb id (lm_def lm) with
  | Some _ => None
  | None => Some (set_cdef lm ((id, (off, 1)) :: lm_def lm))   (* ClabelVal(offset): refCount 1 *)
  end.
(* label.mgr = this; labelPtrList_.insert(&label) *)
Definition linkLabel (h : LabelH) : M unit :=
  o <- labelOf h ;;
  put (fun s => set_lm (set_label s h (mkLab true true (l_id o))) (ptrsInsert h (g_lm s))).
(* xbyak.h:1616-1621 *)
Definition defineClabel (h : LabelH) : M unit :=
  id <- getIdM h ;;
  c <- get g_code ;;
  define_inner Z.eqb lm_undef set_cundef (insertC id (c_size c)) id (c_size c) ;;;
  linkLabel h.
(* xbyak.h:1622-1629 *)
Definition assign (dst src : LabelH) : M unit := fnS tt
  (o <- labelOf src ;;
   lm <- get g_lm ;;
   match assoc Z.eqb (l_id o) (lm_def lm) with
   | None => mthrow ERR_LABEL_ISNOT_SET_BY_L
   | Some (off, _) =>
       d <- labelOf dst ;;
       define_inner Z.eqb lm_undef set_cundef (insertC (l_id d) off) (l_id d) off ;;;
       linkLabel dst
   end).
(* xbyak.h:1647-1650 *)
Definition getOffsetC (h : LabelH) : M (option Z) :=
  id <- getIdM h ;;
  lm <- get g_lm ;;
  mret (option_map fst (assoc Z.eqb id (lm_def lm))).
(* xbyak.h:1656-1659 *)
Definition addUndefC (h : LabelH) (jmp : JmpLabel) : M unit :=
  o <- labelOf h ;;
  with_lm (fun lm => set_cundef lm ((l_id o, jmp) :: lm_undef lm)).

(* xbyak.h:1531-1546; operator[] creates an entry (offset 0, refCount 1) if there is none *)
Definition incRefCount (id : Z) (h : LabelH) : M unit :=
  with_lm (fun lm =>
    let '(off, rc) := match assoc Z.eqb id (lm_def lm) with Some v => v | None => (0, 1) end in
    ptrsInsert h (set_cdef lm ((id, (off, rc + 1)) :: erase Z.eqb id (lm_def lm)))).
Definition decRefCount (id : Z) (h : LabelH) : M unit :=
  with_lm (fun lm =>
    let lm := ptrsErase h lm in
    match assoc Z.eqb id (lm_def lm) with
    | None => lm
    | Some (off, rc) =>
        if rc =? 1 then set_cdef lm (erase Z.eqb id (lm_def lm))
        else set_cdef lm ((id, (off, rc - 1)) :: erase Z.eqb id (lm_def lm))
    end).

(* xbyak.h:1430 Label() *)
Definition newLabel (h : LabelH) : M unit :=
  o <- get (fun s => g_labels s h) ;;
  if l_alive o then mUB   (* the handle names a live object: not a program *)
  else put (fun s => set_label s h (mkLab true false 0)).
(* xbyak.h:1672-1677 copy constructor *)
Definition copyLabel (dst src : LabelH) : M unit :=
  o <- get (fun s => g_labels s dst) ;;
  if l_alive o then mUB else
  r <- labelOf src ;;
  put (fun s => set_label s dst (mkLab true (l_mgr r) (l_id r))) ;;;
  whenM l_mgr r do incRefCount (l_id r) dst.
(* xbyak.h:1678-1685 operator= *)
Definition copyAssign (dst src : LabelH) : M unit := fnS tt
  (d <- labelOf dst ;;
   if negb (l_id d =? 0) then mthrow ERR_LABEL_IS_ALREADY_SET_BY_L else
   r <- labelOf src ;;
   put (fun s => set_label s dst (mkLab true (l_mgr r) (l_id r))) ;;;
   whenM l_mgr r do incRefCount (l_id r) dst).
(* xbyak.h:1686-1689 destructor *)
Definition destroyLabel (h : LabelH) : M unit :=
  o <- labelOf h ;;
  (whenM negb (l_id o =? 0) && l_mgr o do decRefCount (l_id o) h) ;;;
  put (fun s => set_label s h (mkLab false false 0)).

(* xbyak.h:1669 *)
Definition isReady (c : Code) : bool := negb (isAutoGrowC c) || c_called c.
(* xbyak.h:1690-1696; 0 is the null pointer *)
Definition getAddress (h : LabelH) : M Z :=
  o <- labelOf h ;;
  c <- get g_code ;;
  if negb (l_mgr o) || negb (isReady c) then mret 0 else
  r <- getOffsetC h ;;
  mret (match r with None => 0 | Some off => w64 (c_top c + off) end).

(* xbyak.h:1556-1563; clearing a destroyed object through a dangling pointer is UB *)
Fixpoint clearAll (l : list LabelH) : M unit :=
  match l with
  | [] => mret tt
  | h :: l' => labelOf h ;;; put (fun s => set_label s h (mkLab true false 0)) ;;; clearAll l'
  end.
Definition resetLabelPtrList : M unit :=
  lm <- get g_lm ;; clearAll (lm_ptrs lm) ;;; with_lm (fun lm => set_ptrs lm []).
(* xbyak.h:1573-1583 *)
Definition lmReset : M unit :=
  with_lm (fun lm => mkLM emptySS [emptySS] 1 [] [] (lm_ptrs lm)) ;;; resetLabelPtrList.
Definition freshLM : LabelMgr := mkLM emptySS [emptySS] 1 [] [] [].

(* xbyak.h:1660-1667 *)
Definition hasUndefS (lm : LabelMgr) : bool :=
  nonempty (ss_undef (lm_front lm)) || existsb (fun st => nonempty (ss_undef st)) (lm_stack lm).
Definition hasUndefC (lm : LabelMgr) : bool := nonempty (lm_undef lm).

(* a label given as std::string or Label *)
Definition getOffsetL (l : LabelRef) : M (option Z * LabelRef) :=
  match l with
  | LStr s => '(o, s') <- getOffsetS s ;; mret (o, LStr s')
  | LObj h => o <- getOffsetC h ;; mret (o, LObj h)
  end.
Definition addUndefL (l : LabelRef) (jmp : JmpLabel) : M unit :=
  match l with LStr s => addUndefS s jmp | LObj h => addUndefC h jmp end.
