(* State of a CodeGenerator object (CodeArray, LabelManager, settings), of the Label objects of
   the program, and the monad in which the stateful functions are modelled.

   Undefined behaviour of the C++ code (an access outside the buffer, use of a destroyed Label
   object, signed overflow) is the distinct outcome [UB]. *)
From Coq Require Import ZArith List Bool String.
From Verif Require Import Base Types Emit.
Import ListNotations.
Open Scope Z_scope.

(* ---- CodeArray, xbyak.h:1084-1121 ---- *)
Inductive BufType := USER_BUF | ALLOC_BUF | AUTO_GROW.
Scheme Equality for BufType.
(* xbyak.h:425-429 *)
Inductive LabelMode := LasIs | Labs | LaddTop.
Scheme Equality for LabelMode.
(* xbyak.h:1093-1100 *)
Record AddrInfo := mkAI { ai_off : Z; ai_val : Z; ai_size : Z; ai_mode : LabelMode }.
Record Code := mkCode {
  c_type : BufType;
  c_max : Z;            (* maxSize_ *)
  c_cap : Z;            (* number of bytes really available at top_ (0 for a null pointer) *)
  c_top : Z;            (* top_ as an integer *)
  c_mem : Z -> Z;       (* byte at top_[i] *)
  c_size : Z;           (* size_ *)
  c_infos : list AddrInfo;
  c_called : bool;      (* isCalledCalcJmpAddress_ *)
  c_nalloc : nat        (* number of alloc() calls so far, index into the allocator oracle *)
}.

(* ---- LabelManager, xbyak.h:1413-1482 ---- *)
Record JmpLabel := mkJmp { j_end : Z; j_size : Z; j_mode : LabelMode; j_disp : Z }.
Record SState := mkSS { ss_def : list (string * Z); ss_undef : list (string * JmpLabel) }.
Record LabelMgr := mkLM {
  lm_front : SState;            (* stateList_.front() *)
  lm_stack : list SState;       (* the rest of stateList_, stateList_.back() first *)
  lm_nextId : Z;                (* labelId_ *)
  lm_def : list (Z * (Z * Z));  (* clabelDefList_: id -> (offset, refCount) *)
  lm_undef : list (Z * JmpLabel);
  lm_ptrs : list LabelH         (* labelPtrList_ *)
}.
(* xbyak.h:1426-1428; l_mgr: the mgr pointer is this generator's manager (else null) *)
Record LabelObj := mkLab { l_alive : bool; l_mgr : bool; l_id : Z }.

(* Environment answers, fixed for a run: the allocator (None = null; otherwise address and initial
   contents), the order in which unordered_multimap::find picks among equal keys, the success of
   the protection system call, alloc_->useProtect(). *)
Record Oracle := mkOracle {
  o_alloc : nat -> Z -> option (Z * (Z -> Z));
  o_pick : list JmpLabel -> nat;
  o_protect : bool;
  o_useProtect : bool
}.
Record St := mkSt {
  g_code : Code;
  g_lm : LabelMgr;
  g_labels : LabelH -> LabelObj;
  g_jmpNear : bool;                (* isDefaultJmpNEAR_ *)
  g_enc0 : PreferredEncoding;      (* defaultEncoding_[0] *)
  g_enc1 : PreferredEncoding;
  g_noexc : bool;                  (* XBYAK_NO_EXCEPTION build *)
  g_err : option xerr;             (* local::GetErrorRef(), no-exception build *)
  g_or : Oracle
}.

Inductive out (A : Type) := Done (s : St) (a : A) | Thrown (s : St) (e : xerr) | UB.
Arguments Done {A} s a. Arguments Thrown {A} s e. Arguments UB {A}.
Definition M (A : Type) := St -> out A.
Definition mret {A} (a : A) : M A := fun s => Done s a.
Definition mbind {A B} (m : M A) (f : A -> M B) : M B := fun s =>
  match m s with Done s' a => f a s' | Thrown s' e => Thrown s' e | UB => UB end.
Definition mthrow {A} (e : xerr) : M A := fun s => Thrown s e.
Definition mUB {A} : M A := fun _ => UB.
Definition get {A} (f : St -> A) : M A := fun s => Done s (f s).
Definition put (f : St -> St) : M unit := fun s => Done (f s) tt.

(* field updates *)
Definition set_code (s : St) (c : Code) : St :=
  mkSt c (g_lm s) (g_labels s) (g_jmpNear s) (g_enc0 s) (g_enc1 s) (g_noexc s) (g_err s) (g_or s).
Definition set_lm (s : St) (l : LabelMgr) : St :=
  mkSt (g_code s) l (g_labels s) (g_jmpNear s) (g_enc0 s) (g_enc1 s) (g_noexc s) (g_err s) (g_or s).
Definition set_labels (s : St) (f : LabelH -> LabelObj) : St :=
  mkSt (g_code s) (g_lm s) f (g_jmpNear s) (g_enc0 s) (g_enc1 s) (g_noexc s) (g_err s) (g_or s).
Definition set_err (s : St) (e : option xerr) : St :=
  mkSt (g_code s) (g_lm s) (g_labels s) (g_jmpNear s) (g_enc0 s) (g_enc1 s) (g_noexc s) e (g_or s).
Definition set_jmpNear (s : St) (b : bool) : St :=
  mkSt (g_code s) (g_lm s) (g_labels s) b (g_enc0 s) (g_enc1 s) (g_noexc s) (g_err s) (g_or s).
Definition set_enc (s : St) (e0 e1 : PreferredEncoding) : St :=
  mkSt (g_code s) (g_lm s) (g_labels s) (g_jmpNear s) e0 e1 (g_noexc s) (g_err s) (g_or s).
Definition set_label (s : St) (h : LabelH) (o : LabelObj) : St :=
  set_labels s (fun k => if Nat.eqb k h then o else g_labels s k).

(* xbyak.h:303-313 local::SetError: keeps the first error code *)
Definition setError (s : St) (e : xerr) : St :=
  match g_err s with None => set_err s (Some e) | Some _ => s end.
(* C++ function boundary: XBYAK_THROW / XBYAK_THROW_RET, xbyak.h:326-350 *)
Definition fnS {A} (d : A) (m : M A) : M A := fun s =>
  match m s with
  | Thrown s' e => if g_noexc s' then Done (setError s' e) d else Thrown s' e
  | r => r
  end.

Declare Scope M_scope.
Delimit Scope M_scope with M.
Notation "x <- m ;; k" := (mbind m (fun x => k)) (at level 61, m at next level, right associativity) : M_scope.
Notation "' p <- m ;; k" := (mbind m (fun x => match x with p => k end))
  (at level 61, p pattern, m at next level, right associativity) : M_scope.
Notation "m ;;; k" := (mbind m (fun _ => k)) (at level 61, right associativity) : M_scope.
Notation "'whenM' c 'do' m" := (if c then m else mret tt) (at level 60, m at level 60) : M_scope.
