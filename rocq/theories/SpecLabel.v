(* What labels mean: an abstract label table, independent of the implementation.

   A label is one of: a global name, a name in one particular local scope, the n-th "@@", or a
   Label object identity (shared by copies).  The table records the position of each defined label
   and every reference emitted so far with the position it was resolved to.  A definition resolves
   all unresolved references to the label; nothing else changes a resolved reference.

   [spec_step a o err env p q] gives the table after call o with outcome err (None: success), where
   p and q are getSize() before and after the call.  None means that the call is outside the usage
   the specification covers; these cases are marked OUT and discussed in DESIGN.md. *)
From Coq Require Import ZArith List Bool String Arith.
From Verif Require Import Base Types Emit Encode State Code Label Gen.
Import ListNotations.
Open Scope Z_scope.

Inductive ident := Fresh (n : nat) | AfterReset (epoch : nat) (h : LabelH).
Inductive TId := TGlobal (s : string) | TLocal (scope : nat) (s : string) | TAnon (n : nat) | TObj (i : ident).
Definition ident_eqb (a b : ident) : bool :=
  match a, b with
  | Fresh n, Fresh m => Nat.eqb n m
  | AfterReset e h, AfterReset e' h' => Nat.eqb e e' && Nat.eqb h h'
  | _, _ => false
  end.
Definition TId_eqb (a b : TId) : bool :=
  match a, b with
  | TGlobal s, TGlobal s' => String.eqb s s'
  | TLocal n s, TLocal n' s' => Nat.eqb n n' && String.eqb s s'
  | TAnon n, TAnon m => Nat.eqb n m
  | TObj i, TObj j => ident_eqb i j
  | _, _ => false
  end.

(* A reference: a field of r_size bytes at offset r_pos.
   r_tid = Some t, r_rel: holds the displacement from the end of the field to (t + r_d);
   r_tid = Some t, not r_rel: holds the address of t;
   r_tid = None: holds the displacement from the end of the field to the absolute address r_d.
   r_val: position of the label, once defined. *)
Record ref := mkRef { r_pos : Z; r_size : Z; r_tid : option TId; r_rel : bool; r_d : Z; r_val : option Z }.
(* the value the field must hold when the code is at address [top] and the label at offset [o] *)
Definition want (top : Z) (r : ref) (o : Z) : Z :=
  match r_tid r with
  | None => r_d r - (top + r_pos r + r_size r)
  | Some _ => if r_rel r then o + r_d r - (r_pos r + r_size r) else top + o
  end.

Record Spec := mkSpec {
  sp_defs : TId -> option Z;
  sp_refs : list ref;                   (* last emitted first *)
  sp_anon : nat;                        (* number of "@@" so far *)
  sp_scopes : list nat;                 (* open local scopes, innermost first *)
  sp_nscope : nat;
  sp_lab : list (LabelH * ident);       (* live Label objects *)
  sp_nlab : nat; sp_epoch : nat;        (* for fresh identities *)
  sp_touched : list ident;              (* identities mentioned in a call *)
  sp_ready : bool                       (* ready() has succeeded since the last reset *)
}.
Definition spec0 : Spec := mkSpec (fun _ => None) [] 0 [0%nat] 1 [] 0 0 [] false.

Definition labOf (a : Spec) (h : LabelH) : option ident := assoc Nat.eqb h (sp_lab a).
(* the label a name or object denotes at this point of the program *)
Definition tid_of (a : Spec) (l : LabelRef) : option TId :=
  match l with
  | LStr s =>
      if String.eqb s "@b" then (match sp_anon a with O => None | S _ => Some (TAnon (sp_anon a)) end)
      else if String.eqb s "@f" then Some (TAnon (S (sp_anon a)))
      else if isLocalStr s then Some (TLocal (hd O (sp_scopes a)) s)
      else Some (TGlobal s)
  | LObj h => option_map TObj (labOf a h)
  end.

Definition set_refs a rs := mkSpec (sp_defs a) rs (sp_anon a) (sp_scopes a) (sp_nscope a) (sp_lab a) (sp_nlab a) (sp_epoch a) (sp_touched a) (sp_ready a).
Definition set_defs a d := mkSpec d (sp_refs a) (sp_anon a) (sp_scopes a) (sp_nscope a) (sp_lab a) (sp_nlab a) (sp_epoch a) (sp_touched a) (sp_ready a).
Definition set_lab a l := mkSpec (sp_defs a) (sp_refs a) (sp_anon a) (sp_scopes a) (sp_nscope a) l (sp_nlab a) (sp_epoch a) (sp_touched a) (sp_ready a).
Definition set_anon a n := mkSpec (sp_defs a) (sp_refs a) n (sp_scopes a) (sp_nscope a) (sp_lab a) (sp_nlab a) (sp_epoch a) (sp_touched a) (sp_ready a).
Definition set_scopes a l n := mkSpec (sp_defs a) (sp_refs a) (sp_anon a) l n (sp_lab a) (sp_nlab a) (sp_epoch a) (sp_touched a) (sp_ready a).
Definition set_ready a b := mkSpec (sp_defs a) (sp_refs a) (sp_anon a) (sp_scopes a) (sp_nscope a) (sp_lab a) (sp_nlab a) (sp_epoch a) (sp_touched a) b.
Definition touch a (l : LabelRef) :=
  match l with
  | LStr _ => a
  | LObj h => match labOf a h with
      | None => a
      | Some i => mkSpec (sp_defs a) (sp_refs a) (sp_anon a) (sp_scopes a) (sp_nscope a) (sp_lab a) (sp_nlab a) (sp_epoch a) (i :: sp_touched a) (sp_ready a)
      end
  end.

(* a new reference; if the label is defined it is resolved at once *)
Definition addRef (a : Spec) (pos size : Z) (t : option TId) (rel : bool) (d : Z) : Spec :=
  set_refs a (mkRef pos size t rel d (match t with Some t => sp_defs a t | None => Some 0 end) :: sp_refs a).
(* t is defined at offset o: resolves the references that wait for it *)
Definition is_tid (t : TId) (r : ref) : bool := match r_tid r with Some t' => TId_eqb t t' | None => false end.
Definition unresolved (r : ref) : bool := match r_val r with None => true | Some _ => false end.
Definition resolve1 (t : TId) (o : Z) (r : ref) : ref :=
  if unresolved r && is_tid t r then mkRef (r_pos r) (r_size r) (r_tid r) (r_rel r) (r_d r) (Some o) else r.
Definition updT (f : TId -> option Z) (t : TId) (v : option Z) : TId -> option Z :=
  fun t' => if TId_eqb t t' then v else f t'.
Definition specDefine (a : Spec) (t : TId) (o : Z) : Spec :=
  set_refs (set_defs a (updT (sp_defs a) t (Some o))) (map (resolve1 t o) (sp_refs a)).

(* the label fields of an instruction emitted between p and q (q may be short of the end if the
   call failed half-way) *)
Fixpoint spec_items (a : Spec) (its : list item) (p q : Z) : Spec :=
  match its with
  | [] => a
  | IDb _ :: r => if p + 1 <=? q then spec_items a r (p + 1) q else a
  | IErr _ :: r => spec_items a r p q
  | IPutL l rel d :: r =>
      let n := if rel then 4 else 8 in
      if p + n <=? q then
        match tid_of a l with
        | Some t => spec_items (addRef a p n (Some t) rel d) r (p + n) q
        | None => a
        end
      else a
  end.
Fixpoint touch_items (a : Spec) (its : list item) : Spec :=
  match its with
  | [] => a
  | IPutL l _ _ :: r => touch_items (touch a l) r
  | _ :: r => touch_items a r
  end.

(* branches are 2 bytes (1-byte field) or longer (4-byte field), the field at the end *)
Definition addBranch (a : Spec) (p q : Z) (t : option TId) (d : Z) : Spec :=
  if q - p =? 2 then addRef a (q - 1) 1 t true d else addRef a (q - 4) 4 t true d.

Definition isDef (a : Spec) (i : ident) : bool := match sp_defs a (TObj i) with Some _ => true | None => false end.
Definition countId (i : ident) (l : list (LabelH * ident)) : nat :=
  List.length (filter (fun p => ident_eqb i (snd p)) l).
Definition memId (i : ident) (l : list ident) : bool := existsb (ident_eqb i) l.

(* code must stay below 2 GiB - 256 for the 32-bit displacements *)
Definition maxCode := 2147483392.

Definition spec_step (a : Spec) (o : op) (err : option xerr) (env : Env) (p q : Z) : option Spec :=
  (* OUT: code added after ready() in AutoGrow mode *)
  let frozen := env_autoGrow env && sp_ready a in
  match o with
  | OpEmit m =>
      if frozen then None else
      let '(its, _) := m env p in
      let a := touch_items a its in Some (spec_items a its p q)
  | OpJmp l _ _ _ _ =>
      if frozen then None else
      let a := touch a l in
      match err with
      | Some _ => Some a
      | None =>
          match tid_of a l with
          | Some t => if q <=? maxCode then Some (addBranch a p q (Some t) 0) else None (* OUT: 2 GiB *)
          | None => None
          end
      end
  | OpJmpAbs addr _ _ _ _ =>
      if frozen then None else
      match err with Some _ => Some a | None => Some (addBranch a p q None addr) end
  | OpL l =>
      if frozen then None else
      let a := touch a l in
      match err with
      | Some ERR_LABEL_IS_REDEFINED | Some ERR_BAD_LABEL_STR => Some a
      | Some _ => None       (* OUT: a pending reference is out of range of the new label *)
      | None =>
          match l with
          | LStr s =>
              if String.eqb s "@@" then Some (set_anon (specDefine a (TAnon (S (sp_anon a))) p) (S (sp_anon a)))
              else match tid_of a l with Some t => Some (specDefine a t p) | None => None end
          | LObj _ => match tid_of a l with Some t => Some (specDefine a t p) | None => None end
          end
      end
  | OpAssign d s =>
      if frozen then None else
      match err with
      | Some ERR_LABEL_IS_REDEFINED | Some ERR_LABEL_ISNOT_SET_BY_L => Some a
      | Some _ => None       (* OUT: as for L *)
      | None =>
          match labOf a d, labOf a s with
          | Some i, Some j =>
              match sp_defs a (TObj j) with
              | Some off =>
                  if existsb (is_tid (TObj i)) (sp_refs a)                        (* OUT: dst not referenced before *)
                     && (env_autoGrow env || forallb (fun r => r_rel r || negb (is_tid (TObj i) r)) (sp_refs a))
                                                                                    (* OUT: address of dst taken, fixed buffer *)
                  then Some (specDefine a (TObj i) off) else None
              | None => None
              end
          | _, _ => None
          end
      end
  | OpInLocal => Some (set_scopes a (sp_nscope a :: sp_scopes a) (S (sp_nscope a)))
  | OpOutLocal => match err with Some _ => Some a | None => Some (set_scopes a (tl (sp_scopes a)) (sp_nscope a)) end
  | OpNewLabel h =>
      Some (mkSpec (sp_defs a) (sp_refs a) (sp_anon a) (sp_scopes a) (sp_nscope a)
              ((h, Fresh (sp_nlab a)) :: sp_lab a) (S (sp_nlab a)) (sp_epoch a) (sp_touched a) (sp_ready a))
  | OpCopy d s =>
      match labOf a s with
      | Some i => if isDef a i then Some (set_lab a ((d, i) :: sp_lab a)) else None   (* OUT: copy before definition *)
      | None => None
      end
  | OpCopyAssign d s =>
      match err with
      | Some _ => Some a
      | None =>
          match labOf a s with
          | Some i => if isDef a i then Some (set_lab a ((d, i) :: erase Nat.eqb d (sp_lab a))) else None   (* OUT *)
          | None => None
          end
      end
  | OpDestroy h =>
      match labOf a h with
      | Some i =>
          let l := erase Nat.eqb h (sp_lab a) in
          let a' := set_lab a l in
          Some (match countId i l with O => set_defs a' (updT (sp_defs a) (TObj i) None) | S _ => a' end)
      | None => None
      end
  | OpReset =>
      (* OUT: a live label mentioned but not defined *)
      if forallb (fun p => isDef a (snd p) || negb (memId (snd p) (sp_touched a))) (sp_lab a) then
        Some (mkSpec (fun _ => None) [] 0 [0%nat] 1 (map (fun p => (fst p, AfterReset (sp_epoch a) (fst p))) (sp_lab a))
                     (sp_nlab a) (S (sp_epoch a)) [] false)
      else None
  | OpReady =>
      match err with
      | None => Some (set_ready a true)
      | Some ERR_LABEL_IS_NOT_FOUND => Some a
      | Some _ => None       (* OUT: an absolute target is out of range, or page protection failed *)
      end
  | OpSetJmpNear _ | OpSetEnc _ | OpSetEncAVX10 _ => Some a
  end.

(* Calls that are programs at all: Label objects are alive when used, and created once. *)
Definition alive (a : Spec) (h : LabelH) : Prop := labOf a h <> None.
Definition alive_ref (a : Spec) (l : LabelRef) : Prop := match l with LObj h => alive a h | LStr _ => True end.
Definition alive_items (a : Spec) (its : list item) : Prop :=
  Forall (fun i => match i with IPutL l _ _ => alive_ref a l | _ => True end) its.
Definition legal (a : Spec) (o : op) (env : Env) (p : Z) : Prop :=
  match o with
  | OpEmit m => alive_items a (fst (m env p))
  | OpJmp l _ _ _ _ => alive_ref a l
  | OpL l => alive_ref a l
  | OpAssign d s | OpCopyAssign d s => alive a d /\ alive a s
  | OpNewLabel h => labOf a h = None
  | OpCopy d s => labOf a d = None /\ alive a s
  | OpDestroy h => alive a h
  | _ => True
  end.

(* Label ids are ints handed out from 1 upwards.  A call consumes at most one per label it mentions. *)
Fixpoint nput (its : list item) : Z :=
  match its with [] => 0 | IPutL _ _ _ :: r => 1 + nput r | _ :: r => nput r end.
Definition mentions (o : op) (env : Env) (p : Z) : Z :=
  match o with
  | OpEmit m => nput (fst (m env p))
  | OpJmp _ _ _ _ _ | OpL _ => 1
  | _ => 0
  end.
Definition ids_left (s : St) (o : op) : Prop :=
  lm_nextId (g_lm s) + mentions o (env_of s) (c_size (g_code s)) <= 2147483647.

(* A history of calls together with the label table *)
Inductive shistory : St -> Spec -> list op -> St -> Spec -> Prop :=
| SH_nil s a : shistory s a [] s a
| SH_done s a o s1 a1 os s2 a2 :
    legal a o (env_of s) (c_size (g_code s)) -> ids_left s o ->
    exec o s = Done s1 tt ->
    spec_step a o None (env_of s) (c_size (g_code s)) (c_size (g_code s1)) = Some a1 ->
    shistory s1 a1 os s2 a2 -> shistory s a (o :: os) s2 a2
| SH_thrown s a o e s1 a1 os s2 a2 :
    legal a o (env_of s) (c_size (g_code s)) -> ids_left s o ->
    exec o s = Thrown s1 e ->
    spec_step a o (Some e) (env_of s) (c_size (g_code s)) (c_size (g_code s1)) = Some a1 ->
    shistory s1 a1 os s2 a2 -> shistory s a (o :: os) s2 a2.
