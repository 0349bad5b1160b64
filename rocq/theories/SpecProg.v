(* Specification: programs as lists of statements - instructions, jumps, calls, returns, labels - and what they do, without
   any reference to bytes.  A jump goes to the statement that defines the label it names; which label a name denotes is
   decided by the text of the program alone (names, below). *)
From Coq Require Import ZArith List Bool String Arith.
From Verif Require Import Base Types Emit Encode State Code Label Gen SpecLabel SpecX86 SpecCond SpecExec.
Import ListNotations.
Open Scope Z_scope.

Inductive stmt :=
| SIns (m : E unit) (f : st -> st)            (* an instruction call m that means f *)
| SJmp (l : LabelRef) (ty : LabelType)
| SJcc (k : Z) (l : LabelRef) (ty : LabelType)  (* jump if condition code k holds *)
| SCall (l : LabelRef)
| SRet
| SRef (m : E unit) (l : LabelRef) (f : Z -> st -> st)  (* an instruction call m that names l; it means f of the address of l *)
| SJmpTo (m : E unit) (t : st -> Z)           (* jump to the address t: jmp(register or memory) *)
| SCallTo (m : E unit) (t : st -> Z)
| SData (bs : list Z)                         (* db, dw, dd, dq: data *)
| SPutL (l : LabelRef)                        (* putL(l): the address of l as data *)
| SLabel (l : LabelRef)                       (* L(l) *)
| SNewLabel (h : LabelH)                      (* Label h; *)
| SIn | SOut                                  (* inLocalLabel(), outLocalLabel() *)
| SNear (b : bool)                            (* setDefaultJmpNEAR(b) *)
| SReady.                                     (* ready() *)
Definition program := list stmt.

(* ---- names ---- *)
(* the number of "@@" so far, the open scopes, the number of scopes and of Label objects so far, the objects *)
Record names := mkNames { n_anon : nat; n_scopes : list nat; n_nscope : nat; n_lab : list (LabelH * nat); n_nlab : nat }.
Definition names0 : names := mkNames 0 [0%nat] 1 [] 0.
Definition names_step (n : names) (p : stmt) : names :=
  match p with
  | SLabel (LStr k) => if String.eqb k "@@" then mkNames (S (n_anon n)) (n_scopes n) (n_nscope n) (n_lab n) (n_nlab n) else n
  | SNewLabel h => mkNames (n_anon n) (n_scopes n) (n_nscope n) ((h, n_nlab n) :: n_lab n) (S (n_nlab n))
  | SIn => mkNames (n_anon n) (n_nscope n :: n_scopes n) (S (n_nscope n)) (n_lab n) (n_nlab n)
  | SOut => mkNames (n_anon n) (tl (n_scopes n)) (n_nscope n) (n_lab n) (n_nlab n)
  | _ => n
  end.
(* before statement i *)
Definition names_at (p : program) (i : nat) : names := fold_left names_step (firstn i p) names0.
Definition label_named (n : names) (l : LabelRef) : option TId :=
  match l with
  | LStr k =>
      if String.eqb k "@b" then match n_anon n with O => None | S _ => Some (TAnon (n_anon n)) end
      else if String.eqb k "@f" then Some (TAnon (S (n_anon n)))
      else if isLocalStr k then Some (TLocal (hd O (n_scopes n)) k)
      else Some (TGlobal k)
  | LObj h => option_map (fun i => TObj (Fresh i)) (assoc Nat.eqb h (n_lab n))
  end.
(* the label that L(l) defines *)
Definition label_defined (n : names) (l : LabelRef) : option TId :=
  match l with LStr k => if String.eqb k "@@" then Some (TAnon (S (n_anon n))) else label_named n l | LObj _ => label_named n l end.
(* statement j defines the label that l denotes in statement i *)
Definition leads_to (p : program) (i : nat) (l : LabelRef) (j : nat) : Prop :=
  exists t l', label_named (names_at p i) l = Some t /\ nth_error p j = Some (SLabel l') /\ label_defined (names_at p j) l' = Some t.

(* ---- execution ---- *)
(* before statement i, or outside of the program at an address *)
Inductive conf := At (i : nat) (s : st) | Out (ip : Z) (s : st).
Definition no_code (q : stmt) : bool := match q with SLabel _ | SNewLabel _ | SIn | SOut | SNear _ | SReady => true | _ => false end.
Definition is_data (q : stmt) : bool := match q with SData _ | SPutL _ => true | _ => false end.
(* adr i: the address of statement i, seen by the program in return addresses and in references to labels.  There is no step at
   data: a program that runs into its data has no meaning. *)
Inductive pstep (p : program) (adr : nat -> Z) : conf -> conf -> Prop :=
| P_ins i s m f : nth_error p i = Some (SIns m f) -> pstep p adr (At i s) (At (S i) (f s))
| P_jmp i s l ty j : nth_error p i = Some (SJmp l ty) -> leads_to p i l j -> pstep p adr (At i s) (At j s)
| P_taken i s k l ty j : nth_error p i = Some (SJcc k l ty) -> leads_to p i l j -> cc_holds k (fl s) = true -> pstep p adr (At i s) (At j s)
| P_not_taken i s k l ty : nth_error p i = Some (SJcc k l ty) -> cc_holds k (fl s) = false -> pstep p adr (At i s) (At (S i) s)
| P_call i s l j : nth_error p i = Some (SCall l) -> leads_to p i l j -> pstep p adr (At i s) (At j (do_push 64 (adr (S i)) s))
| P_ret i s j : nth_error p i = Some SRet -> (j <= List.length p)%nat -> load (mm s) (rg s RSP) 8 = adr j ->
    pstep p adr (At i s) (At j (set_reg s RSP (addr64 (rg s RSP + 8))))
| P_leave i s : nth_error p i = Some SRet ->
    pstep p adr (At i s) (Out (addr64 (load (mm s) (rg s RSP) 8)) (set_reg s RSP (addr64 (rg s RSP + 8))))
| P_ref i s m l f j : nth_error p i = Some (SRef m l f) -> leads_to p i l j -> pstep p adr (At i s) (At (S i) (f (adr j) s))
| P_jmpto i s m t j : nth_error p i = Some (SJmpTo m t) -> (j <= List.length p)%nat -> addr64 (t s) = adr j -> pstep p adr (At i s) (At j s)
| P_jmpout i s m t : nth_error p i = Some (SJmpTo m t) -> pstep p adr (At i s) (Out (addr64 (t s)) s)
| P_callto i s m t j : nth_error p i = Some (SCallTo m t) -> (j <= List.length p)%nat -> addr64 (t s) = adr j ->
    pstep p adr (At i s) (At j (do_push 64 (adr (S i)) s))
| P_callout i s m t : nth_error p i = Some (SCallTo m t) -> pstep p adr (At i s) (Out (addr64 (t s)) (do_push 64 (adr (S i)) s))
| P_skip i s q : nth_error p i = Some q -> no_code q = true -> pstep p adr (At i s) (At (S i) s).
