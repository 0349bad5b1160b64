(* Specification of C28: a small machine that executes the instructions a prologue and epilogue may use, read from their
   bytes, and what a function frame must guarantee under the two calling conventions. *)
From Coq Require Import ZArith List Bool.
From Verif Require Import Base.
Import ListNotations.
Open Scope Z_scope.

(* general registers by number, memory by byte address *)
Record M := mkM { rg : Z -> Z; mm : Z -> Z }.
Definition RSP : Z := 4.
Definition upd (f : Z -> Z) (i v : Z) : Z -> Z := fun j => if j =? i then v else f j.
Fixpoint load (m : Z -> Z) (a : Z) (n : nat) : Z := match n with O => 0 | S n' => m a + 256 * load m (a + 1) n' end.
Definition store (m : Z -> Z) (a : Z) (v : Z) : Z -> Z :=
  fun x => if (a <=? x) && (x <? a + 8) then (v / 2 ^ (8 * (x - a))) mod 256 else m x.
Definition wrap (x : Z) : Z := x mod 2 ^ 64.
Definition set_rg (m : M) (r v : Z) : M := mkM (upd (rg m) r (wrap v)) (mm m).
Definition push (m : M) (r : Z) : M := let a := wrap (rg m RSP - 8) in mkM (upd (rg m) RSP a) (store (mm m) a (rg m r)).
Definition pop (m : M) (r : Z) : M := let v := load (mm m) (rg m RSP) 8 in set_rg (set_rg m RSP (rg m RSP + 8)) r v.
Definition sext (bits v : Z) : Z := if v <? 2 ^ (bits - 1) then v else v - 2 ^ bits.

Inductive act := Next (code : list Z) (m : M) | Return (target : Z) (m : M).
(* add/or/.../cmp with an immediate: only add (0) and sub (5) *)
Definition group1 (d rm imm : Z) (code : list Z) (m : M) : option act :=
  if d =? 0 then Some (Next code (set_rg m rm (rg m rm + imm)))
  else if d =? 5 then Some (Next code (set_rg m rm (rg m rm - imm))) else None.
Definition step (c : list Z) (m : M) : option act :=
  let '(rex, c) := match c with b :: c' => if (0x40 <=? b) && (b <=? 0x4F) then (b - 0x40, c') else (0, c) | [] => (0, []) end in
  let w := Z.testbit rex 3 in
  let r8 := if Z.testbit rex 2 then 8 else 0 in
  let b8 := if Z.testbit rex 0 then 8 else 0 in
  match c with
  | [] => None
  | op :: c =>
      if (0x50 <=? op) && (op <=? 0x57) then Some (Next c (push m (op - 0x50 + b8)))
      else if (0x58 <=? op) && (op <=? 0x5F) then Some (Next c (pop m (op - 0x58 + b8)))
      else if op =? 0xC3 then Some (Return (load (mm m) (rg m RSP) 8) (set_rg m RSP (rg m RSP + 8)))
      else if negb w then None
      else match c with
      | [] => None
      | x :: c =>
          if negb (x / 64 =? 3) then None else
          let reg := (x / 8) mod 8 in
          let rm := x mod 8 + b8 in
          if op =? 0x83 then match c with i :: c => group1 reg rm (sext 8 i) c m | [] => None end
          else if op =? 0x81 then
            match c with i0 :: i1 :: i2 :: i3 :: c => group1 reg rm (sext 32 (le_val [i0; i1; i2; i3])) c m | _ => None end
          else if op =? 0x89 then Some (Next c (set_rg m rm (rg m (reg + r8))))
          else if op =? 0x8B then Some (Next c (set_rg m (reg + r8) (rg m rm)))
          else None
      end
  end.
Inductive steps : list Z -> M -> list Z -> M -> Prop :=
  | st_refl c m : steps c m c m
  | st_step c m c1 m1 c2 m2 : step c m = Some (Next c1 m1) -> steps c1 m1 c2 m2 -> steps c m c2 m2.

(* calling conventions: System V (false), Microsoft (true) *)
Definition args (win : bool) : list Z := if win then [1; 2; 8; 9] else [7; 6; 2; 1].
Definition callee_saved (win : bool) : list Z := if win then [3; 5; 6; 7; 12; 13; 14; 15] else [3; 5; 12; 13; 14; 15].
Definition regs64 (m : M) : Prop := forall r, 0 <= rg m r < 2 ^ 64.
(* the registers a body may change: those handed out by the frame, rax, rcx and rdx if reserved, and those the convention
   lets a function change *)
Definition free_regs (win : bool) (p t : list Z) (r : Z) : Prop := In r p \/ In r t \/ ~ In r (callee_saved win) /\ r <> RSP.
(* a body: it keeps rsp, the other callee saved registers and all memory at and above the end of its local area *)
Definition body_ok (win : bool) (p t : list Z) (size : Z) (m1 m2 : M) : Prop :=
  rg m2 RSP = rg m1 RSP /\ (forall r, rg m2 r = rg m1 r \/ free_regs win p t r) /\ regs64 m2
  /\ forall a, rg m1 RSP + Z.max 0 size <= a -> mm m2 a = mm m1 a.
