(* Specification: the language Brainfuck, independent of xbyak: the text of a program, and what a program does with a tape of
   bytes, an input and an output.  Used for the compiler sample/bf.cpp (C58).  A run of n equal characters + - > < counts as
   one command with the number n; getchar at the end of the input stores 255 (the low byte of EOF). *)
From Coq Require Import ZArith List Bool Ascii String.
Import ListNotations.
Open Scope Z_scope.

(* a command and what follows it *)
Inductive bf :=
| End
| Add (n : Z) (k : bf)          (* the cell plus n *)
| Move (n : Z) (k : bf)
| Put (k : bf)
| Get (k : bf)
| Loop (b k : bf).              (* [b] k *)

(* ---- text ---- *)
(* runs of the characters + - > < *)
Definition counted (c : ascii) : bool := existsb (Ascii.eqb c) ["+"; "-"; ">"; "<"]%char.
Fixpoint groups (t : list ascii) : list (ascii * Z) :=
  match t with
  | [] => []
  | c :: t => match groups t with
              | (d, n) :: r => if counted c && Ascii.eqb c d then (c, n + 1) :: r else (c, 1) :: (d, n) :: r
              | [] => [(c, 1)] end
  end.
(* the program of a text, from the right: the part before the first open "]", the part after it, ... *)
Fixpoint parts (g : list (ascii * Z)) : option (list bf) :=
  match g with
  | [] => Some [End]
  | (c, n) :: g =>
      match parts g with
      | Some (b :: r) =>
          if Ascii.eqb c "+" then Some (Add n b :: r) else if Ascii.eqb c "-" then Some (Add (- n) b :: r)
          else if Ascii.eqb c ">" then Some (Move n b :: r) else if Ascii.eqb c "<" then Some (Move (- n) b :: r)
          else if Ascii.eqb c "." then Some (Put b :: r) else if Ascii.eqb c "," then Some (Get b :: r)
          else if Ascii.eqb c "]" then Some (End :: b :: r)
          else if Ascii.eqb c "[" then match r with k :: r => Some (Loop b k :: r) | [] => None end
          else Some (b :: r)                      (* other characters are comments *)
      | _ => None end
  end.
(* a text whose brackets match *)
Definition parse (t : list ascii) : option bf := match parts (groups t) with Some [b] => Some b | _ => None end.

(* ---- execution ---- *)
(* what is left to do: a program, then the loops around it from the inside; the cells, the position, input left, output *)
Record bst := mkB { todo : bf; around : list bf; cells : Z -> Z; here : Z; input : list Z; output : list Z }.
Definition put_cell (m : Z -> Z) (i v : Z) : Z -> Z := fun j => if j =? i then v mod 256 else m j.
(* one command on a tape of N cells; a program that leaves the tape has no meaning *)
Inductive bstep (N : Z) : bst -> bst -> Prop :=
| B_add n k a m i p o : bstep N (mkB (Add n k) a m i p o) (mkB k a (put_cell m i (m i + n)) i p o)
| B_move n k a m i p o : 0 <= i + n < N -> bstep N (mkB (Move n k) a m i p o) (mkB k a m (i + n) p o)
| B_put k a m i p o : bstep N (mkB (Put k) a m i p o) (mkB k a m i p (o ++ [m i]))
| B_get k a m i v p o : bstep N (mkB (Get k) a m i (v :: p) o) (mkB k a (put_cell m i v) i p o)
| B_eof k a m i o : bstep N (mkB (Get k) a m i [] o) (mkB k a (put_cell m i 255) i [] o)
| B_skip b k a m i p o : m i = 0 -> bstep N (mkB (Loop b k) a m i p o) (mkB k a m i p o)
| B_enter b k a m i p o : m i <> 0 -> bstep N (mkB (Loop b k) a m i p o) (mkB b (Loop b k :: a) m i p o)
| B_again l a m i p o : bstep N (mkB End (l :: a) m i p o) (mkB l a m i p o).
Inductive bsteps (N : Z) : bst -> bst -> Prop :=
| B_none c : bsteps N c c
| B_one c c' c'' : bstep N c c' -> bsteps N c' c'' -> bsteps N c c''.
(* the program is finished *)
Definition all_done (c : bst) : Prop := todo c = End /\ around c = [].
