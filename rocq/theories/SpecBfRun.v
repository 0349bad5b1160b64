(* Specification: the processor of SpecMach together with the two C functions putchar and getchar.  When the instruction pointer
   reaches one of them it runs to its return; what it does to the processor is arbitrary within the rules of the System V ABI
   (rsp, rbx, rbp, r12 .. r15 are restored, memory of the caller is not touched). *)
From Coq Require Import ZArith List Bool.
From Verif Require Import Base State Code Gen SpecExec SpecMach.
Import ListNotations.
Open Scope Z_scope.

(* addresses of the functions, and the state after a call, which may depend on the input and the output so far *)
Record libc := mkLibc { putchar : Z; getchar : Z; do_put : list Z -> list Z -> st -> st; do_get : list Z -> list Z -> st -> st }.
(* the next character; getchar returns EOF = -1 at the end *)
Definition next_char (i : list Z) : Z := match i with v :: _ => v | [] => -1 end.
Definition ret_addr (x : st) : Z := addr64 (load (mm x) (rg x RSP) 8).
(* instruction pointer, state, input left, output *)
Definition iost : Type := Z * st * list Z * list Z.
Inductive io (c : libc) : iost -> iost -> Prop :=
| IO_none d : io c d d
| IO_cpu ip x ip' x' i o d : ip <> putchar c -> ip <> getchar c -> mstep ip x = Some (ip', x') -> io c (ip', x', i, o) d -> io c (ip, x, i, o) d
| IO_put x i o d : io c (ret_addr x, do_put c i o x, i, o ++ [rg x 7 mod 256]) d -> io c (putchar c, x, i, o) d
| IO_get x i o d : getchar c <> putchar c -> io c (ret_addr x, do_get c i o x, tl i, o) d -> io c (getchar c, x, i, o) d.
Definition callee_saved : list Z := [3; 5; 12; 13; 14; 15].
Definition returns (mine : Z -> Prop) (x x' : st) : Prop :=
  rg x' RSP = addr64 (rg x RSP + 8) /\ (forall r, In r callee_saved -> rg x' r = rg x r) /\ forall a, mine a -> mm x' a = mm x a.
Definition conforms (c : libc) (mine : Z -> Prop) : Prop :=
  putchar c <> getchar c /\ forall i o x, returns mine x (do_put c i o x) /\ returns mine x (do_get c i o x) /\ rg (do_get c i o x) 0 mod 256 = next_char i mod 256.

(* n bytes at b *)
Definition bytes_at (b n a : Z) : Prop := exists k, 0 <= k < n /\ a = addr64 (b + k).
(* the code of s, a tape of N bytes, and the stack around the stack pointer at entry: the return address, three saved registers,
   the return address of one call *)
Definition code_bytes (s : St) : Z -> Prop := bytes_at (c_top (g_code s)) (c_size (g_code s)).
Record apart (c : libc) (s : St) (tape N sp : Z) : Prop := {
  ap_size : 0 < N <= 2 ^ 31;
  ap_code : forall a, bytes_at tape N a -> ~ code_bytes s a;
  ap_stack : forall a, bytes_at tape N a -> ~ bytes_at (sp - 32) 40 a;
  ap_stack_code : forall a, bytes_at (sp - 32) 32 a -> ~ code_bytes s a;
  ap_put : ~ bytes_at (c_top (g_code s)) (c_size (g_code s) + 1) (putchar c);
  ap_get : ~ bytes_at (c_top (g_code s)) (c_size (g_code s) + 1) (getchar c) }.
(* what putchar and getchar must not change *)
Definition callers (s : St) (tape N sp : Z) (a : Z) : Prop := code_bytes s a \/ bytes_at tape N a \/ bytes_at (sp - 24) 32 a.
