(* Runs with putchar and getchar are deterministic; an instance of the C library; an interpreter for the examples. *)
From Coq Require Import ZArith List Bool String Ascii Lia.
From Verif Require Import Base Types Emit EmitFacts Encode Mnemonic SpecX86 SpecLeg SpecCond SpecExec SpecMach State Code Label Gen SpecLabel LabelThms Grow LabelThms6 SpecProg ProgInsn ProgMach ProgHist ProgSim ProgSum ProgThms SpecBf SpecBfRun Bf BfRun.
Import ListNotations.
Open Scope list_scope.
Open Scope Z_scope.

Lemma io_one c d e : io c d e -> forall f, io c d f -> io c e f \/ io c f e.
Proof.
  induction 1 as [d|ip x ip' x' i o d H1 H2 H3 H IH|x i o d H IH|x i o d H1 H IH]; intros f Hf; [now left|..]; inversion Hf; subst;
    try (right; eapply IO_cpu; eauto; fail); try (right; eapply IO_put; eauto; fail); try (right; eapply IO_get; eauto; fail); try congruence; apply IH; congruence.
Qed.

(* functions that return at once *)
Definition lib0 (pa ga : Z) : libc :=
  mkLibc pa ga (fun _ _ x => set_reg x RSP (addr64 (rg x RSP + 8))) (fun i _ x => set_reg (set_reg x 0 (next_char i mod 2 ^ 32)) RSP (addr64 (rg x RSP + 8))).
Lemma lib0_conforms pa ga mine : pa <> ga -> conforms (lib0 pa ga) mine.
Proof.
  intros H. split; [exact H|]. intros i o x. split; [|split]; cbn [lib0 do_put do_get].
  - split; [reflexivity|]. split; [|reflexivity]. intros r [<-|[<-|[<-|[<-|[<-|[<-|[]]]]]]]; reflexivity.
  - split; [reflexivity|]. split; [|reflexivity]. intros r [<-|[<-|[<-|[<-|[<-|[<-|[]]]]]]]; reflexivity.
  - change (rg (set_reg (set_reg x 0 (next_char i mod 2 ^ 32)) RSP (addr64 (rg x RSP + 8))) 0) with (next_char i mod 2 ^ 32).
    change (2 ^ 32) with (256 * 2 ^ 24). rewrite Z.rem_mul_r by lia. rewrite Z.mul_comm, Z.mod_add by lia. now rewrite Z.mod_mod.
Qed.
Lemma bytes_small b n z : 0 <= b -> 0 <= n -> b + n <= 2 ^ 64 -> bytes_at b n z <-> b <= z < b + n.
Proof.
  intros H1 H2 H3. split; [intros (k & Hk & ->); unfold addr64; rewrite Z.mod_small; lia|]. intros H. exists (z - b). split; [lia|]. unfold addr64. rewrite Z.mod_small; lia.
Qed.
(* everything at small addresses: the stack below the tape below the code *)
Lemma apart_small pa ga s tape N sp : 0 < N <= 2 ^ 31 -> 32 <= sp -> sp + 8 <= tape -> tape + N <= c_top (g_code s) -> 0 <= c_size (g_code s) ->
  c_top (g_code s) + c_size (g_code s) < 2 ^ 64 -> pa < c_top (g_code s) -> ga < c_top (g_code s) -> apart (lib0 pa ga) s tape N sp.
Proof.
  intros. split; [lia|..]; intros; unfold code_bytes in *; cbn [lib0 putchar getchar]; rewrite ?bytes_small in * by lia; lia.
Qed.
(* at most n commands *)
Fixpoint brun (n : nat) (c : bst) : bst :=
  match n with
  | O => c
  | S n =>
      let m := cells c in let i := here c in
      match todo c with
      | Add k r => brun n (mkB r (around c) (put_cell m i (m i + k)) i (input c) (output c))
      | Move k r => if (0 <=? i + k) && (i + k <? 1000) then brun n (mkB r (around c) m (i + k) (input c) (output c)) else c
      | Put r => brun n (mkB r (around c) m i (input c) (output c ++ [m i]))
      | Get r => match input c with v :: p => brun n (mkB r (around c) (put_cell m i v) i p (output c)) | [] => brun n (mkB r (around c) (put_cell m i 255) i [] (output c)) end
      | Loop b r => if m i =? 0 then brun n (mkB r (around c) m i (input c) (output c)) else brun n (mkB b (Loop b r :: around c) m i (input c) (output c))
      | End => match around c with [] => c | l :: a => brun n (mkB l a m i (input c) (output c)) end
      end
  end.
Lemma brun_ok n : forall c, bsteps 1000 c (brun n c).
Proof.
  induction n as [|n IH]; intros [t a m i p o]; cbn [brun todo around cells here input output]; [constructor|].
  destruct t as [|k r|k r|r|r|b r].
  - destruct a; [constructor|]. econstructor; [apply B_again|apply IH].
  - econstructor; [apply B_add|apply IH].
  - destruct ((0 <=? i + k) && (i + k <? 1000)) eqn:E; [|constructor]. apply andb_prop in E as [E1 E2]. econstructor; [apply B_move; lia|apply IH].
  - econstructor; [apply B_put|apply IH].
  - destruct p; (econstructor; [first [apply B_get|apply B_eof]|apply IH]).
  - destruct (Z.eqb_spec (m i) 0); (econstructor; [first [now apply B_skip|now apply B_enter]|apply IH]).
Qed.
(* the processor with lib0, at most n instructions, until the return to 0x1000 *)
Fixpoint iorun (c : libc) (n : nat) (d : iost) : iost :=
  match n with
  | O => d
  | S n => let '(ip, x, i, o) := d in
      if ip =? 0x1000 then d
      else if ip =? putchar c then iorun c n (ret_addr x, do_put c i o x, i, o ++ [rg x 7 mod 256])
      else if ip =? getchar c then iorun c n (ret_addr x, do_get c i o x, tl i, o)
      else match mstep ip x with Some (ip, x) => iorun c n (ip, x, i, o) | None => d end
  end.
