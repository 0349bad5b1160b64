(* Condition codes, written from the architecture manuals and not from xbyak: what a condition suffix means for the
   flags, what the processor tests for a 4-bit condition code, and what the suffixes mean after a comparison. *)
From Coq Require Import ZArith List Bool String.
Import ListNotations.
Open Scope Z_scope.

Record flags := mkFlags { fCF : bool; fPF : bool; fZF : bool; fSF : bool; fOF : bool }.
(* SDM vol. 1, appendix B: the test of a condition code; bit 0 negates *)
Definition cc_base (n : Z) (f : flags) : bool :=
  if n =? 0 then fOF f else if n =? 1 then fCF f else if n =? 2 then fZF f else if n =? 3 then fCF f || fZF f
  else if n =? 4 then fSF f else if n =? 5 then fPF f else if n =? 6 then xorb (fSF f) (fOF f)
  else fZF f || xorb (fSF f) (fOF f).
Definition cc_holds (k : Z) (f : flags) : bool := xorb (Z.testbit k 0) (cc_base (k / 2) f).
(* Intel APX: the source condition of CCMPscc/CTESTscc; the parity codes mean always and never *)
Definition scc_holds (k : Z) (f : flags) : bool := if k =? 10 then true else if k =? 11 then false else cc_holds k f.

(* the suffixes *)
Definition above f := negb (fCF f) && negb (fZF f).
Definition below f := fCF f.
Definition equal f := fZF f.
Definition less f := negb (Bool.eqb (fSF f) (fOF f)).
Definition greater f := negb (fZF f) && Bool.eqb (fSF f) (fOF f).
Definition cond_of (n : string) : option (flags -> bool) :=
  match n with
  | "o" => Some fOF | "no" => Some (fun f => negb (fOF f))
  | "b" | "c" | "nae" => Some below
  | "nb" | "nc" | "ae" => Some (fun f => negb (below f))
  | "e" | "z" => Some equal
  | "ne" | "nz" => Some (fun f => negb (equal f))
  | "be" | "na" => Some (fun f => below f || equal f)
  | "a" | "nbe" => Some above
  | "s" => Some fSF | "ns" => Some (fun f => negb (fSF f))
  | "p" | "pe" => Some fPF
  | "np" | "po" => Some (fun f => negb (fPF f))
  | "l" | "nge" => Some less
  | "ge" | "nl" => Some (fun f => negb (less f))
  | "le" | "ng" => Some (fun f => less f || equal f)
  | "g" | "nle" => Some greater
  | _ => None
  end%string.
Definition scond_of (n : string) : option (flags -> bool) :=
  match n with "t" => Some (fun _ => true) | "f" => Some (fun _ => false) | _ => cond_of n end%string.
(* the code k is the one for the suffix n *)
Definition encodes (n : string) (k : Z) : Prop :=
  0 <= k < 16 /\ exists m, cond_of n = Some m /\ forall f, cc_holds k f = m f.
Definition sencodes (n : string) (k : Z) : Prop :=
  0 <= k < 16 /\ exists m, scond_of n = Some m /\ forall f, scc_holds k f = m f.

(* the flags of cmp a, b for w-bit numbers: unsigned and signed value of a word, carry, overflow *)
Definition sval (w x : Z) : Z := if x <? 2 ^ (w - 1) then x else x - 2 ^ w.
Definition cmp_flags (w a b : Z) (pf : bool) : flags :=
  let d := (a - b) mod 2 ^ w in
  mkFlags (a <? b) pf (d =? 0) (2 ^ (w - 1) <=? d)
    (negb ((- 2 ^ (w - 1) <=? sval w a - sval w b) && (sval w a - sval w b <? 2 ^ (w - 1)))).
Definition relation_of (n : string) (w a b : Z) : option bool :=
  match n with
  | "b" | "c" | "nae" => Some (a <? b)%Z | "ae" | "nb" | "nc" => Some (b <=? a)%Z
  | "e" | "z" => Some (a =? b)%Z | "ne" | "nz" => Some (negb (a =? b))%Z
  | "be" | "na" => Some (a <=? b)%Z | "a" | "nbe" => Some (b <? a)%Z
  | "l" | "nge" => Some (sval w a <? sval w b)%Z | "ge" | "nl" => Some (sval w b <=? sval w a)%Z
  | "le" | "ng" => Some (sval w a <=? sval w b)%Z | "g" | "nle" => Some (sval w b <? sval w a)%Z
  | _ => None
  end%string.
