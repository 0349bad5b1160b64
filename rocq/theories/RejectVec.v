(* Which operands vector methods reject: lengths of the first two operands; the register file of the last operand, which most methods
   do not look at. *)
From Coq Require Import ZArith List Bool String Lia.
From Verif Require Import Base Types Emit EmitFacts Encode Mnemonic SpecX86 SpecAddr SpecIsa SpecInsn SpecLeg SpecMix Wf ArgCheck SpecAccept Accept SpecReject Reject.
Import ListNotations.
Open Scope string_scope.
Open Scope list_scope.
Open Scope Z_scope.

(* operands of the parameter types, registers n, n + 1, ..; os for a parameter of type Operand *)
Definition choice (os : list Operand) (n : Z) (c : cls) : list Operand :=
  match c with
  | cX | cX4 => vectors n | cY => [OReg (Ymm n); OReg (Zmm n)] | cZ => [OReg (Zmm n)] | cK => [OReg (Opmask (n mod 8))] | cT => [OReg (Tmm (n mod 8))]
  | cR w | cG w => filter (fun o => bit_ (ob o) =? w) (general n) | cRe => [OReg (Reg32 n); OReg (Reg64 n)] | cO => os | _ => [memory false n 0] end.
Fixpoint choices (os : list Operand) (n : Z) (l : list cls) : list (list Operand) := match l with [] => [] | c :: l => choice os n c :: choices os ((n + 1) mod 16) l end.
Definition emit (e : entry) (ops : list Operand) : option (list item) :=
  match en_fun e ops 1 with Some m => match m env0 0 with (i :: its, Ok _) => Some (i :: its) | _ => None end | None => None end.

(* ---- ModRM.reg and vvvv are vector registers ---- *)
Definition two_vectors (e : entry) : bool :=
  match r_enc (en_row e), en_sig e with SR :: SV :: _, (cX | cY | cZ) :: (cX | cY | cZ | cO) :: _ => true | _, _ => false end.
(* they are equally long, except for conversions to elements half as large *)
Definition halves : list string := ["vcvtbiasph2bf8/xxo"; "vcvtbiasph2bf8s/xxo"; "vcvtbiasph2hf8/xxo"; "vcvtbiasph2hf8s/xxo"].
Definition lengths_agree (name : string) (ops : list Operand) : bool :=
  match ops with
  | OReg a :: OReg b :: _ => if existsb (String.eqb name) halves then bit_ a =? Z.max 128 (bit_ b / 2) else bit_ a =? bit_ b
  | OReg a :: OMem _ :: _ => true | _ => false end.
Lemma all_agree : forallb (fun e => forallb (fun ops => match emit e ops with Some _ => lengths_agree (en_name e) ops | None => true end)
    (prod (choices (vectors 7 ++ [memory false 1 0]) 1 (en_sig e)))) (filter two_vectors (methods DefaultEncoding)) = true.
Proof. vm_compute. reflexivity. Qed.
Lemma emit_iff e ops act : en_fun e ops 1 = Some act -> (accepted act <-> exists its, emit e ops = Some its).
Proof.
  intros H. unfold emit. rewrite H. split.
  - intros (i & its & _ & Q). exists (i :: its). now rewrite Q.
  - intros (its & Q). destruct (act env0 0) as [[|i l] [[]|x]] eqn:A; try discriminate. exists i, l. split; [reflexivity|exact A].
Qed.
Theorem lengths_checked e ops act : In e (methods DefaultEncoding) -> two_vectors e = true -> In ops (prod (choices (vectors 7 ++ [memory false 1 0]) 1 (en_sig e))) ->
  en_fun e ops 1 = Some act -> accepted act -> lengths_agree (en_name e) ops = true.
Proof.
  intros H T Ho Hf A. pose proof all_agree as C. rewrite forallb_forall in C. assert (In e (filter two_vectors (methods DefaultEncoding))) as J by (apply filter_In; now split).
  specialize (C _ J). rewrite forallb_forall in C. specialize (C _ Ho). cbv beta in C. apply (emit_iff _ _ _ Hf) in A as (its & A). now rewrite A in C.
Qed.

(* ---- registers that are not vector registers, as operand of type Operand ---- *)
Definition odds : list Operand := [OReg (Reg8 7); OReg (Reg16 7); OReg (Reg32 7); OReg (Reg64 7); OReg (Mmx 7); OReg (Opmask 7); OReg (BoundsReg 3); OReg (Fpu 7)].
Definition xmm_for (o : Operand) : Operand := match o with OReg r => OReg (Xmm (idx_ r)) | OMem _ => o end.
Fixpoint with_xmm (l : list cls) (ops : list Operand) : list Operand :=
  match l, ops with cO :: l, o :: ops => xmm_for o :: with_xmm l ops | _ :: l, o :: ops => o :: with_xmm l ops | _, _ => [] end.
Definition has_operand (e : entry) : bool := existsb (fun c => match c with cO => true | _ => false end) (en_sig e).
Definition item_eq (a b : list item) : {a = b} + {a <> b}. Proof. repeat decide equality. Defined.
(* the instructions that take a general register there (their rows say so: C18) *)
Definition general_source : list string := ["vextractps/oxi"; "vpextrb/oxi"; "vpextrw/oxi"; "vpextrd/oxi"; "vpextrq/oxi"; "vpinsrb/xxoi"; "vpinsrw/xxoi"; "vpinsrd/xxoi"; "vpinsrq/xxoi"].
Lemma all_ignored : forallb (fun e => if existsb (String.eqb (en_name e)) general_source then true else forallb (fun ops => match emit e ops with
      | Some a => match emit e (with_xmm (en_sig e) ops) with Some b => if item_eq a b then true else false | None => false end | None => true end)
    (prod (choices odds 1 (en_sig e)))) (filter has_operand (methods DefaultEncoding)) = true.
Proof. vm_compute. reflexivity. Qed.
Theorem file_ignored e ops its : In e (methods DefaultEncoding) -> has_operand e = true -> existsb (String.eqb (en_name e)) general_source = false ->
  In ops (prod (choices odds 1 (en_sig e))) -> emit e ops = Some its -> emit e (with_xmm (en_sig e) ops) = Some its.
Proof.
  intros H T G Ho A. pose proof all_ignored as C. rewrite forallb_forall in C. assert (In e (filter has_operand (methods DefaultEncoding))) as J by (apply filter_In; now split).
  specialize (C _ J). cbv beta in C. rewrite G in C. rewrite forallb_forall in C. specialize (C _ Ho). cbv beta in C. rewrite A in C.
  destruct (emit e (with_xmm _ _)) as [b|]; [|discriminate]. destruct (item_eq its b) as [->|]; [reflexivity|discriminate].
Qed.
Definition takes_mask (e : entry) : bool :=
  existsb (fun ops => match emit e ops with Some _ => true | None => false end) (prod (choices [OReg (Opmask 7)] 1 (en_sig e))).
Lemma ignoring : List.length (filter takes_mask (filter has_operand (methods DefaultEncoding))) = 646%nat.
Proof. vm_compute. reflexivity. Qed.
