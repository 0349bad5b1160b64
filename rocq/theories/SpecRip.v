(* Specification: memory operands relative to the instruction pointer.  The processor adds the displacement to the address of
   the next instruction, so an encoder has to know how many bytes follow the displacement. *)
From Coq Require Import ZArith List Bool.
From Verif Require Import Base Types SpecX86 Emit EmitFacts State Code.
From Verif Require SpecMem.
Import ListNotations.
Open Scope Z_scope.

(* ptr [rip + label + n], ptr [address], as they are constructed, possibly with a mask or broadcast *)
Definition rip_mem (a : Address) : Prop :=
  kind_ (a_op a) = MEM /\ 0 <= bit_ (a_op a) /\ NF_ (a_op a) = false /\ ZU_ (a_op a) = false /\ immSize a = 0 /\ a_e a = regExpDisp (getDisp a)
  /\ (a_mode a = M_rip /\ a_label a <> None \/ a_mode a = M_ripAddr).

(* the items of an instruction with operand a, emitted at address start; [left] more bytes of the instruction follow the items.
   A label: one reference to it, with as addend n minus the number of bytes between the end of the displacement and the end of
   the instruction.  An address: a displacement that leads from the end of the instruction to the address. *)
Definition reference (a : Address) (start : Z) (its : list item) (left : Z) : Prop :=
  exists pre post,
  match a_label a with
  | Some l => its = map IDb pre ++ IPutL (LObj l) true (w64 (getDisp a - (Z.of_nat (length post) + left))) :: map IDb post
  | None => exists d, its = map IDb (pre ++ le_bytes d 4 ++ post) /\ 0 <= d < 2 ^ 32
      /\ (start + items_size its + left + signed 32 d) mod 2 ^ 64 = getDisp a mod 2 ^ 64
  end.
(* whatever m emits is an instruction with a reference to a *)
Definition refers {A} (a : Address) (m : E A) : Prop :=
  forall env pos its u, emits m env pos its u -> reference a (env_top env + pos) its 0.
(* offset in the instruction of the displacement that waits for a label *)
Fixpoint label_field (its : list item) : option Z :=
  match its with
  | [] => None
  | IPutL _ true _ :: _ => Some 0
  | i :: l => match label_field l with Some n => Some (items_size [i] + n) | None => None end
  end.
(* the address an instruction that ends at offset [next] refers to by its 4-byte displacement at pos *)
Definition rip_target (c : Code) (pos next : Z) : Z := w64 (c_top c + next + SpecMem.read_signed c pos 4).
