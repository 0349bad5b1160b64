(* Property theorem C39 for the whole library: VEX/EVEX, legacy, APX, x87, fixed byte sequences and branches. *)
From Coq Require Import ZArith List Bool String Lia.
From Verif Require Import Base Types Emit Encode SpecX86 SpecAddr SpecLeg SpecMix SpecFixed SpecInsn Wf EmitFacts Mnemonic LegTables LegTables2 FixedTables NoShare NoShareAll.
Import ListNotations.
Open Scope list_scope.
Open Scope Z_scope.

(* the first instruction of bytes emitted by two calls of methods of the tables has one name, up to [synonyms].  Bytes that
   follow are arbitrary: no instruction is a proper prefix of another one *)
Theorem C39_all_instructions : forall enc n1 n2 bs, emitted_all enc n1 bs -> emitted_all enc n2 bs -> same_insn n1 n2 = true.
Proof. exact share_all. Qed.
Print Assumptions C39_all_instructions.
Definition env3 := mkEnv false 0x400000 false false VexEncoding PreAVX10v2Encoding.
Example C39_all_example :
  same_insn "shl" "sal" = true /\ same_insn "jz" "je" = true /\ same_insn "add" "sub" = false /\ same_insn "jl" "jb" = false
  /\ emitted_all DefaultEncoding "mfence" [0x0F; 0xAE; 0xF0] /\ emitted_all DefaultEncoding "jne" [0x75; 0x10]
  /\ emitted_all DefaultEncoding "fsubr" [0xDC; 0xE3] /\ List.length (all_pats DefaultEncoding) = 3944%nat.
Proof.
  do 4 (split; [reflexivity|]). split; [|split; [|split]].
  - refine (ea_fixed DefaultEncoding "mfence" i_mfence (fun _ _ _ => 0) env3 0 [IDb 0x0F; IDb 0xAE; IDb 0xF0] [] tt (nth_error_In _ 72 _) eq_refl _); [reflexivity|split; reflexivity].
  - refine (ea_branch DefaultEncoding "jne" [0x75] [0x10] (nth_error_In _ 10 _)). reflexivity.
  - refine (ea_x87_2 DefaultEncoding "fsubr" i_fsubr_ff (Fpu 3) (Fpu 0) (fun _ _ _ => 0) env3 0 [IDb 0xDC; IDb 0xE3] [] tt (nth_error_In _ 10 _) _ _ (or_intror (or_intror (nth_error_In _ 10 _))) _);
      try reflexivity; try (repeat split; cbn; lia).
  - vm_compute. reflexivity.
Qed.
