(* Which calls are rejected: sweeps over the tables. *)
From Coq Require Import Ascii ZArith List Bool String Lia.
From Verif Require Import Base Types Emit EmitFacts Encode Mnemonic SpecX86 SpecAddr SpecIsa SpecInsn SpecLeg SpecMix Wf ArgCheck LegTables LegTables2 MixTables MixTables2 LegGpr2 SpecAccept Accept SpecReject Params.
Import ListNotations.
Open Scope string_scope.
Open Scope list_scope.
Open Scope Z_scope.

Lemma acc_iff m : acc m = true <-> accepted m.
Proof. split; [apply acc_ok|]. intros (i & its & _ & H). unfold acc. now rewrite H. Qed.

(* the methods: name, function, parameter types *)
Definition callables : list (string * insn * list ptype) :=
  map (fun p => (le_name (fst p), le_fun (fst p), snd (snd p))) (combine (legacy_table ++ gpr_table) leg_params)
  ++ map (fun p => (me_name (fst p), me_fun (fst p), snd (snd p))) (combine (mix_table ++ mix2_table ++ wait_table) mix_params).
Lemma params_fit :
  map le_name (legacy_table ++ gpr_table) = map fst leg_params /\ map me_name (mix_table ++ mix2_table ++ wait_table) = map fst mix_params.
Proof. split; vm_compute; reflexivity. Qed.
(* the name without the suffix of an overload *)
Fixpoint base (s : string) : string :=
  match s with
  | EmptyString => EmptyString
  | String c r => if Ascii.eqb c "_"%char then if existsb (String.eqb r) ["ax"; "a"; "mo"; "om"; "mq"; "qm"; "am"] then EmptyString else String c (base r) else String c (base r) end.
(* the rows of the instruction; pextrw has a form with memory (66 0F 3A 15) outside these tables *)
Definition named_rows : list (string * list lrow) :=
  map (fun e => (base (le_name e), le_rows e)) (legacy_table ++ gpr_table) ++ map (fun e => (base (me_name e), me_rows e)) (mix_table ++ mix2_table ++ wait_table)
  ++ [("pextrw", [mkL P66 3 0x15 true None [mkOper InRm None true (Sn 16); mkOper InReg (Some KX) false (Sn 128)] OsN I_8])].
Definition rows_of (name : string) : list lrow := flat_map snd (filter (fun p => String.eqb (fst p) (base name)) named_rows).

(* ---- what is accepted besides ---- *)
Definition nong : list kind := [V 128; V 256; V 512; Mm; Kk; Tt; Bb; Ff].
Definition mem (l : list Z) : list kind := map Me l.
Definition anym : list kind := mem [0; 8; 16; 32; 64; 80; 128; 256; 512].
Definition large : list kind := mem [80; 128; 256; 512].
Definition yz : list kind := [V 256; V 512].
Definition vv : list kind := [V 128; V 256; V 512].
(* memory with a register that is not a general one: the sizes have to agree only for sizes below 128 *)
Definition with_mem : list (list kind * list kind) := [([V 128; V 256; V 512; Tt; Bb], anym); ([Mm; Kk], mem [0; 64]); ([Ff], mem [0; 32])].
Definition rm : list (list (list kind)) := map (fun p => [fst p; snd p]) with_mem.
Definition mr : list (list (list kind)) := map (fun p => [snd p; fst p]) with_mem.
Definition twice (l : list kind) : list (list (list kind)) := map (fun k => [[k]; [k]]) l.
Definition conditions : list string := ["o"; "no"; "b"; "c"; "nae"; "ae"; "nb"; "nc"; "e"; "z"; "ne"; "nz"; "be"; "na"; "a"; "nbe"; "s"; "ns"; "p"; "pe"; "np"; "po"; "l"; "nge"; "ge"; "nl"; "le"; "ng"; "g"; "nle"].
Definition also : list (list string * list (list (list kind))) := [
  (["pshufd"; "pshufhw"; "pshuflw"], [[[Mm]; Mm :: mem [0; 64]]]);
  (["pshufw"], [[[V 128]; V 128 :: anym]]);
  (map (String.append "cmov") conditions ++ ["bsf"; "bsr"], [nong; [G 16; G 32; G 64]] :: [[G 8]; mem [0; 8]] :: rm);
  (map (String.append "set") conditions, [[Me 16 :: Me 32 :: Me 64 :: large]]);
  (["imul"], [[G 8]; mem [0; 8]] :: rm ++ twice (G 8 :: nong));
  (["bt"; "bts"; "btr"; "btc"], [[Me 8 :: large]; [mem [0; 8]; [G 8]]; [[G 64]; [Mm; Kk]]; [[G 32]; [Ff]]] ++ mr);
  (["movzx"; "movsx"], [[[G 8]; [Me 0]]]);
  (["movsxd"], [[[G 64]; [Ff]]]);
  (["xadd"; "cmpxchg"], [[[Mm; Kk]; [G 64; Mm; Kk]]; [[G 64]; [Mm; Kk]]; [[Ff]; [G 32; Ff]]; [[G 32]; [Ff]]; [[V 128; Bb]; [V 128; Bb]]] ++ twice [V 256; V 512; Tt] ++ mr);
  (["test"; "add"; "or"; "adc"; "sbb"; "and"; "sub"; "xor"; "cmp"; "mov"], twice nong ++ mr);
  (["add"; "or"; "adc"; "sbb"; "and"; "sub"; "xor"; "cmp"; "not"; "neg"; "mul"; "imul"; "div"; "idiv"; "inc"; "dec"; "rol"; "ror"; "rcl"; "rcr"; "shl"; "sal"; "shr"; "sar"], [[large]]);
  (["rol"; "ror"; "rcl"; "rcr"; "shl"; "sal"; "shr"; "sar"], [[large; [Cl]]]);
  (["lea"], [[[Mm; Kk]; mem [0; 64]]; [[Ff]; mem [0; 32]]]);
  (["movbe"], [[G 8]; mem [0; 8]] :: [mem [0; 8]; [G 8]] :: rm ++ mr);
  (["adcx"; "adox"], [[[G 32; G 64]; nong]]);
  (["crc32"], [[[G 64]; [Mm; Kk]]; [[G 32]; [Ff]]; [[G 32; G 64]; [Me 80]]]);
  (["cvtsi2sd"; "cvtsi2ss"], [[[V 128]; Me 8 :: Me 16 :: Me 64 :: large]]);
  (["maskmovdqu"; "movhlps"; "movlhps"], [[yz; vv]; [[V 128]; yz]]);
  (["maskmovq"], [[vv; Mm :: vv]; [[Mm]; vv]]);
  (["movdq2q"], [[vv; vv]; [[Mm]; yz]]);
  (["movq2dq"], [[vv; vv]; [yz; [Mm]]]);
  (["movmskps"; "pmovmskb"; "movmskpd"], [[[G 32; G 64]; yz]]);
  (["lddqu"; "movntdqa"], [[yz; anym]]);
  (["movaps_ax"; "movapd_ax"; "movups_ax"; "movupd_ax"; "movdqa_ax"; "movdqu_ax"; "movss_ax"; "movsd_ax"; "movntps"], [[anym; yz]]);
  (["movntdq"; "movntpd"], [[mem [0; 16]; yz]]);
  (["movd_mo"], [[yz; G 32 :: anym]; [[Mm; V 128]; Me 8 :: Me 16 :: Me 64 :: large]]);
  (["movd_om"], [[G 32 :: anym; yz]; [Me 8 :: Me 16 :: Me 64 :: large; [Mm; V 128]]]);
  (["movq_mq"], [[yz; [G 64]]]);
  (["movq_qm"], [[[G 64]; yz]]);
  (["movq_mo"], [[yz; anym]; [[Mm]; Me 8 :: Me 16 :: Me 32 :: large]] ++ twice yz);
  (["movq_am"], [[anym; yz]; [Me 8 :: Me 16 :: Me 32 :: large; [Mm; V 128]]]);
  (["pinsrd"], [[[V 128]; G 64 :: Me 8 :: Me 16 :: Me 64 :: large]]);
  (["pextrd"], [[G 64 :: Me 8 :: Me 16 :: Me 64 :: large; [V 128]]]);
  (["pinsrw"], [[yz; G 32 :: anym]]);
  (["pextrw"], [[[G 32; G 64]; yz]; [Me 8 :: Me 32 :: Me 64 :: large; [V 128]]]);
  (["pinsrq"], [[yz; [G 64; Me 0; Me 64]]]);
  (["pextrq"], [[[G 64; Me 0; Me 64]; yz]]);
  (["psllw"; "pslld"; "psllq"; "psraw"; "psrad"; "psrlw"; "psrld"; "psrlq"; "pslldq"; "psrldq"], [[yz]]);
  (["rdrand"; "rdseed"], [[nong]]);
  (["fiadd"; "ficom"; "ficomp"; "fidiv"; "fidivr"; "fimul"; "fisub"; "fisubr"; "fild"; "fist"; "fistp"; "fisttp"], [[[Me 80]]]);
  (["lss"; "lfs"; "lgs"], [[nong; anym]]);
  (["movdir64b"], [[[G 8; G 16; G 32; V 128; V 256; V 512; Kk; Tt; Ff]; mem [0; 32]]]) ].
Definition also_of (name : string) : list (list (list kind)) := flat_map snd (filter (fun p => existsb (String.eqb name) (fst p)) also).
Definition listed (name : string) (ops : list Operand) : bool := existsb (fun p => matches p ops) (also_of name).

(* an operand list that no row has is accepted exactly if it is listed *)
Definition exactb (n : Z) (c : string * insn * list ptype) : bool :=
  let '(name, f, ps) := c in let rows := rows_of name in let al := also_of name in
  forallb (fun ops => match f ops 1 with Some m => if legal rows ops then true else Bool.eqb (acc m) (existsb (fun p => matches p ops) al) | None => true end) (prod (map (operands n) ps)).
Lemma all_exact : forallb (fun n => forallb (exactb n) callables) [1; 12] = true. Proof. vm_compute. reflexivity. Qed.
Theorem exact name f ps n ops act : In (name, f, ps) callables -> In n [1; 12] -> In ops (prod (map (operands n) ps)) -> f ops 1 = Some act ->
  legal (rows_of name) ops = false -> (accepted act <-> listed name ops = true).
Proof.
  intros H Hn Ho Hf L. pose proof all_exact as C. rewrite forallb_forall in C. specialize (C _ Hn). rewrite forallb_forall in C. specialize (C _ H).
  unfold exactb in C. cbv zeta in C. rewrite forallb_forall in C. specialize (C _ Ho). cbv beta in C. rewrite Hf, L in C. apply eqb_prop in C.
  rewrite <- acc_iff, C. unfold listed. apply iff_refl.
Qed.

(* ---- what is emitted for some of these ---- *)
Definition call (name : string) (ops : list Operand) : option (E unit) :=
  let l := flat_map (fun c => match snd (fst c) ops 1 with Some m => [m] | None => [] end) (filter (fun c => String.eqb (fst (fst c)) name) callables) in
  match l with m :: _ => Some m | [] => None end.
Definition emitted (name : string) (ops : list Operand) : option (list item) :=
  match call name ops with Some m => match m env0 0 with (i :: its, Ok _) => Some (i :: its) | _ => None end | None => None end.
(* calls (name, operands) and operands for which the same bytes are emitted; m: a memory operand declared with a size *)
Local Notation R := OReg.
Local Notation m := (memory false 12).
Definition alike : list (string * list Operand * list Operand) := [
  ("add", [R (Xmm 1); R (Xmm 2)], [R (Reg32 1); R (Reg32 2)]); ("mov", [R (Xmm 1); R (Xmm 2)], [R (Reg32 1); R (Reg32 2)]);
  ("mov", [R (Mmx 1); R (Mmx 2)], [R (Reg32 1); R (Reg32 2)]); ("mov", [R (Ymm 9); R (Ymm 2)], [R (Reg32 9); R (Reg32 2)]);
  ("mov", [m 8; R (Ymm 2)], [m 32; R (Reg32 2)]); ("cmova", [R (Xmm 1); R (Reg32 2)], [R (Reg32 1); R (Reg32 2)]);
  ("cmova", [R (Xmm 1); R (Reg64 2)], [R (Reg64 1); R (Reg64 2)]); ("cmova", [R (Reg8 1); m 0], [R (Reg32 1); m 32]);
  ("bsf", [R (Xmm 1); m 8], [R (Reg32 1); m 32]); ("imul", [R (Reg8 1); R (Reg8 2)], [R (Reg32 1); R (Reg32 2)]); ("seta", [m 32], [m 8]); ("div", [m 80], [m 64]);
  ("div", [m 512], [m 32]); ("add", [m 512], [m 32]); ("shl", [m 128], [m 32]); ("movzx", [R (Reg8 1); m 0], [R (Reg32 1); m 8]);
  ("movsxd", [R (Reg64 1); R (Fpu 2)], [R (Reg64 1); R (Reg32 2)]); ("xadd", [R (Mmx 1); R (Reg64 2)], [R (Reg64 1); R (Reg64 2)]);
  ("xadd", [R (Xmm 1); R (Xmm 2)], [R (Reg32 1); R (Reg32 2)]); ("pshufw", [R (Xmm 1); R (Xmm 2)], [R (Mmx 1); R (Mmx 2)]);
  ("lea", [R (Mmx 1); m 0], [R (Reg32 1); m 0]); ("lea", [R (Fpu 1); m 0], [R (Reg32 1); m 0]); ("rdrand", [R (Xmm 1)], [R (Reg32 1)]);
  ("rdrand", [R (Mmx 1)], [R (Reg64 1)]); ("lss", [R (Xmm 1); m 0], [R (Reg32 1); m 0]); ("movbe", [R (Reg8 1); m 0], [R (Reg32 1); m 0]);
  ("movbe", [R (Xmm 1); m 0], [R (Reg32 1); m 0]); ("movdir64b", [R (Reg32 1); m 0], [R (Reg64 1); m 0]);
  ("adcx", [R (Reg32 1); R (Xmm 2)], [R (Reg32 1); R (Reg32 2)]); ("crc32", [R (Reg64 1); R (Opmask 2)], [R (Reg64 1); R (Reg64 2)]);
  ("maskmovq", [R (Xmm 1); R (Xmm 2)], [R (Mmx 1); R (Mmx 2)]); ("movhlps", [R (Ymm 1); R (Zmm 2)], [R (Xmm 1); R (Xmm 2)]);
  ("movdq2q", [R (Xmm 1); R (Xmm 2)], [R (Mmx 1); R (Xmm 2)]); ("movmskps", [R (Reg32 1); R (Ymm 2)], [R (Reg32 1); R (Xmm 2)]);
  ("pmovmskb", [R (Reg32 1); R (Ymm 2)], [R (Reg32 1); R (Mmx 2)]); ("movaps_ax", [m 0; R (Ymm 2)], [m 0; R (Xmm 2)]);
  ("movd_mo", [R (Ymm 2); m 0], [R (Mmx 2); m 0]); ("movd_mo", [R (Xmm 2); m 64], [R (Xmm 2); m 32]); ("movd_om", [m 8; R (Xmm 2)], [m 32; R (Xmm 2)]);
  ("movq_mq", [R (Ymm 2); R (Reg64 1)], [R (Mmx 2); R (Reg64 1)]); ("movq_mo", [R (Ymm 2); R (Ymm 1)], [R (Mmx 2); R (Mmx 1)]);
  ("pinsrw", [R (Ymm 2); m 0], [R (Mmx 2); m 0]); ("pextrw", [R (Reg32 1); R (Ymm 2)], [R (Reg32 1); R (Mmx 2)]); ("pextrw", [m 512; R (Xmm 2)], [m 16; R (Xmm 2)]);
  ("psllw", [R (Ymm 2)], [R (Mmx 2)]); ("bt", [m 80], [m 64]); ("bt", [m 0; R (Reg8 2)], [m 32; R (Reg32 2)]);
  ("bt", [R (Reg64 1); R (Mmx 2)], [R (Reg64 1); R (Reg64 2)]); ("movntdq", [m 0; R (Ymm 2)], [m 0; R (Xmm 2)]); ("lddqu", [R (Ymm 2); m 0], [R (Xmm 2); m 0]);
  ("cvtsi2sd", [R (Xmm 1); m 8], [R (Xmm 1); m 32]); ("fild", [m 80], [m 64]) ].
Theorem alike_ok name ops ops' : In (name, ops, ops') alike ->
  legal (rows_of name) ops = false /\ legal (rows_of name) ops' = true /\ exists its, emitted name ops = Some its /\ emitted name ops' = Some its.
Proof.
  assert (Forall (fun p => let '(name, ops, ops') := p in legal (rows_of name) ops = false /\ legal (rows_of name) ops' = true
    /\ exists its, emitted name ops = Some its /\ emitted name ops' = Some its) alike) as C.
  { unfold alike. repeat apply Forall_cons; [.. |apply Forall_nil]; (split; [vm_compute; reflexivity|]; split; [vm_compute; reflexivity|]; eexists; split; vm_compute; reflexivity). }
  intros H. rewrite Forall_forall in C. exact (C _ H).
Qed.
