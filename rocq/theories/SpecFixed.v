(* Specification: instructions whose bytes do not depend on an address, as the Intel SDM vol. 2 (and the AMD APM
   vol. 3 for clzero, monitorx, mwaitx) lists them: the ones without explicit operands, the ones with only an
   immediate, and the x87 register forms.  Independent of xbyak. *)
From Coq Require Import ZArith List Bool String.
From Verif Require Import Base Types Emit EmitFacts Wf SpecX86 SpecAddr.
Import ListNotations.
Open Scope Z_scope.
Open Scope string_scope.

(* ---- no explicit operand, in 64-bit mode ---- *)
Definition sdm_fixed : list (string * list Z) := [
  (* sign extension: 98, 99; operand size 16 with 66, 64 with REX.W *)
  ("cbw", [0x66; 0x98]); ("cwde", [0x98]); ("cdqe", [0x48; 0x98]);
  ("cwd", [0x66; 0x99]); ("cdq", [0x99]); ("cqo", [0x48; 0x99]);
  (* flags *)
  ("cmc", [0xF5]); ("clc", [0xF8]); ("stc", [0xF9]); ("cli", [0xFA]); ("sti", [0xFB]); ("cld", [0xFC]); ("std", [0xFD]);
  ("lahf", [0x9F]); ("sahf", [0x9E]); ("stac", [0x0F; 0x01; 0xCB]);
  (* 9C and 9D push and pop 64 bits *)
  ("pushf", [0x9C]); ("pushfq", [0x9C]); ("popf", [0x9D]); ("popfq", [0x9D]);
  (* string instructions: even opcode for bytes, odd for the other sizes *)
  ("outsb", [0x6E]); ("outsw", [0x66; 0x6F]); ("outsd", [0x6F]);
  ("movsb", [0xA4]); ("movsw", [0x66; 0xA5]); ("movsd", [0xA5]); ("movsq", [0x48; 0xA5]);
  ("cmpsb", [0xA6]); ("cmpsw", [0x66; 0xA7]); ("cmpsd", [0xA7]); ("cmpsq", [0x48; 0xA7]);
  ("stosb", [0xAA]); ("stosw", [0x66; 0xAB]); ("stosd", [0xAB]); ("stosq", [0x48; 0xAB]);
  ("lodsb", [0xAC]); ("lodsw", [0x66; 0xAD]); ("lodsd", [0xAD]); ("lodsq", [0x48; 0xAD]);
  ("scasb", [0xAE]); ("scasw", [0x66; 0xAF]); ("scasd", [0xAF]); ("scasq", [0x48; 0xAF]);
  (* prefixes *)
  ("lock", [0xF0]); ("rep", [0xF3]); ("repe", [0xF3]); ("repz", [0xF3]); ("repne", [0xF2]); ("repnz", [0xF2]); ("bnd", [0xF2]);
  (* control *)
  ("leave", [0xC9]); ("int3", [0xCC]); ("hlt", [0xF4]); ("ud2", [0x0F; 0x0B]); ("pause", [0xF3; 0x90]);
  ("endbr32", [0xF3; 0x0F; 0x1E; 0xFB]); ("endbr64", [0xF3; 0x0F; 0x1E; 0xFA]);
  ("syscall", [0x0F; 0x05]); ("sysret", [0x0F; 0x07]); ("sysenter", [0x0F; 0x34]); ("sysexit", [0x0F; 0x35]);
  ("xlatb", [0xD7]);
  (* system *)
  ("cpuid", [0x0F; 0xA2]); ("wbinvd", [0x0F; 0x09]); ("wrmsr", [0x0F; 0x30]); ("rdtsc", [0x0F; 0x31]); ("rdmsr", [0x0F; 0x32]); ("rdpmc", [0x0F; 0x33]);
  ("rdtscp", [0x0F; 0x01; 0xF9]); ("xgetbv", [0x0F; 0x01; 0xD0]);
  ("monitor", [0x0F; 0x01; 0xC8]); ("mwait", [0x0F; 0x01; 0xC9]);
  ("monitorx", [0x0F; 0x01; 0xFA]); ("mwaitx", [0x0F; 0x01; 0xFB]); ("clzero", [0x0F; 0x01; 0xFC]);
  ("serialize", [0x0F; 0x01; 0xE8]); ("xend", [0x0F; 0x01; 0xD5]);
  ("xsusldtrk", [0xF2; 0x0F; 0x01; 0xE8]); ("xresldtrk", [0xF2; 0x0F; 0x01; 0xE9]);
  ("uiret", [0xF3; 0x0F; 0x01; 0xEC]); ("testui", [0xF3; 0x0F; 0x01; 0xED]); ("clui", [0xF3; 0x0F; 0x01; 0xEE]); ("stui", [0xF3; 0x0F; 0x01; 0xEF]);
  ("lfence", [0x0F; 0xAE; 0xE8]); ("mfence", [0x0F; 0xAE; 0xF0]); ("sfence", [0x0F; 0xAE; 0xF8]);
  (* VEX.128.0F.WIG 77, VEX.256.0F.WIG 77, VEX.128.NP.0F38.W0 49 C0 *)
  ("vzeroupper", [0xC5; 0xF8; 0x77]); ("vzeroall", [0xC5; 0xFC; 0x77]); ("tilerelease", [0xC4; 0xE2; 0x78; 0x49; 0xC0]);
  ("emms", [0x0F; 0x77]);
  (* x87; the forms without operand of the arithmetic instructions stand for st(1), st(0) or st(1) *)
  ("wait", [0x9B]); ("fwait", [0x9B]);
  ("fnop", [0xD9; 0xD0]); ("fchs", [0xD9; 0xE0]); ("fabs", [0xD9; 0xE1]); ("ftst", [0xD9; 0xE4]); ("fxam", [0xD9; 0xE5]);
  ("fld1", [0xD9; 0xE8]); ("fldl2t", [0xD9; 0xE9]); ("fldl2e", [0xD9; 0xEA]); ("fldpi", [0xD9; 0xEB]);
  ("fldlg2", [0xD9; 0xEC]); ("fldln2", [0xD9; 0xED]); ("fldz", [0xD9; 0xEE]);
  ("f2xm1", [0xD9; 0xF0]); ("fyl2x", [0xD9; 0xF1]); ("fptan", [0xD9; 0xF2]); ("fpatan", [0xD9; 0xF3]);
  ("fxtract", [0xD9; 0xF4]); ("fprem1", [0xD9; 0xF5]); ("fdecstp", [0xD9; 0xF6]); ("fincstp", [0xD9; 0xF7]);
  ("fprem", [0xD9; 0xF8]); ("fyl2xp1", [0xD9; 0xF9]); ("fsqrt", [0xD9; 0xFA]); ("fsincos", [0xD9; 0xFB]);
  ("frndint", [0xD9; 0xFC]); ("fscale", [0xD9; 0xFD]); ("fsin", [0xD9; 0xFE]); ("fcos", [0xD9; 0xFF]);
  ("fnclex", [0xDB; 0xE2]); ("fclex", [0x9B; 0xDB; 0xE2]); ("fninit", [0xDB; 0xE3]); ("finit", [0x9B; 0xDB; 0xE3]);
  ("fcompp", [0xDE; 0xD9]); ("fucompp", [0xDA; 0xE9]);
  ("fcom", [0xD8; 0xD1]); ("fcomp", [0xD8; 0xD9]); ("fucom", [0xDD; 0xE1]); ("fucomp", [0xDD; 0xE9]); ("fxch", [0xD9; 0xC9]);
  ("faddp", [0xDE; 0xC1]); ("fmulp", [0xDE; 0xC9]); ("fsubrp", [0xDE; 0xE1]); ("fsubp", [0xDE; 0xE9]);
  ("fdivrp", [0xDE; 0xF1]); ("fdivp", [0xDE; 0xF9])].

Definition emits_bytes (f : E unit) (bs : list Z) : Prop :=
  forall s env pos, exists its, f env pos = (its, Ok tt) /\ render s its = bs.
Definition is_fixed (p : string * E unit) : Prop := exists bs, In (fst p, bs) sdm_fixed /\ emits_bytes (snd p) bs.

(* ---- an immediate only ---- *)
Definition le2 (v : Z) : list Z := [v mod 256; v / 256 mod 256].
Definition le4 (v : Z) : list Z := le2 v ++ le2 (v / 2 ^ 16).
Definition le8 (v : Z) : list Z := le4 v ++ le4 (v / 2 ^ 32).

(* ---- x87 register forms ---- *)
(* operands: st(0), st(i); st(i), st(0); st(i) *)
Inductive xform := X0i | Xi0 | Xi.
Definition sdm_x87 : list (string * xform * Z * Z) := [
  ("fadd", X0i, 0xD8, 0xC0); ("fadd", Xi0, 0xDC, 0xC0); ("faddp", Xi0, 0xDE, 0xC0);
  ("fmul", X0i, 0xD8, 0xC8); ("fmul", Xi0, 0xDC, 0xC8); ("fmulp", Xi0, 0xDE, 0xC8);
  ("fsub", X0i, 0xD8, 0xE0); ("fsub", Xi0, 0xDC, 0xE8); ("fsubp", Xi0, 0xDE, 0xE8);
  ("fsubr", X0i, 0xD8, 0xE8); ("fsubr", Xi0, 0xDC, 0xE0); ("fsubrp", Xi0, 0xDE, 0xE0);
  ("fdiv", X0i, 0xD8, 0xF0); ("fdiv", Xi0, 0xDC, 0xF8); ("fdivp", Xi0, 0xDE, 0xF8);
  ("fdivr", X0i, 0xD8, 0xF8); ("fdivr", Xi0, 0xDC, 0xF0); ("fdivrp", Xi0, 0xDE, 0xF0);
  ("fcmovb", X0i, 0xDA, 0xC0); ("fcmove", X0i, 0xDA, 0xC8); ("fcmovbe", X0i, 0xDA, 0xD0); ("fcmovu", X0i, 0xDA, 0xD8);
  ("fcmovnb", X0i, 0xDB, 0xC0); ("fcmovne", X0i, 0xDB, 0xC8); ("fcmovnbe", X0i, 0xDB, 0xD0); ("fcmovnu", X0i, 0xDB, 0xD8);
  ("fcomi", X0i, 0xDB, 0xF0); ("fcomip", X0i, 0xDF, 0xF0); ("fucomi", X0i, 0xDB, 0xE8); ("fucomip", X0i, 0xDF, 0xE8);
  ("fcom", Xi, 0xD8, 0xD0); ("fcomp", Xi, 0xD8, 0xD8); ("fucom", Xi, 0xDD, 0xE0); ("fucomp", Xi, 0xDD, 0xE8);
  ("fld", Xi, 0xD9, 0xC0); ("fst", Xi, 0xDD, 0xD0); ("fstp", Xi, 0xDD, 0xD8);
  ("ffree", Xi, 0xDD, 0xC0); ("fxch", Xi, 0xD9, 0xC8)].
(* the bytes of the instruction `name` with operands st(n) *)
Definition x87_is (name : string) (ops bs : list Z) : Prop :=
  exists form b1 b2 i, In (name, form, b1, b2) sdm_x87 /\ bs = [b1; b2 + i]
    /\ ops = match form with X0i => [0; i] | Xi0 => [i; 0] | Xi => [i] end.
(* the method f of registers r: bytes bs for st(n), n = number r *)
Definition emits_x87 (f : E unit) (name : string) (ops : list Z) : Prop :=
  exists bs, emits_bytes f bs /\ x87_is name ops bs.
Definition rejects (f : E unit) (e : xerr) : Prop :=
  forall env pos, env_noexc env = false -> f env pos = ([], Err e).
(* two parameters st(n1), st(n2): the bytes of the instruction, or an error if it has no such form (or n1 = n2 = 0,
   where the instructions that pop have the form st(i), st(0)) *)
Definition two_x87 (p : string * (Reg -> Reg -> E unit)) : Prop :=
  forall r1 r2, fpu_reg r1 -> fpu_reg r2 ->
    let ops := [regno r1; regno r2] in
    emits_x87 (snd p r1 r2) (fst p) ops
    \/ (rejects (snd p r1 r2) ERR_BAD_ST_COMBINATION
        /\ ((regno r1 = 0 /\ regno r2 = 0) \/ forall bs, ~ x87_is (fst p) ops bs)).
(* one parameter *)
Definition one_x87 (args : Z -> list Z) (p : string * (Reg -> E unit)) : Prop :=
  forall r, fpu_reg r -> emits_x87 (snd p r) (fst p) (args (regno r)).
(* the instructions with the form st(0), st(i) only; st(i), st(0) is excluded (see C43_fcomi_refuted) *)
Definition to0_x87 (p : string * (Reg -> Reg -> E unit)) : Prop :=
  forall r1 r2, fpu_reg r1 -> fpu_reg r2 -> regno r1 = 0 \/ regno r2 <> 0 ->
    let ops := [regno r1; regno r2] in
    emits_x87 (snd p r1 r2) (fst p) ops
    \/ (rejects (snd p r1 r2) ERR_BAD_ST_COMBINATION /\ forall bs, ~ x87_is (fst p) ops bs).
(* the popping instructions of st(0), st(0) are rejected *)
Definition onep_x87 (p : string * (Reg -> E unit)) : Prop :=
  forall r, fpu_reg r -> if (regno r =? 0)%Z then rejects (snd p r) ERR_BAD_ST_COMBINATION else emits_x87 (snd p r) (fst p) [regno r; 0].
