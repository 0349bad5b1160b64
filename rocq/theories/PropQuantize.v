(* C60: sample/quantize.cpp generates divisions by constants that are right for every dividend. *)
From Coq Require Import ZArith List Bool Lia.
From Verif Require Import Base SpecFixed SpecDiv SpecDivDec Udiv UdivRun UdivCode UdivMem.
From Verif Require Emit EmitFacts.
Import ListNotations.
Open Scope Z_scope.

(* the multiplier, the addend and the shift that udiv chooses give x / d for every 32-bit x.  The fuel bounds the two loops of
   udiv; 64 rounds are enough *)
Theorem C60_plan : forall fuel d, divisor d -> (64 <= fuel)%nat ->
  exists p, udiv_plan fuel d = Plan p /\ plan_ok p /\ forall x, 0 <= x < 2 ^ 32 -> value p x = x / d.
Proof. exact udiv_plan_ok. Qed.
Print Assumptions C60_plan.

(* udiv chooses them exactly for the divisors 0 < d < 2^30 and the even ones below 2^31 *)
Theorem C60_domain : forall fuel d, 0 <= d < 2 ^ 32 -> (64 <= fuel)%nat -> ((exists p, udiv_plan fuel d = Plan p) <-> divisor d).
Proof. exact udiv_domain. Qed.
Print Assumptions C60_domain.

(* the calls that udiv makes leave [esi + offset] / d in eax and change nothing but eax, edx and the flags *)
Theorem C60_udiv : forall p off s, plan_ok p -> let t := run (udiv_code p off) s in
  reg t EAX = value p (get32 (byte s) (reg s ESI + off)) /\ same s t.
Proof. exact udiv_runs. Qed.
Print Assumptions C60_udiv.

(* the instructions of the generated function, one after the other: they set dest[k] to src[k] / qTbl[k] for every k, return to the caller, restore esi and edi and
   write nothing else but the two words below the stack pointer; src and dest may be the same table *)
Theorem C60_calls : forall fuel q, Forall divisor q -> (64 <= fuel)%nat -> exists l, quantize fuel q = Some l /\
  forall s dest src ret, let n := Z.of_nat (length q) in call s n dest src ret -> let t := run l s in
    (forall k d, nth_error q k = Some d -> get32 (byte t) (dest + 4 * Z.of_nat k) = get32 (byte s) (src + 4 * Z.of_nat k) / d)
    /\ (forall a, u32 a -> a < dest \/ dest + 4 * n <= a -> a < reg s ESP - 8 \/ reg s ESP <= a -> byte t a = byte s a)
    /\ ip t = Some ret /\ reg t ESP = at32 (reg s ESP + 4) /\ (forall r, r <> EAX -> r <> EDX -> r <> ESP -> reg t r = reg s r).
Proof. exact quantize_ok. Qed.
Print Assumptions C60_calls.

(* the methods of the 32-bit build emit, for these calls, bytes that consist of exactly these instructions (N, the length of the
   table, is 64 in the sample) *)
Theorem C60_bytes : forall fuel q l, Forall divisor q -> (64 <= fuel)%nat -> (length q <= 64)%nat -> quantize fuel q = Some l ->
  exists bs, emits_bytes (calls32 l) bs /\ forall n, (length l <= n)%nat -> disasm n bs = Some l.
Proof. exact quantize_coded. Qed.
Print Assumptions C60_bytes.

(* the generated function, executed from memory: for every table of at most 64 divisors the methods of the 32-bit build emit
   bytes bs; wherever these are in memory (A) and the function is called with tables dest and src, it returns to its caller after one step
   for each instruction, with dest[k] = src[k] / qTbl[k] for every k *)
Theorem C60_quantize : forall fuel q, Forall divisor q -> (64 <= fuel)%nat -> (length q <= 64)%nat ->
  exists l bs, quantize fuel q = Some l /\ emits_bytes (calls32 l) bs /\
  forall s A dest src ret, let n := Z.of_nat (length q) in call s n dest src ret -> loaded_at s bs A n dest ->
  exists t, msteps (length l) (A, s) = Some (ret, t)
    /\ (forall k d, nth_error q k = Some d -> get32 (byte t) (dest + 4 * Z.of_nat k) = get32 (byte s) (src + 4 * Z.of_nat k) / d)
    /\ (forall a, u32 a -> a < dest \/ dest + 4 * n <= a -> a < reg s ESP - 8 \/ reg s ESP <= a -> byte t a = byte s a)
    /\ reg t ESP = at32 (reg s ESP + 4) /\ (forall r, r <> EAX -> r <> EDX -> r <> ESP -> reg t r = reg s r).
Proof. exact quantize_mem. Qed.
Print Assumptions C60_quantize.

(* divisors of each kind: a shift only, m without and with the addend, an even divisor *)
Example C60_plans :
  map (udiv_plan 64) [1; 16; 3; 7; 10; 641; 14; 0x3fffffff; 0x7ffffffe]
  = [Plan (Shr_ 0); Plan (Shr_ 4); Plan (Mul_ 0xaaaaaaab false 1); Plan (Mul_ 0x49249249 true 1); Plan (Mul_ 0xcccccccd false 3); Plan (Mul_ 6700417 false 0); Plan (Mul_ 0x49249249 true 2);
     Plan (Mul_ 0x40000001 true 28); Plan (Mul_ 0x40000001 true 29)].
Proof. vm_compute. reflexivity. Qed.
(* the function for three divisors, at 0x1000, called with src at 0x2000 and dest at 0x3000 *)
Definition ex_q := [7; 16; 10].
Definition ex_l := match quantize 64 ex_q with Some l => l | None => [] end.
Definition ex_env : Emit.Env := Emit.mkEnv false 0 false false Emit.DefaultEncoding Emit.DefaultEncoding.
Definition ex_bs : list Z := EmitFacts.render (fun _ _ _ => 0) (fst (calls32 ex_l ex_env 0)).
Definition ex_mem : Z -> Z :=
  put32 (put32 (put32 (put32 (put32 (put32 (fun a => nth (Z.to_nat (a - 0x1000)) ex_bs 0) 0x2000 0xffffffff) 0x2004 1000) 0x2008 99) 0x8000 0x1234) 0x8004 0x3000) 0x8008 0x2000.
Definition ex_s : mach := Mach (fun r => if r =? ESP then 0x8000 else 5) false ex_mem None.
Example C60_hypotheses :
  Forall divisor ex_q /\ quantize 64 ex_q = Some ex_l /\ call ex_s 3 0x3000 0x2000 0x1234 /\ loaded_at ex_s ex_bs 0x1000 3 0x3000
  /\ match msteps (length ex_l) (0x1000, ex_s) with
     | Some (pc, t) => (map (fun k => get32 (byte t) (0x3000 + 4 * k)) [0; 1; 2], pc, reg t ESP, reg t ESI) = ([0xffffffff / 7; 62; 9], 0x1234, 0x8004, 5)
     | None => False end.
Proof.
  split; [repeat constructor; left; lia|]. split; [vm_compute; reflexivity|]. split; [|split; [|vm_compute; reflexivity]].
  - constructor; try (vm_compute; reflexivity); try (split; vm_compute; first [reflexivity|discriminate]).
    + left. vm_compute. discriminate.
    + left. vm_compute. discriminate.
    + intros a b Ha Hab Hb. unfold apart. lia.
  - assert (length ex_bs = 63%nat) as L by (vm_compute; reflexivity).
    assert (forallb (fun k => match nth_error ex_bs k with Some x => byte ex_s (0x1000 + Z.of_nat k) mod 256 =? x | None => false end) (seq 0 63) = true) as F' by (vm_compute; reflexivity).
    assert (reg ex_s ESP = 0x8000) as P by reflexivity. constructor; rewrite ?L, ?P; [|lia|lia|lia|lia].
    intros k x K. assert (k < length ex_bs)%nat as B by (apply nth_error_Some; rewrite K; intros Q; discriminate Q). rewrite L in B.
    rewrite forallb_forall in F'. assert (In k (seq 0 63)) as Ik by (apply in_seq; lia). specialize (F' k Ik). cbv beta in F'. rewrite K in F'. apply Z.eqb_eq. exact F'.
Qed.

(* ---- what goes wrong ---- *)
(* sample/quantize.cpp:68: udiv(0) does not return: the loop that removes the factors 2 never ends *)
Theorem C60_zero_refuted : forall fuel, udiv_plan fuel 0 = NoEnd.
Proof. exact udiv_zero. Qed.
Print Assumptions C60_zero_refuted.
(* sample/quantize.cpp:67, 86-87, 104: a divisor of 2^31 or more becomes a negative int, both multipliers become 0, and the loop
   while ((m & 1) == 0) never ends (or already the one before) *)
Theorem C60_negative_refuted : forall fuel d, 2 ^ 31 <= d < 2 ^ 32 -> udiv_plan fuel d = NoEnd.
Proof. exact udiv_negative. Qed.
Print Assumptions C60_negative_refuted.
(* sample/quantize.cpp:54: ilog2 of an odd divisor between 2^30 and 2^31 shifts the int 1 by 31 and more, which is undefined *)
Theorem C60_shift_refuted : forall fuel d, 2 ^ 30 <= d < 2 ^ 31 -> Z.even d = false -> (0 < fuel)%nat -> udiv_plan fuel d = UBshift.
Proof. exact udiv_odd. Qed.
Print Assumptions C60_shift_refuted.
Example C60_shift_example : udiv_plan 64 0x7fffffff = UBshift /\ udiv_plan 64 0x80000000 = NoEnd.
Proof. split; vm_compute; reflexivity. Qed.
(* the bytes for udiv(7, 0): mov eax, [esi]; mov edx, 0x49249249; mul edx; add eax, 0x49249249; adc edx, 0; shr edx, 1; mov eax, edx *)
Example C60_bytes_example :
  let l := udiv_code (Mul_ 0x49249249 true 1) 0 in
  let bs := [0x8B; 0x06; 0xBA; 0x49; 0x92; 0x24; 0x49; 0xF7; 0xE2; 0x05; 0x49; 0x92; 0x24; 0x49; 0x83; 0xD2; 0x00; 0xD1; 0xEA; 0x89; 0xD0] in
  emits_bytes (calls32 l) bs /\ disasm 7 bs = Some l.
Proof. cbv zeta. split; [intros s env pos; unfold Emit.fn; destruct (Emit.env_noexc env) eqn:E; eexists; (split; [vm_compute; rewrite ?E; reflexivity|reflexivity])|vm_compute; reflexivity]. Qed.
