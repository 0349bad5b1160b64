(* Property theorems C25 (nop, align), C36 (protect, getAlignedAddress), C37 (MmapAllocator). *)
From Coq Require Import ZArith List Bool Lia.
From Verif Require Import Base Types Emit Encode SpecX86 Mmap SpecPage EmitFacts MemProofs.
Import ListNotations.
Open Scope Z_scope.

(* C25: exactly n bytes, a sequence of no-operation instructions of at most 9 bytes *)
Theorem C25_nop : forall s n multi env pos its u, 0 <= n -> emits (nop n multi) env pos its u ->
  nops (render s its) /\ Z.of_nat (List.length (render s its)) = n.
Proof. exact nop_ok. Qed.
Print Assumptions C25_nop.
Definition env_m (grow : bool) := mkEnv grow 0x400000 false false VexEncoding PreAVX10v2Encoding.
Example C25_nop_instance : exists its, emits (nop 12 true) (env_m false) 0 its tt
  /\ render (fun _ _ _ => 0) its = [0x66; 0x0F; 0x1F; 0x84; 0; 0; 0; 0; 0; 0x0F; 0x1F; 0].
Proof. eexists; split; [split; [reflexivity|vm_compute; reflexivity]|vm_compute; reflexivity]. Qed.
(* C25: an accepted alignment is a power of two (in AutoGrow mode a divisor of the page size); the padding is
   the least one and consists of no-operation instructions *)
Theorem C25_align : forall s ps x multi env pos its u, 0 <= x < 2 ^ 64 -> 0 <= env_top env + pos -> env_top env + pos < 2 ^ 64 ->
  emits (align ps x multi) env pos its u ->
  pow2 x /\ nops (render s its) /\ least_pad (env_top env + pos) x (Z.of_nat (List.length (render s its)))
  /\ (env_autoGrow env = true -> x <> 1 -> ps mod x = 0).
Proof. exact align_ok. Qed.
Print Assumptions C25_align.
Theorem C25_bad_align : forall ps x multi env pos, 0 <= x -> ~ pow2 x -> env_noexc env = false ->
  align ps x multi env pos = ([], Err ERR_BAD_ALIGN).
Proof. exact align_bad. Qed.
Print Assumptions C25_bad_align.
(* C25: the alignment survives growth: the code may move to another page-aligned buffer top' *)
Theorem C25_align_survives_growth : forall ps x multi env pos its u top', 0 < ps -> 0 <= x < 2 ^ 64 -> 0 <= env_top env + pos -> env_top env + pos < 2 ^ 64 ->
  env_autoGrow env = true -> env_top env mod ps = 0 -> top' mod ps = 0 -> emits (align ps x multi) env pos its u ->
  (top' + pos + items_size its) mod x = 0.
Proof. exact align_moves. Qed.
Print Assumptions C25_align_survives_growth.
Example C25_align_instance : exists its, emits (align 4096 64 true) (env_m true) 0x21 its tt /\ items_size its = 31.
Proof. eexists; split; [split; [reflexivity|vm_compute; reflexivity]|vm_compute; reflexivity]. Qed.

(* C36: mprotect is called with a page-aligned address and changes exactly the pages that meet [addr, addr + size) *)
Theorem C36_protect : forall ps addr size mode r len m, pow2 ps -> ps <= 2 ^ 64 -> 0 <= addr -> 0 < size -> addr + size < 2 ^ 64 ->
  protect ps addr size mode = Some (r, len, m) ->
  r mod ps = 0 /\ r <= addr /\ addr + size = r + len
  /\ forall x, page_hit ps r len x <-> page_hit ps addr size x.
Proof. exact protect_pages. Qed.
Print Assumptions C36_protect.
Theorem C36_protect_mode : forall ps addr size mode, protect ps addr size mode = None <-> mode <> 0 /\ mode <> 1 /\ mode <> 2.
Proof. exact protect_mode. Qed.
Print Assumptions C36_protect_mode.
Example C36_instance : pow2 4096 /\ protect 4096 0x401FF0 0x20 2 = Some (0x401000, 0x1010, 5).
Proof. split; [exists 12; split; [lia|reflexivity]|reflexivity]. Qed.
Theorem C36_aligned_address : forall addr x, pow2 x -> 0 <= addr -> addr + x <= 2 ^ 64 ->
  let r := getAlignedAddress addr x in
  r mod x = 0 /\ addr <= r /\ forall b, b mod x = 0 -> addr <= b -> r <= b.
Proof. exact aligned_address. Qed.
Print Assumptions C36_aligned_address.
(* in the last block of the address space the sum wraps around to the null pointer *)
Theorem C36_aligned_address_wrap_refuted : getAlignedAddress (2 ^ 64 - 1) 16 = 0.
Proof. reflexivity. Qed.
Print Assumptions C36_aligned_address_wrap_refuted.

(* C37: what free() does after any history: the matching region, ERR_BAD_PARAMETER, or nothing for nullptr *)
Theorem C37_free : forall ps ops m es p ok, mm_run ps [] ops = (m, es) -> os_ok ps [] [] ops ->
  snd (mm_free p ok m) =
    if p =? 0 then [] else
    match live es p None with
    | None => [EErr ERR_BAD_PARAMETER]
    | Some len => EUnmap p len ok :: (if ok then [] else [EErr ERR_MUNMAP])
    end.
Proof. exact free_spec. Qed.
Print Assumptions C37_free.
(* every munmap call is for a mapping that is live at that moment, with its length *)
Theorem C37_unmaps_live : forall ps ops m es, mm_run ps [] ops = (m, es) -> os_ok ps [] [] ops ->
  forall a p len ok b, es = a ++ EUnmap p len ok :: b -> live a p None = Some len.
Proof. exact hist_unmaps. Qed.
Print Assumptions C37_unmaps_live.
Theorem C37_disjoint : forall ps ops m es, mm_run ps [] ops = (m, es) -> os_ok ps [] [] ops ->
  forall p q x, p <> q -> owned es p x -> owned es q x -> False.
Proof. exact hist_disj. Qed.
Print Assumptions C37_disjoint.
(* the requested length is the size rounded up to pages *)
Theorem C37_size : forall ps size, pow2 ps -> 0 <= size -> size + ps <= 2 ^ 64 ->
  let len := w64 (size + w64 (ps - 1)) &&& not64 (w64 (ps - 1)) in
  len mod ps = 0 /\ size <= len /\ forall b, b mod ps = 0 -> size <= b -> len <= b.
Proof. exact round_up. Qed.
Print Assumptions C37_size.
(* two allocations, the first freed twice *)
Example C37_history : let ops := [OAlloc 5000 (Some 0x10000); OAlloc 100 (Some 0x20000); OFree 0x10000 true; OFree 0x10000 true] in
  os_ok 4096 [] [] ops
  /\ mm_run 4096 [] ops = ([(0x20000, 4096)], [EMap 0x10000 8192; EMap 0x20000 4096; EUnmap 0x10000 8192 true; EErr ERR_BAD_PARAMETER]).
Proof.
  cbv zeta. split; [|vm_compute; reflexivity].
  assert (O : forall q x, owned [EMap 0x10000 8192] q x -> 0x10000 <= x < 0x12000)
    by (intros q x (l & L & X); cbn [live] in L; destruct (0x10000 =? q) eqn:E; [injection L as <-; lia|discriminate]).
  cbn [os_ok mm_step mm_alloc app]. split; [|split; [|split; [|split; [|exact I]]]]; intros p len [Q|Q]; try destruct Q as [Q|Q]; try contradiction; try discriminate.
  - injection Q as <- <-. repeat split; try discriminate. intros q x (l & L & X). discriminate.
  - injection Q as <- <-. repeat split; try discriminate. intros q x W. apply O in W. lia.
Qed.
