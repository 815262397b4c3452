(** C89: the loader reaches memory above 1 MiB. *)
From stdpp Require Import list.
From Coq Require Import NArith.
From Verif Require Import E820Model FlatModel FlatSpec FlatProofs FlatCopy FlatOpen FlatExamples.
Local Open Scope N_scope.

(** C89: loader.asm:85-103 opens the A20 gate and leaves fs with base 0 and a limit of 4 GiB, back in real mode with CR0, the
    stack, the other segments and all memory but the accessed mark of one descriptor as before; unless port 92h reads with its
    lowest bit set, and then writing the value back resets the machine. *)
Theorem C89_open : forall g s, in_loader 2 s -> g + 30 <= 0x10000 -> lies (ram s) (0x10000 + g) (gdt_bytes (0x10000 + g)) ->
  (run (open_flat g) s = Off Reset <-> N.testbit (p92 s) 0 = true) /\
  (N.testbit (p92 s) 0 = false ->
   exists s', run (open_flat g) s = On s' /\ flat s' /\ fs s' = Cache 16 0 0xFFFFFFFF /\ (18 <= sp s -> in_loader 18 s') /\
     cr0 s' = cr0 s /\ ecx s' = ecx s /\ esi s' = esi s /\ edi s' = edi s /\ sp s' = sp s /\ ds s' = ds s /\ ss s' = ss s /\
     gbase s' = 0x10000 + g /\ glimit s' = 23 /\ intr s' = true /\
     (forall x, ~ (sp s - 2 <= x < sp s) -> x <> 0x10000 + g + 21 -> ram s' x = ram s x) /\ ram s' (0x10000 + g + 21) = 0x93).
Proof. exact flat_opened. Qed.
Print Assumptions C89_open.
Example C89_open_example : (forall port, in_loader 18 (demo_start port)) /\
  (forall port, lies (ram (demo_start port)) (0x10000 + 0x40) (gdt_bytes (0x10000 + 0x40))) /\
  exists s', run (open_flat 0x40) (demo_start 0) = On s' /\ gate s' = true /\ fs s' = Cache 16 0 0xFFFFFFFF /\ eax s' = 0x60000010.
Proof. exact (conj demo_in (conj demo_gdt demo_open)). Qed.
(** C89: it is not true of every machine that the code opens the gate. *)
Theorem C89_reset_refuted : exists g s, in_loader 2 s /\ g + 30 <= 0x10000 /\
  lies (ram s) (0x10000 + g) (gdt_bytes (0x10000 + g)) /\ run (open_flat g) s = Off Reset.
Proof. exact (ex_intro _ 0x40 (ex_intro _ (demo_start 1) (demo_resets))). Qed.
Print Assumptions C89_reset_refuted.

(** C89: from such a state the code for one sector copies the 512 bytes of the buffer to where KernelOffset points, advances
    KernelOffset, restores every register and keeps the limit of fs, though it loads fs and ds twice on the way. *)
Theorem C89_copy : forall k s, in_loader 18 s -> flat s -> k + 4 <= 0x10000 -> 0x100000 <= offset_at k s -> offset_at k s + 512 < 2 ^ 32 ->
  exists s', copy_sector k s = On s' /\ same_regs s s' /\ flat s' /\ in_loader 18 s' /\ c_sel (fs s') = c_sel (fs s) /\
    offset_at k s' = offset_at k s + 512 /\
    lies (ram s') (offset_at k s) (load (ram s) 0x7E00 512) /\
    (forall x, ~ (offset_at k s <= x < offset_at k s + 512) -> ~ (0x10000 + k <= x < 0x10000 + k + 4) -> ~ (sp s - 18 <= x < sp s) ->
      ram s' x = ram s x).
Proof. exact copy_ok. Qed.
Print Assumptions C89_copy.
Example C89_copy_example : in_loader 18 demo_flat /\ flat demo_flat /\ offset_at 0x5E demo_flat = 0x100000.
Proof. exact demo_flat_ok. Qed.

(** C89: whatever runs between the copies, as long as it keeps that state, the sectors come to lie one after the other from
    1 MiB on. *)
Theorem C89_sectors : forall k ess s before, in_loader 18 s -> flat s -> k + 4 <= 0x10000 ->
  Forall (fun eb : (mach -> mach) * list N => length (snd eb) = 512%nat /\ reads k (snd eb) (fst eb)) ess ->
  offset_at k s = 0x100000 + N.of_nat (length before) -> lies (ram s) 0x100000 before ->
  0x100000 + N.of_nat (length before) + 512 * N.of_nat (length ess) < 2 ^ 32 ->
  exists s', load_sectors k (map fst ess) s = On s' /\ in_loader 18 s' /\ flat s' /\
    offset_at k s' = 0x100000 + N.of_nat (length before) + 512 * N.of_nat (length ess) /\
    lies (ram s') 0x100000 (before ++ concat (map snd ess)).
Proof. exact sectors_ok. Qed.
Print Assumptions C89_sectors.
Example C89_sectors_example : Forall (fun eb : (mach -> mach) * list N => length (snd eb) = 512%nat /\ reads 0x5E (snd eb) (fst eb))
  [(demo_read 7, replicate 512 7); (demo_read 9, replicate 512 9)].
Proof. exact demo_disk. Qed.

(** C89: both halves are needed: with the gate closed a byte meant for an odd megabyte lands a megabyte lower, and with the limit
    of real mode the copy faults. *)
Theorem C89_gate_needed : forall s, gate s = false -> c_base (fs s) = 0 -> edi s <= c_limit (fs s) -> edi s < 2 ^ 32 ->
  N.testbit (edi s) 20 = true ->
  exists s', exec StoreAl s = On s' /\ forall x, x <> edi s - 2 ^ 20 -> ram s' x = ram s x.
Proof. exact closed_gate. Qed.
Print Assumptions C89_gate_needed.
Theorem C89_limit_needed : forall k s, in_loader 18 s -> gate s = true -> c_limit (fs s) = 0xFFFF -> k + 4 <= 0x10000 ->
  0x100000 <= offset_at k s -> copy_sector k s = Off Fault.
Proof. exact no_limit. Qed.
Print Assumptions C89_limit_needed.
Example C89_needed_example : in_loader 18 demo_tight /\ gate demo_tight = true /\ c_limit (fs demo_tight) = 0xFFFF /\
  offset_at 0x5E demo_tight = 0x100000 /\ N.testbit 0x100000 20 = true.
Proof. exact demo_tight_ok. Qed.
