(** C67-C71: the way into long mode and smaller pieces of the boot path. *)
From stdpp Require Import list.
From Coq Require Import NArith Bool.
From Verif Require Import Base PagingModel PagingSpec SwitchModel SwitchSpec SwitchThms SwitchExamples
  E820Model E820Spec StageModel StageSpec StageProofs.
Local Open Scope N_scope.

(** C67. From any real-mode state with the loader and the kernel in memory, on a processor with long mode, the code runs without
    a fault, with every instruction fetched from where it lies, to the first instruction of main, and the state there is [ready]. *)
Theorem C67_reaches_main : forall L cpuid ret s,
  layout_ok L -> loader_in L (mem s) -> kernel_in L (mem s) -> real_mode L s -> has_long_mode cpuid = true ->
  exists s', boot L cpuid ret s = Go (Main s') /\ ready L s s'.
Proof. exact boot_main. Qed.
Print Assumptions C67_reaches_main.
(** Without long mode it stops before touching CR4, EFER or paging. *)
Theorem C67_no_long_mode : forall L cpuid ret s,
  layout_ok L -> loader_in L (mem s) -> real_mode L s -> has_long_mode cpuid = false ->
  exists s', boot L cpuid ret s = Go (NoLongMode s') /\ paging s' = false /\
    (forall b, N.testbit (cr0 s') b = N.testbit (cr0 s) b || (b =? 0)) /\ cr4 s' = cr4 s /\ efer s' = efer s.
Proof. exact boot_no_long_mode. Qed.
Print Assumptions C67_no_long_mode.
(** Not part of [ready]: the stack pointer at the entry of a C++ function must be 8 below a multiple of 16; here it never is. *)
Theorem C67_stack_refuted : forall L s s', ready L s s' -> (rsp s' + 8) mod 16 <> 0.
Proof. exact stack_misaligned. Qed.
Print Assumptions C67_stack_refuted.
Example C67_example : layout_ok demo_layout /\ loader_in demo_layout (mem demo_cpu) /\ kernel_in demo_layout (mem demo_cpu) /\
  real_mode demo_layout demo_cpu /\ has_long_mode demo_cpuid = true /\ has_long_mode old_cpuid = false.
Proof. exact (conj demo_layout_ok (conj demo_loader_in (conj demo_kernel_in (conj demo_real_mode (conj eq_refl eq_refl))))). Qed.
Example C67_run_example : shown (boot demo_layout demo_cpuid 0x10428 demo_cpu) =
  Some [0x80010011; 0x101000; 0x20; 0x500; 0xffff800000007e00; 0xffff800000105000; 8; 16; 0xffff800000109000; 0x83; 0x40].
Proof. exact demo_run. Qed.
Example C67_old_example : shown (boot demo_layout old_cpuid 0x10428 demo_cpu) = Some [0x11; 0x7e00].
Proof. exact old_run. Qed.

(** C68. The temporary tables, whatever else is in memory, translate the low 10 MiB in both halves as the kernel's do. *)
Theorem C68_agree : forall m va o, temp_tables m -> boot_tables m -> va < 2 ^ 64 -> window_offset va = Some o -> o < 0xa00000 ->
  walk_at 0x90000 (quads m) va = walk_at 0x101000 (quads m) va /\
  walk_at 0x101000 (quads m) va = Some {| phys := o; writable := true; user := false |}.
Proof. exact tables_agree. Qed.
Print Assumptions C68_agree.
(** Beyond that they differ: 0xa00000 is memory before and the frame buffer after. *)
Theorem C68_differ : forall m, temp_tables m -> boot_tables m ->
  walk_at 0x90000 (quads m) 0xa00000 = Some {| phys := 0xa00000; writable := true; user := false |} /\
  walk_at 0x101000 (quads m) 0xa00000 = Some {| phys := 0xe0000000; writable := true; user := false |}.
Proof. exact tables_differ. Qed.
Print Assumptions C68_differ.
Example C68_example : exists m, temp_tables m /\ boot_tables m /\ window_offset 0xffff800000100058 = Some 0x100058.
Proof. exact both_tables. Qed.

(** C69 (part): EnableSse clears CR0.EM, sets CR0.MP, CR4.OSFXSR and CR4.OSXMMEXCPT if the processor has SSE, and changes
    nothing else in the control registers. Missing: it must keep rbx, which belongs to the caller. *)
Theorem C69_bits_partial : forall a b c d r, let r' := enable_sse (a, b, c, d) r in
  (forall k, N.testbit (r_cr0 r') k =
     if N.testbit d 25 then (N.testbit (r_cr0 r) k && negb (k =? 2)) || (k =? 1) else N.testbit (r_cr0 r) k) /\
  (forall k, N.testbit (r_cr4 r') k =
     N.testbit (r_cr4 r) k || N.testbit d 25 && ((k =? 9) || (k =? 10))).
Proof. exact sse_exact. Qed.
Print Assumptions C69_bits_partial.
Theorem C69_rbx_refuted : exists q r, r_bx (enable_sse q r) <> r_bx r.
Proof. exact sse_rbx_refuted. Qed.
Print Assumptions C69_rbx_refuted.
Theorem C69_rbx_exact : forall q r, r_bx (enable_sse q r) = snd (fst (fst q)).
Proof. exact sse_rbx. Qed.
Print Assumptions C69_rbx_exact.
Example C69_example : enable_sse (1, 2, 3, 0x2000000) sse_before = Regs 0x620 2 3 0x2000000 0x80010013 0x620.
Proof. vm_compute. reflexivity. Qed.

(** C70. The loader's print routine shows its string in real mode. *)
Theorem C70_real_mode_partial : forall lo hi, lo < 256 -> hi < 256 ->
  shows (fst (disasm 20 M16 (printf_code lo hi))) /\ returns (fst (disasm 20 M16 (printf_code lo hi))) /\
  snd (disasm 20 M16 (printf_code lo hi)) = [].
Proof. exact messages16. Qed.
Print Assumptions C70_real_mode_partial.
(** No_Support_Long_Mode calls it in protected mode, where its bytes are other instructions: none shows the string, none returns. *)
Theorem C70_protected_refuted : forall lo hi, lo < 256 -> hi < 256 ->
  ~ shows (fst (disasm 20 M32 (printf_code lo hi))) /\ ~ returns (fst (disasm 20 M32 (printf_code lo hi))) /\
  snd (disasm 20 M32 (printf_code lo hi)) = [].
Proof. exact no_message32. Qed.
Print Assumptions C70_protected_refuted.
(** Set_Svga_Mode_Failed is 32-bit code entered in real mode: the load of the string address disappears in the operand of the
    first instruction and the address bytes are executed. *)
Theorem C70_svga_refuted : forall lo hi r0 r1 r2 r3 fuel, exists is rest,
  disasm (S fuel) M16 (svga_failed_code lo hi r0 r1 r2 r3) = ((0xb8, [23; 0x00; 0x66; 0xbb]) :: is, rest) /\
  disasm fuel M16 [lo; hi; 0xe8; r0; r1; r2; r3; 0xeb; 0xfe] = (is, rest).
Proof. exact svga_failed16. Qed.
Print Assumptions C70_svga_refuted.
Example C70_example : disasm 20 M32 (svga_failed_code 0x9c 0x00 0x5a 0xfd 0xff 0xff) =
  ([(0xb8, [23; 0x00]); (0xbb, [0x9c; 0x00]); (0xe8, [0x5a; 0xfd; 0xff; 0xff]); (0xeb, [0xfe])], []).
Proof. vm_compute. reflexivity. Qed.

(** C71 (part). A BIOS that ends its table with a zero continuation: every entry is stored in place, nothing else changes. *)
Theorem C71_stored_partial : forall b es m fuel, lists b 0 es -> (length es <= 1663)%nat -> (length es <= fuel)%nat -> Forall entry_ok es ->
  exists m', store_memory_map fuel b m = Ok (Some m') /\
    (forall i e, es !! i = Some e -> read_entry m' (0x7E00 + 20 * N.of_nat i) = e) /\
    (forall a, a < 0x7E00 \/ 0x7E00 + 20 * N.of_nat (length es) <= a -> m' a = m a).
Proof. exact map_stored. Qed.
Print Assumptions C71_stored_partial.
(** The kernel's scan sees it, after the video call too, if the table is plain and followed by bytes that are not an entry. *)
Theorem C71_kernel_sees_partial : forall b es m fuel info, lists b 0 es -> (length es <= 20)%nat -> (length es <= fuel)%nat ->
  Forall entry_ok es -> Forall entry_plain es ->
  (length es = 20%nat \/ ~ entry_plain (read_entry m (0x7E00 + 20 * N.of_nat (length es)))) ->
  exists m', store_memory_map fuel b m = Ok (Some m') /\ e820_init (get_svga info m') = (es, usable_total es mod 2 ^ 64).
Proof. exact kernel_sees. Qed.
Print Assumptions C71_kernel_sees_partial.
Theorem C71_svga : forall m info i, (i < 25)%nat ->
  read_entry (get_svga info m) (0x7E00 + 20 * N.of_nat i) = read_entry m (0x7E00 + 20 * N.of_nat i).
Proof. exact map_after_svga. Qed.
Print Assumptions C71_svga.
Theorem C71_svga_refuted : exists m info, read_entry (get_svga info m) (0x7E00 + 20 * 25) <> read_entry m (0x7E00 + 20 * 25).
Proof. exact svga_overwrites_refuted. Qed.
Print Assumptions C71_svga_refuted.
(** A BIOS that ends its table with carry, which the interface allows, is taken for a failure: booting stops, whatever the table. *)
Theorem C71_carry_refuted : forall b es m fuel, lists_carry b 0 es -> (length es < fuel)%nat -> store_memory_map fuel b m = Ok None.
Proof. exact carry_fails. Qed.
Print Assumptions C71_carry_refuted.
Example C71_example : lists one_bios 0 one_map /\ lists_carry carry_bios 0 one_map /\ Forall entry_ok one_map /\ Forall entry_plain one_map /\
  ~ entry_plain (read_entry (fun _ => 0) (0x7E00 + 20 * N.of_nat (length one_map))).
Proof. exact one_map_ok. Qed.
