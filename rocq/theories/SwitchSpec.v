(** What the processor must find in memory and what the kernel's main expects of it. *)
From Coq Require Import NArith Bool.
From Verif Require Import PagingModel SwitchModel.
Local Open Scope N_scope.

(** the little-endian quantity [v] of [n] bytes at physical [a] *)
Definition holds_at (m : N -> N) (a n v : N) : Prop := forall i, i < n -> m (a + i) = v / 256 ^ i mod 256.

(** The loader lies in the 64 KiB from 0x10000, the kernel image in the 9 MiB from 0x100000. *)
Record layout_ok (L : layout) : Prop := {
  lo_tail : 0x10000 <= l_tail L < 0x1ff00; lo_protect : 0x10000 <= l_protect L < 0x1ff00;
  lo_p32 : 0x10000 <= l_gdt32ptr L <= 0x1fffa; lo_g32 : 0x10000 <= l_gdt32 L <= 0x1ff00;
  lo_p64 : 0x10000 <= l_gdt64ptr L <= 0x1fffa; lo_g64 : 0x10000 <= l_gdt64 L <= 0x1ff00;
  lo_kp : k_gdtptr L <= 0x8ffff0; lo_kg : k_gdt L <= 0x8fff00; lo_ki : k_idtptr L <= 0x8ffff0; lo_kit : k_idt L <= 0x8fe000;
  lo_ss : k_switchseg L <= 0x8ffff8; lo_sk : k_entry64 L <= k_startkernel L <= 0x8ffff8;
  lo_e : k_entry64 L < 0x8fff00; lo_m : k_main L < 0x900000
}.
(** loader.asm:15-21, 27-33 *)
Record loader_in (L : layout) (m : N -> N) : Prop := {
  li_p32l : holds_at m (l_gdt32ptr L) 2 23; li_p32b : holds_at m (l_gdt32ptr L + 2) 4 (l_gdt32 L);
  li_c32 : holds_at m (l_gdt32 L + 8) 8 0x00CF9A000000FFFF; li_d32 : holds_at m (l_gdt32 L + 16) 8 0x00CF92000000FFFF;
  li_p64l : holds_at m (l_gdt64ptr L) 2 23; li_p64b : holds_at m (l_gdt64ptr L + 2) 4 (l_gdt64 L);
  li_c64 : holds_at m (l_gdt64 L + 8) 8 0x0020980000000000; li_d64 : holds_at m (l_gdt64 L + 16) 8 0x0000920000000000
}.
(** head.S:30-31, 47-48, 52-82, 90-111 *)
Record kernel_in (L : layout) (m : N -> N) : Prop := {
  ki_4 : forall i, i < 512 -> holds_at m (0x101000 + 8 * i) 8 (PML4 i);
  ki_3 : forall i, i < 512 -> holds_at m (0x102000 + 8 * i) 8 (PDPTE i);
  ki_2 : forall i, i < 512 -> holds_at m (0x103000 + 8 * i) 8 (PDE i);
  ki_gl : holds_at m (image + k_gdtptr L) 2 135; ki_gb : holds_at m (image + k_gdtptr L + 2) 8 (high + image + k_gdt L);
  ki_il : holds_at m (image + k_idtptr L) 2 4095; ki_ib : holds_at m (image + k_idtptr L + 2) 8 (high + image + k_idt L);
  ki_c : holds_at m (image + k_gdt L + 8) 8 0x0020980000000000; ki_d : holds_at m (image + k_gdt L + 16) 8 0x0000920000000000;
  ki_ss : holds_at m (image + k_switchseg L) 8 (high + image + k_entry64 L);
  ki_sk : holds_at m (image + k_startkernel L) 8 (high + image + k_main L)
}.
(** Real mode as the BIOS calls leave it; everything not mentioned is arbitrary. *)
Record real_mode (L : layout) (s : cpu) : Prop := {
  rm_pe : N.testbit (cr0 s) 0 = false; rm_pg : N.testbit (cr0 s) 31 = false;
  rm_cache : N.testbit (cr0 s) 29 = true -> N.testbit (cr0 s) 30 = true;
  rm_cr0 : cr0 s < 2 ^ 32; rm_cr4 : cr4 s < 2 ^ 32; rm_efer : efer s < 2 ^ 64;
  rm_la57 : N.testbit (cr4 s) 12 = false; rm_pcid : N.testbit (cr4 s) 17 = false; rm_lma : N.testbit (efer s) 10 = false;
  rm_cs : sel (cs s) = 0x1000 /\ base (cs s) = 0x10000 /\ rip s = l_tail L - 0x10000;
  rm_ds : base (sr s DS) = 0x10000 /\ limit (sr s DS) = 0xffff
}.
(** The processor has long mode: extended leaf 0x80000001 exists and its edx has bit 29. *)
Definition has_long_mode (cpuid : N -> N * N) : bool :=
  (0x80000001 <=? fst (cpuid 0x80000000)) && N.testbit (snd (cpuid 0x80000001)) 29.
(** The loader's temporary tables (loader.asm:414-438) and the kernel's (head.S:54-82), as contents of memory. *)
Record temp_tables (m : N -> N) : Prop := {
  tt_0 : holds_at m 0x90000 8 0x91007; tt_256 : holds_at m 0x90800 8 0x91007; tt_3 : holds_at m 0x91000 8 0x92007;
  tt_2 : forall i, i < 6 -> holds_at m (0x92000 + 8 * i) 8 (0x200000 * i + 0x83)
}.
Record boot_tables (m : N -> N) : Prop := {
  bt_4 : forall i, i < 512 -> holds_at m (0x101000 + 8 * i) 8 (PML4 i);
  bt_3 : forall i, i < 512 -> holds_at m (0x102000 + 8 * i) 8 (PDPTE i);
  bt_2 : forall i, i < 512 -> holds_at m (0x103000 + 8 * i) 8 (PDE i)
}.
(** The state main is entered in. *)
Record ready (L : layout) (s s' : cpu) : Prop := {
  rd_cr0 : forall b, N.testbit (cr0 s') b = N.testbit (cr0 s) b || (b =? 0) || (b =? 16) || (b =? 31);
  rd_cr4 : forall b, N.testbit (cr4 s') b = N.testbit (cr4 s) b || (b =? 5);
  rd_efer : forall b, N.testbit (efer s') b = N.testbit (efer s) b || (b =? 8) || (b =? 10);
  rd_cr3 : cr3 s' = 0x101000;
  rd_cs : sel (cs s') = 0x08 /\ raw (cs s') = 0x0020980000000000;
  rd_sr : forall r, sel (sr s' r) = 0x10 /\ raw (sr s' r) = 0x0000920000000000;
  rd_rsp : rsp s' = 0xFFFF800000007E00; rd_rip : rip s' = high + image + k_main L;
  rd_gdtr : gdtr s' = (high + image + k_gdt L, 135); rd_idtr : idtr s' = (high + image + k_idt L, 4095);
  rd_intr : intr s' = false;
  rd_temp : temp_tables (mem s'); rd_boot : boot_tables (mem s');
  rd_mem : forall a, ~ 0x90000 <= a < 0x93000 -> ~ 0x7DF0 <= a < 0x7E00 -> mem s' a = mem s a
}.
