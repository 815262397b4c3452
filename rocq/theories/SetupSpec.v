(** What init_memory (physical_allocator.cpp:89-263) should leave behind. *)
From stdpp Require Import list.
From Coq Require Import NArith.
From Verif Require Import E820Model E820Spec PageModel PageSpec PagingModel SetupModel.
Local Open Scope N_scope.

(** mm_struct as zeroed static storage *)
Definition zero_table : table := {| t_rows := replicate 32 {| e_addr := 0; e_len := 0; e_type := 0 |}; t_len := 0 |}.
(** the records the firmware left: plain ones, then one that is not *)
Definition map_at (m : bytes) (es : list e820_entry) : Prop :=
  Forall entry_ok es /\ Forall entry_plain es /\ (length es < 32)%nat /\
  (forall i e, es !! i = Some e -> read_entry m (e820_addr + 20 * N.of_nat i) = e) /\
  ~ entry_plain (read_entry m (e820_addr + 20 * N.of_nat (length es))).
(** whole usable pages *)
Definition usable (es : list e820_entry) (b : N) : Prop := exists e, e ∈ es /\ page_inside e b.
(** every usable page has a number below the number of pages the total amount of memory makes *)
Definition no_holes (es : list e820_entry) : Prop := forall b, usable es b -> b < usable_total es / 2097152.
(** in order, apart from each other, each large enough *)
Definition layout_good (szp szz brk npages nz : N) (l : layout) : Prop :=
  brk <= l_bits l /\ l_bits l mod 4096 = 0 /\
  l_bits l + 8 * ((npages + 63) / 64) <= l_pages l /\ l_pages l mod 4096 = 0 /\
  l_pages l + szp * npages <= l_zones l /\ l_zones l mod 4096 = 0 /\
  l_zones l + szz * nz <= l_end l /\
  l_end l <= brk + npages / 8 + szp * npages + szz * nz + 3 * 4096 + 300.
