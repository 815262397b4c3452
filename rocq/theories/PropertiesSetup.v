(** C88: what init_memory reads, where it puts its tables, what it marks and what stays mapped. *)
From stdpp Require Import list.
From Coq Require Import NArith.
From Verif Require Import Base E820Model E820Spec PageModel PageSpec PagingModel SetupModel SetupSpec SetupProofs SetupExamples.
Local Open Scope N_scope.

(** Everything together. If the map is stored behind the boot sector, its sum fits and the tables do not wrap, then the call ends well
    exactly when there is a usable page and all pages but the first up to the end of the tables are usable. Then the rows are the map, the
    tables lie in order behind the kernel, the pages below the end of the tables are marked and nothing else changes in the bitmap, no
    address of the low half is mapped any more and every address of the high half is mapped as before. *)
Theorem C88_init_memory : forall szp szz r sh flags brk m es other,
  map_at m es -> es <> [] -> Forall entry_sane es -> usable_total es < 2 ^ 64 -> HIGH <= brk ->
  let npages := usable_total es / 2097152 in
  let nz := N.of_nat (length (s_zones (setup_zones es))) in
  brk + npages / 8 + szp * npages + szz * nz + 3 * 4096 + 300 < 2 ^ 64 ->
  let l := lay szp szz brk (usable_total es) nz in
  let last := (l_end l - HIGH) / 2097152 in
  layout_good szp szz brk npages nz l /\
  ((exists b, usable es b) /\ (forall j, 1 <= j <= last -> usable es j) ->
   exists res, init_memory_all szp szz r sh flags brk m zero_table (table_mem PDE other) = Ok res /\
     rows_used (r_table res) = es /\ r_layout res = l /\
     (forall b, bit (s_bits (r_setup res)) b = bit (s_bits (setup_zones es)) b || (b <=? last)) /\
     (forall a, HIGH + a < l_end l -> bit (s_bits (r_setup res)) (a / 2097152) = true) /\
     (forall j, j <= last -> exists p, s_pages (r_setup res) j = Some p /\ pg_attr p = flags /\ pg_phy p = j) /\
     (forall j, last < j -> s_pages (r_setup res) j = s_pages (setup_zones es) j) /\
     (forall va, va < 2 ^ 64 -> walk (r_words res) va = if va <? 2 ^ 63 then None else boot_walk other va)) /\
  (~ ((exists b, usable es b) /\ (forall j, 1 <= j <= last -> usable es j)) ->
   init_memory_all szp szz r sh flags brk m zero_table (table_mem PDE other) = UB).
Proof. exact whole. Qed.
Print Assumptions C88_init_memory.
(** Every bitmap word and page record the set-up loop touches is in its table, if every usable page has a number below the page count. *)
Theorem C88_tables_partial : forall szp szz brk nz es l b,
  layout_good szp szz brk (usable_total es / 2097152) nz l -> no_holes es -> usable es b ->
  l_bits l + 8 * (b / 64) + 8 <= l_pages l /\ l_pages l + szp * (b + 1) <= l_zones l.
Proof. exact accesses_inside. Qed.
Print Assumptions C88_tables_partial.
(** One example for both, with the kernel ending in the second page. *)
Example C88_example : map_at (pc_mem 0x8000000) (pc 0x8000000) /\ pc 0x8000000 <> [] /\ Forall entry_sane (pc 0x8000000) /\
  usable_total (pc 0x8000000) < 2 ^ 64 /\ HIGH <= demo_brk /\ no_holes (pc 0x8000000) /\
  demo_brk + usable_total (pc 0x8000000) / 2097152 / 8 + 40 * (usable_total (pc 0x8000000) / 2097152) +
    80 * N.of_nat (length (s_zones (setup_zones (pc 0x8000000)))) + 3 * 4096 + 300 < 2 ^ 64 /\
  (l_end (lay 40 80 demo_brk (usable_total (pc 0x8000000)) (N.of_nat (length (s_zones (setup_zones (pc 0x8000000)))))) - HIGH) / 2097152 = 1 /\
  usable (pc 0x8000000) 1.
Proof. exact demo_whole. Qed.
(** The tables can be written as intended exactly when they end 10 MiB into the high half. *)
Theorem C88_mapped : forall other brk e, HIGH <= brk <= HIGH + 0xa00000 -> e < 2 ^ 64 ->
  ((forall va, brk <= va < e -> boot_walk other va = Some {| phys := va - HIGH; writable := true; user := false |}) <-> e <= HIGH + 0xa00000).
Proof. exact mapped_iff. Qed.
Print Assumptions C88_mapped.
Example C88_mapped_example : HIGH <= demo_brk <= HIGH + 0xa00000 /\ HIGH + 0x242150 < 2 ^ 64.
Proof. vm_compute. repeat split; discriminate. Qed.
(** While the entries are dropped the high half stays mapped after each single write. *)
Theorem C88_drop : forall other n, (n <= 10)%nat ->
  exists m, drop_low n 0 (table_mem PDE other) = Ok m /\
    forall va, va < 2 ^ 64 -> walk m va = if (1 <=? N.of_nat n) && (va <? 2 ^ 63) then None else boot_walk other va.
Proof. exact drop_low_spec. Qed.
Print Assumptions C88_drop.
Example C88_drop_example : (3 <= 10)%nat /\ 0x100000 < 2 ^ 63 /\ boot_walk (fun _ => 0) 0x100000 <> None.
Proof. split; [repeat constructor|]. split; [reflexivity|discriminate]. Qed.
(** Address and length are added to the row: a second reading doubles both. *)
Theorem C88_twice : forall m es, map_at m es -> es <> [] ->
  rows_used (fst (read_rows m (fst (read_rows m zero_table)))) =
  map (fun e => {| e_addr := 2 * e_addr e mod 2 ^ 64; e_len := 2 * e_len e mod 2 ^ 64; e_type := e_type e |}) es.
Proof. exact read_again. Qed.
Print Assumptions C88_twice.
Theorem C88_twice_refuted : exists m es, map_at m es /\ es <> [] /\ rows_used (fst (read_rows m (fst (read_rows m zero_table)))) <> es.
Proof. exact twice_refuted. Qed.
Print Assumptions C88_twice_refuted.
(** On an ordinary PC with 1026 MiB the last page record is written over the first zone. *)
Theorem C88_short_refuted : exists es b, Forall entry_sane es /\ usable es b /\ (forall j, usable es j -> j <= b) /\
  exists l, l = lay 40 80 demo_brk (usable_total es) (N.of_nat 1) /\ l_pages l + 40 * b = l_zones l.
Proof. exact short_refuted. Qed.
Print Assumptions C88_short_refuted.
(** With 512 GiB page records are written to the screen. *)
Theorem C88_frame_refuted : exists es l a, Forall entry_sane es /\ no_holes es /\
  l = lay 40 80 demo_brk (usable_total es) 1 /\ l_pages l <= a /\ a < l_pages l + 40 * (usable_total es / 2097152) /\
  forall other, boot_walk other a = Some {| phys := 0xe0000000; writable := true; user := false |}.
Proof. exact frame_refuted. Qed.
Print Assumptions C88_frame_refuted.
(** A page of the kernel that no usable entry holds: its record was never written. *)
Theorem C88_gap_refuted : exists es last, Forall entry_sane es /\ (exists b, usable es b) /\
  mark_pages 0 0 1 (S (N.to_nat last)) 0 (with_page0 (setup_zones es)) = UB.
Proof. exact gap_refuted. Qed.
Print Assumptions C88_gap_refuted.
