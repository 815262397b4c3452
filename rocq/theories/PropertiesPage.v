(** C43, C44, C60: physical pages. *)
From stdpp Require Import list.
From Coq Require Import NArith.
From Verif Require Import Base E820Model PageModel PageSpec PageProofs PageAllocProofs PageExamples.
Local Open Scope N_scope.

(** C43 (part): a request that fails changes nothing, for every state, layout and shift semantics. *)
Theorem C43_failure : forall hw r sh u s sel number flags s',
  alloc_pages hw r sh u s sel number flags = Ok (None, s') -> s' = s.
Proof. exact alloc_none. Qed.
Print Assumptions C43_failure.

(** C43 (part): in a zone whose first page is bit 1 of a bitmap word (the usual first zone starts at
    page 1), if a free run starts within its first 62 pages, the lowest such run is returned and
    exactly it is marked. Missing: every other zone and every later run, see the refutations. *)
Theorem C43_first_word_partial : forall r sh u s sel z number flags, sel = ZONE_DMA \/ sel = ZONE_NORMAL ->
  alloc_ready s 0 z -> z_start z mod 64 = 1 -> z_start z < z_end z -> 1 <= number <= 64 -> number <= z_free z ->
  (exists q, z_start z <= q < z_start z + 62 /\ forall i, i < number -> bit (bits s) (q + i) = false) ->
  exists pg s', alloc_pages false r sh u s sel number flags = Ok (Some pg, s') /\ alloc_right s s' z pg number /\
    (forall j, (j < N.to_nat pg \/ N.to_nat pg + N.to_nat number <= j)%nat -> pages s' !! j = pages s !! j) /\
    (forall j, (N.to_nat pg <= j < N.to_nat pg + N.to_nat number)%nat -> exists p, pages s' !! j = Some p /\ pg_attr p = flags).
Proof. exact alloc_first_word. Qed.
Print Assumptions C43_first_word_partial.
(** In such a zone every answer that is not undefined is right. *)
Theorem C43_sound_partial : forall r sh u s sel z number flags pg s', sel = ZONE_DMA \/ sel = ZONE_NORMAL ->
  alloc_ready s 0 z -> z_start z mod 64 = 1 -> z_start z < z_end z -> 1 <= number <= 64 ->
  alloc_pages false r sh u s sel number flags = Ok (Some pg, s') -> alloc_right s s' z pg number.
Proof. exact alloc_sound. Qed.
Print Assumptions C43_sound_partial.
Example C43_example : alloc_ready ready_mm 0 demo_zone /\ z_start demo_zone mod 64 = 1 /\ 3 <= z_free demo_zone /\
  (exists q, z_start demo_zone <= q < z_start demo_zone + 62 /\ forall i, i < 3 -> bit (bits ready_mm) (q + i) = false) /\
  match alloc_pages false 1 2 0 ready_mm ZONE_NORMAL 3 4 with Ok (Some pg, _) => pg = 1 | _ => False end.
Proof. exact ready_demo. Qed.

(** A zone that starts on a word boundary: always undefined (shift by 64 for k = 0). *)
Theorem C43_aligned_undefined : forall r sh u s sel z number flags, sel = ZONE_DMA \/ sel = ZONE_NORMAL ->
  zones s !! 0%nat = Some z -> z_start z mod 64 = 0 -> z_start z < z_end z -> number <= z_free z ->
  alloc_pages false r sh u s sel number flags = UB.
Proof. exact alloc_aligned_ub. Qed.
Print Assumptions C43_aligned_undefined.
(** The usual zone with its first pages in use: undefined although pages are free ... *)
Theorem C43_second_word_refuted : exists s ops s1, fresh s /\ Forall (op_ok s) ops /\ page_run 1 2 s ops = Ok s1 /\
  alloc_pages false 1 2 0 s1 ZONE_NORMAL 1 4 = UB.
Proof. exact full_ub. Qed.
Print Assumptions C43_second_word_refuted.
(** ... and with the shift the processor does, a page already in use is handed out. *)
Theorem C43_in_use_refuted : exists s ops s1 pg s2, fresh s /\ Forall (op_ok s) ops /\ page_run 1 2 s ops = Ok s1 /\
  counts_ok s1 /\ bits_exact s1 /\
  alloc_pages true 1 2 0 s1 ZONE_NORMAL 1 4 = Ok (Some pg, s2) /\ bit (bits s1) pg = true.
Proof. exact in_use_refuted. Qed.
Print Assumptions C43_in_use_refuted.
(** The end of the zone is not checked: a run across two zones is handed out. *)
Theorem C43_border_refuted : exists s ops s1 z pg s2, fresh s /\ Forall (op_ok s) ops /\ page_run 1 2 s ops = Ok s1 /\
  zones s1 !! 0%nat = Some z /\
  alloc_pages false 1 2 0 s1 ZONE_NORMAL 2 4 = Ok (Some pg, s2) /\ pg < z_end z < pg + 2.
Proof. exact border_refuted. Qed.
Print Assumptions C43_border_refuted.

(** C44 (part): from a fresh state, any history of fewer than 2^64 calls with non-zero flags keeps the
    in-use, free and reference counts of every zone equal to what the pages say, and the bit of
    every page in use set. Missing: zero flags; the bits of unused pages (see below). *)
Theorem C44_counts_partial : forall r sh s ops,
  fresh s -> Forall (op_ok s) ops -> N.of_nat (length ops) < 2 ^ 64 ->
  exists s', page_run r sh s ops = Ok s' /\ counts_ok s' /\ refs_ok r sh s' /\ bits_cover s'.
Proof. exact run_counts. Qed.
Print Assumptions C44_counts_partial.
Example C44_example : fresh demo_mm /\ Forall (op_ok demo_mm) demo_ops /\ N.of_nat (length demo_ops) < 2 ^ 64 /\
  match page_run 1 2 demo_mm demo_ops with
  | Ok s => match zones s !! 0%nat with Some z => z_using z = 2 /\ z_free z = 127 /\ z_links z = 2 | None => False end
  | _ => False
  end.
Proof. exact demo_ops_ok. Qed.
(** C44 (part): without the two reference flags the bitmap is exactly the set of pages in use. *)
Theorem C44_exact_partial : forall r sh s ops,
  fresh s -> Forall (op_ok s) ops -> Forall (op_plain r sh) ops -> N.of_nat (length ops) < 2 ^ 64 ->
  exists s', page_run r sh s ops = Ok s' /\ counts_ok s' /\ refs_ok r sh s' /\ bits_exact s'.
Proof. exact run_exact. Qed.
Print Assumptions C44_exact_partial.
Example C44_exact_example : fresh demo_mm /\ Forall (op_ok demo_mm) demo_plain_ops /\
  Forall (op_plain 1 2) demo_plain_ops /\ N.of_nat (length demo_plain_ops) < 2 ^ 64.
Proof. exact demo_plain_ok. Qed.
(** A referenced page, once released, always stays marked in the bitmap. *)
Theorem C44_leak_refuted : forall r sh s i flags,
  fresh s -> (i < length (pages s))%nat -> flags <> 0 -> referenced r sh flags = true ->
  exists s' p, page_run r sh s [OpInit i flags; OpClean i] = Ok s' /\ pages s' !! i = Some p /\ in_use p = false /\
    bit (bits s') (N.of_nat i) = true.
Proof. exact leak. Qed.
Print Assumptions C44_leak_refuted.
(** Zero flags: the page is counted every time but never in use. *)
Theorem C44_zero_flags_refuted : exists s ops s' z, fresh s /\ page_run 1 2 s ops = Ok s' /\ zones s' !! 0%nat = Some z /\
  (forall i p, pages s' !! i = Some p -> in_use p = false) /\ z_using z <> pages_used 0 (pages s').
Proof. exact zero_flags_refuted. Qed.
Print Assumptions C44_zero_flags_refuted.
(** init_memory charges page 0 to zone 0, which does not contain it: the free count is wrong from
    the start. *)
Theorem C44_boot_refuted : exists es last flags s z, Forall entry_sane es /\ flags <> 0 /\
  init_memory 1 2 es last flags = Ok s /\ zones s !! 0%nat = Some z /\ z_free z <> unused_in (pages s) z.
Proof. exact boot_counts_refuted. Qed.
Print Assumptions C44_boot_refuted.

(** C60 (part): the zones are, in order, the usable entries that hold a whole 2 MiB page, each with
    exactly the pages inside it. *)
Theorem C60_zones : forall es, Forall entry_sane es ->
  exists es', sublist es' es /\ (forall e, e ∈ es -> (exists b, page_inside e b) -> e ∈ es') /\
  Forall2 (fun e z => z_using z = 0 /\ z_links z = 0 /\ z_free z = z_end z - z_start z /\ z_start z < z_end z /\
     (forall b, z_start z <= b < z_end z <-> page_inside e b)) es' (s_zones (setup_zones es)).
Proof. exact setup_zone_list. Qed.
Print Assumptions C60_zones.
(** C60 (part): a bit is clear exactly when an odd number of entries hold the page; so with
    non-overlapping entries exactly when the page is usable. *)
Theorem C60_bitmap_partial : forall es b, Forall entry_sane es ->
  bit (s_bits (setup_zones es)) b = negb (Nat.odd (holders es b)).
Proof. exact setup_bitmap. Qed.
Print Assumptions C60_bitmap_partial.
(** C60 (part): page records are written exactly for the usable pages and point to a zone that
    contains them. Missing: that they lie inside the array. *)
Theorem C60_records_partial : forall es b, Forall entry_sane es ->
  (forall p, s_pages (setup_zones es) b = Some p -> pg_attr p = 0 /\ pg_refs p = 0 /\ pg_phy p = b /\
     exists z, s_zones (setup_zones es) !! pg_zone p = Some z /\ z_start z <= b < z_end z) /\
  (s_pages (setup_zones es) b = None <-> holders es b = 0%nat).
Proof. exact setup_page_records. Qed.
Print Assumptions C60_records_partial.
Example C60_example : Forall entry_sane pc_map /\ holders pc_map 1 = 1%nat /\ holders pc_map 1536 = 0%nat /\ holders pc_map 2048 = 1%nat.
Proof. exact pc_demo. Qed.
(** Overlapping usable entries: a usable page is marked used. *)
Theorem C60_overlap_refuted : exists es b e, Forall entry_sane es /\ e ∈ es /\ page_inside e b /\
  bit (s_bits (setup_zones es)) b = true.
Proof. exact overlap_refuted. Qed.
Print Assumptions C60_overlap_refuted.
(** A map with a hole: records are written behind the array sized by the total amount of memory. *)
Theorem C60_array_refuted : exists es b p, Forall entry_sane es /\ s_pages (setup_zones es) b = Some p /\ page_capacity es <= b.
Proof. exact array_refuted. Qed.
Print Assumptions C60_array_refuted.
