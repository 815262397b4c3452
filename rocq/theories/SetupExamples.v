(** Concrete cases for init_memory as a whole. *)
From stdpp Require Import list.
From Coq Require Import NArith Lia ZifyBool ZifyNat ZifyN.
From Verif Require Import Base E820Model E820Spec E820Proofs PageModel PageSpec PagingModel SetupModel SetupSpec SetupProofs.
Local Open Scope N_scope.

(** 640 KiB and the memory from 1 MiB to 129 MiB; or to 1026 MiB *)
Definition pc (len : N) : list e820_entry :=
  [ {| e_addr := 0; e_len := 0x9f000; e_type := 1 |}; {| e_addr := 0x9f000; e_len := 0x61000; e_type := 2 |};
    {| e_addr := 0x100000; e_len := len; e_type := 1 |} ].
Definition pc_mem (len : N) : bytes := store_map (fun _ => 0) e820_addr (pc len).
Definition demo_brk : N := HIGH + 0x240000.

Lemma pc_map_at len : 0 < len < 2 ^ 32 -> map_at (pc_mem len) (pc len).
Proof.
  intros H. assert (Forall entry_ok (pc len)) as Hok.
  { unfold pc, entry_ok. repeat (apply Forall_cons_2; [cbn [e_addr e_len e_type]; lia|]). apply Forall_nil_2. }
  split; [exact Hok|]. split; [|split; [|split]].
  - unfold pc, entry_plain. repeat (apply Forall_cons_2; [cbn [e_addr e_len e_type]; lia|]). apply Forall_nil_2.
  - cbn [pc length]. lia.
  - intros i e He. unfold pc_mem. apply read_map; assumption.
  - unfold pc_mem. rewrite (read_entry_ext _ (fun _ => 0)); [|intros x Hx; apply store_map_outside; right; lia].
    vm_compute. intros [[H1 _] _]. contradiction.
Qed.
Lemma pc_sane len : len < 2 ^ 32 -> Forall entry_sane (pc len).
Proof. intros H. unfold pc, entry_sane. repeat (apply Forall_cons_2; [cbn [e_addr e_len]; lia|]). apply Forall_nil_2. Qed.
Lemma pc_usable len b : usable (pc len) b <-> 1 <= b /\ (b + 1) * 2097152 <= 0x100000 + len.
Proof.
  unfold usable, pc, page_inside. split.
  - intros (e & He & H1 & H2 & H3). repeat (apply elem_of_cons in He as [-> |He]; [cbn [e_addr e_len e_type] in *; lia|]). inversion He.
  - intros H. exists {| e_addr := 0x100000; e_len := len; e_type := 1 |}. split; [right; right; left|]. cbn [e_addr e_len e_type]. lia.
Qed.
Lemma pc_total len : usable_total (pc len) = 0x9f000 + len.
Proof. unfold usable_total, pc. cbn [foldr e_type e_len N.eqb Pos.eqb]. lia. Qed.
Lemma pc_no_holes : no_holes (pc 0x8000000).
Proof. intros b Hb. apply pc_usable in Hb. rewrite pc_total. assert (b < 64) by lia. change ((0x9f000 + 0x8000000) / 2097152) with 64. lia. Qed.
Lemma demo_last : l_end (lay 40 80 demo_brk (usable_total (pc 0x8000000)) (N.of_nat (length (s_zones (setup_zones (pc 0x8000000)))))) = HIGH + 0x242150.
Proof. vm_compute. reflexivity. Qed.

Lemma demo_whole : map_at (pc_mem 0x8000000) (pc 0x8000000) /\ pc 0x8000000 <> [] /\ Forall entry_sane (pc 0x8000000) /\
  usable_total (pc 0x8000000) < 2 ^ 64 /\ HIGH <= demo_brk /\ no_holes (pc 0x8000000) /\
  demo_brk + usable_total (pc 0x8000000) / 2097152 / 8 + 40 * (usable_total (pc 0x8000000) / 2097152) +
    80 * N.of_nat (length (s_zones (setup_zones (pc 0x8000000)))) + 3 * 4096 + 300 < 2 ^ 64 /\
  (l_end (lay 40 80 demo_brk (usable_total (pc 0x8000000)) (N.of_nat (length (s_zones (setup_zones (pc 0x8000000)))))) - HIGH) / 2097152 = 1 /\
  usable (pc 0x8000000) 1.
Proof.
  split; [apply pc_map_at; lia|]. split; [discriminate|]. split; [apply pc_sane; lia|]. split; [vm_compute; reflexivity|].
  split; [discriminate|]. split; [exact pc_no_holes|]. split; [vm_compute; reflexivity|]. split; [rewrite demo_last; reflexivity|].
  apply pc_usable. lia.
Qed.

(** Reading twice *)
Lemma twice_refuted : exists m es, map_at m es /\ es <> [] /\ rows_used (fst (read_rows m (fst (read_rows m zero_table)))) <> es.
Proof.
  exists (pc_mem 0x8000000), (pc 0x8000000). assert (map_at (pc_mem 0x8000000) (pc 0x8000000)) as H by (apply pc_map_at; lia).
  split; [exact H|]. split; [discriminate|]. rewrite (read_again _ _ H) by discriminate. vm_compute. discriminate.
Qed.

(** The hole below 1 MiB alone makes the page array one record short: here the last record is the first zone. *)
Lemma short_refuted : exists es b, Forall entry_sane es /\ usable es b /\ (forall j, usable es j -> j <= b) /\
  exists l, l = lay 40 80 demo_brk (usable_total es) (N.of_nat 1) /\ l_pages l + 40 * b = l_zones l.
Proof.
  exists (pc 0x40100000), 512. split; [apply pc_sane; lia|]. split; [apply pc_usable; lia|]. split; [intros j Hj; apply pc_usable in Hj; lia|].
  eexists. split; [reflexivity|]. rewrite pc_total. vm_compute. reflexivity.
Qed.
(** 512 GiB: the records reach the frame buffer. *)
Lemma frame_refuted : exists es l a, Forall entry_sane es /\ no_holes es /\
  l = lay 40 80 demo_brk (usable_total es) 1 /\ l_pages l <= a /\ a < l_pages l + 40 * (usable_total es / 2097152) /\
  forall other, boot_walk other a = Some {| phys := 0xe0000000; writable := true; user := false |}.
Proof.
  exists [ {| e_addr := 0; e_len := 0x8000000000; e_type := 1 |} ].
  exists (lay 40 80 demo_brk 0x8000000000 1), (HIGH + 0xa00000).
  split; [apply Forall_cons_2; [unfold entry_sane; cbn [e_addr e_len]; lia|apply Forall_nil_2]|].
  split; [|split; [reflexivity|split; [vm_compute; discriminate|split; [vm_compute; reflexivity|]]]].
  - intros b (e & He & _ & H2 & H3). apply elem_of_list_singleton in He as ->. cbn [e_addr e_len] in *.
    change (usable_total [ {| e_addr := 0; e_len := 0x8000000000; e_type := 1 |} ] / 2097152) with 262144. lia.
  - intros other. exact (PagingProofs.frame_buffer other 0 ltac:(lia)).
Qed.
(** The kernel reaches above the end of the first usable area: marking reads records never written. *)
Lemma gap_refuted : exists es last, Forall entry_sane es /\ (exists b, usable es b) /\
  mark_pages 0 0 1 (S (N.to_nat last)) 0 (with_page0 (setup_zones es)) = UB.
Proof.
  exists [ {| e_addr := 0x1000000; e_len := 0x800000; e_type := 1 |} ], 1.
  assert (Forall entry_sane [ {| e_addr := 0x1000000; e_len := 0x800000; e_type := 1 |} ]) as H
    by (apply Forall_cons_2; [unfold entry_sane; cbn [e_addr e_len]; lia|apply Forall_nil_2]).
  split; [exact H|]. split; [exists 8, {| e_addr := 0x1000000; e_len := 0x800000; e_type := 1 |}; split; [left|unfold page_inside; cbn [e_addr e_len e_type]; lia]|].
  apply (marking _ 0 0 1 1 H). intros [_ Hu]. destruct (Hu 1 ltac:(lia)) as (e & He & _ & H2 & _).
  apply elem_of_list_singleton in He as ->. cbn [e_addr] in H2. lia.
Qed.
