(** Concrete states: non-vacuity and the defects. *)
From stdpp Require Import list list_numbers.
From Coq Require Import NArith Lia ZifyBool ZifyNat ZifyN.
From Verif Require Import Base E820Model PageModel PageSpec PageProofs PageAllocProofs.
Local Open Scope N_scope.
Ltac Zify.zify_post_hook ::= Z.div_mod_to_equations.

(** Zone 0 covers pages 1..129, zone 1 page 0; everything else is marked used. *)
Definition demo_bits (w : N) : N := if w <? 2 then 0 else if w =? 2 then W64 - 4 else W64 - 1.
Definition demo_page (i : nat) : page :=
  {| pg_attr := 0; pg_refs := 0; pg_phy := N.of_nat i; pg_zone := if (i =? 0)%nat then 1 else 0 |}.
Definition demo_mm : mm :=
  {| bits := demo_bits; pages := map demo_page (seq 0 130);
     zones := [ {| z_start := 1; z_end := 130; z_using := 0; z_free := 129; z_links := 0 |};
                {| z_start := 0; z_end := 1; z_using := 0; z_free := 1; z_links := 0 |} ] |}.

Lemma demo_lookup i p : pages demo_mm !! i = Some p -> (i < 130)%nat /\ p = demo_page i.
Proof.
  intros H. unfold demo_mm in H. cbn [pages] in H. apply list_lookup_fmap_Some in H as (j & H & ->).
  apply lookup_seq in H as [-> H]. split; [exact H|reflexivity].
Qed.
Lemma demo_bits_free i : i < 130 -> bit demo_bits i = false.
Proof.
  intros H. assert (A : forallb (fun i => negb (bit demo_bits (N.of_nat i))) (seq 0 130) = true) by (vm_compute; reflexivity).
  rewrite forallb_forall in A. specialize (A (N.to_nat i)). rewrite N2Nat.id in A. apply negb_true_iff, A, in_seq. lia.
Qed.
Lemma demo_fresh : fresh demo_mm.
Proof.
  split; [|split; [|split]].
  - intros i p H. apply demo_lookup in H as [H ->]. split; [reflexivity|]. cbn. destruct (i =? 0)%nat; lia.
  - intros i p H. apply demo_lookup in H as [H ->]. split; [reflexivity|]. split; [reflexivity|]. apply demo_bits_free. lia.
  - intros zi z H. destruct zi as [|[|zi]]; [| |destruct zi; discriminate]; injection H as <-;
      (split; [reflexivity|split; [vm_compute; reflexivity|reflexivity]]).
  - vm_compute. reflexivity.
Qed.

Definition demo_ops : list page_op := [OpInit 0 4; OpInit 5 4; OpInit 7 1; OpInit 7 4; OpClean 5; OpClean 7; OpInit 9 8].
Definition demo_plain_ops : list page_op := [OpInit 0 4; OpInit 5 4; OpInit 5 8; OpClean 5; OpInit 9 4].
Lemma demo_ops_ok : fresh demo_mm /\ Forall (op_ok demo_mm) demo_ops /\ N.of_nat (length demo_ops) < 2 ^ 64 /\
  match page_run 1 2 demo_mm demo_ops with
  | Ok s => match zones s !! 0%nat with Some z => z_using z = 2 /\ z_free z = 127 /\ z_links z = 2 | None => False end
  | _ => False
  end.
Proof.
  split; [exact demo_fresh|]. split; [|split; [reflexivity|vm_compute; repeat split]].
  unfold demo_ops. repeat (apply Forall_cons; split; [cbn; lia|]). constructor.
Qed.
Lemma demo_plain_ok : fresh demo_mm /\ Forall (op_ok demo_mm) demo_plain_ops /\ Forall (op_plain 1 2) demo_plain_ops /\
  N.of_nat (length demo_plain_ops) < 2 ^ 64.
Proof.
  split; [exact demo_fresh|]. split; [|split; [|reflexivity]].
  - unfold demo_plain_ops. repeat (apply Forall_cons; split; [cbn; lia|]). constructor.
  - unfold demo_plain_ops. repeat (apply Forall_cons; split; [cbn; try split; reflexivity|]). constructor.
Qed.

(** ** C44: the defects *)
Lemma leak r sh s i flags : fresh s -> (i < length (pages s))%nat -> flags <> 0 -> referenced r sh flags = true ->
  exists s' p, page_run r sh s [OpInit i flags; OpClean i] = Ok s' /\ pages s' !! i = Some p /\ in_use p = false /\
    bit (bits s') (N.of_nat i) = true.
Proof.
  intros (L & F & Z & B) Hi Hf Hr. destruct (lookup_lt_is_Some_2 _ _ Hi) as [p Hp].
  destruct (F i p Hp) as (A & R & _). destruct (L i p Hp) as [E Lz].
  destruct (lookup_lt_is_Some_2 _ _ Lz) as [z Hz].
  cbn [page_run page_step]. unfold page_init. rewrite Hp. cbn [of_option obind]. rewrite Hz. cbn [of_option obind].
  rewrite A. change (0 =? 0) with true. cbv iota. cbn [obind]. rewrite R.
  unfold page_clean at 1. unfold put at 1. cbn [pages]. rewrite list_lookup_insert by exact Hi. cbn [of_option obind].
  unfold put at 1. cbn [zones pg_zone]. rewrite list_lookup_insert by exact Lz. cbn [of_option obind].
  cbn [pg_attr pg_refs]. replace (flags =? 0) with false by lia. rewrite Hr. change (dec (inc 0) =? 0) with true. cbv iota zeta.
  eexists _, _. split; [reflexivity|]. split; [|split].
  - unfold put. cbn [pages]. apply list_lookup_insert. rewrite insert_length. exact Hi.
  - reflexivity.
  - unfold put. cbn [bits]. rewrite bit_set, E, N.eqb_refl. apply orb_true_r.
Qed.
Lemma zero_flags_refuted : exists s ops s' z, fresh s /\ page_run 1 2 s ops = Ok s' /\ zones s' !! 0%nat = Some z /\
  (forall i p, pages s' !! i = Some p -> in_use p = false) /\ z_using z <> pages_used 0 (pages s').
Proof.
  assert (G : match page_run 1 2 demo_mm [OpInit 5 0; OpInit 5 0] with
    | Ok s' => forallb (fun p => negb (in_use p)) (pages s') = true /\
        match zones s' !! 0%nat with Some z => z_using z = 2 /\ pages_used 0 (pages s') = 0 | None => False end
    | _ => False end) by (vm_compute; repeat split).
  destruct (page_run 1 2 demo_mm [OpInit 5 0; OpInit 5 0]) as [s'| |] eqn:E; try contradiction.
  destruct G as [Q G]. destruct (zones s' !! 0%nat) as [z|] eqn:Ez; [|contradiction].
  exists demo_mm, [OpInit 5 0; OpInit 5 0], s', z. split; [exact demo_fresh|]. split; [exact E|]. split; [exact Ez|]. split.
  - intros i p H. rewrite forallb_forall in Q. apply negb_true_iff, Q, elem_of_list_In. eapply elem_of_list_lookup_2. exact H.
  - lia.
Qed.
Definition small_map : list e820_entry :=
  [ {| e_addr := 0; e_len := 0x9fc00; e_type := 1 |}; {| e_addr := 0x100000; e_len := 0x7ee0000; e_type := 1 |} ].
Lemma boot_counts_refuted : exists es last flags s z, Forall entry_sane es /\ flags <> 0 /\
  init_memory 1 2 es last flags = Ok s /\ zones s !! 0%nat = Some z /\ z_free z <> unused_in (pages s) z.
Proof.
  assert (G : match init_memory 1 2 small_map 1 4 with
    | Ok s => match zones s !! 0%nat with Some z => z_free z = 60 /\ unused_in (pages s) z = 61 | None => False end
    | _ => False end) by (vm_compute; split; reflexivity).
  destruct (init_memory 1 2 small_map 1 4) as [s| |] eqn:E; try contradiction.
  destruct (zones s !! 0%nat) as [z|] eqn:Ez; [|contradiction].
  exists small_map, 1%nat, 4, s, z. split; [|split; [discriminate|split; [exact E|split; [exact Ez|lia]]]].
  unfold small_map. repeat (apply Forall_cons; split; [vm_compute; reflexivity|]). constructor.
Qed.

(** ** C43 *)
(** Page 0 in use, 1..129 free. *)
Definition ready_mm : mm := match page_init 1 2 demo_mm 0 4 with Ok s => s | _ => demo_mm end.
Definition demo_zone : zone := {| z_start := 1; z_end := 130; z_using := 0; z_free := 129; z_links := 0 |}.
Lemma ready_bits w : bits ready_mm w < 2 ^ 64.
Proof.
  change (bits ready_mm w) with (set_bit demo_bits 0 w). unfold set_bit, demo_bits.
  destruct (w =? 0 / 64) eqn:E.
  - apply N.eqb_eq in E. subst w. vm_compute. reflexivity.
  - destruct (w <? 2); [vm_compute; reflexivity|]. destruct (w =? 2); vm_compute; reflexivity.
Qed.
Lemma ready_lookup i p : pages ready_mm !! i = Some p -> i <> 0%nat -> p = demo_page i.
Proof.
  intros H Hi. unfold ready_mm, page_init in H. change (pages demo_mm !! 0%nat) with (Some (demo_page 0)) in H. cbn [of_option obind] in H.
  change (zones demo_mm !! pg_zone (demo_page 0)) with (Some {| z_start := 0; z_end := 1; z_using := 0; z_free := 1; z_links := 0 |}) in H.
  cbn [of_option obind] in H. change (pg_attr (demo_page 0) =? 0) with true in H. cbv iota in H. unfold put in H. cbn [pages] in H.
  rewrite list_lookup_insert_ne in H by congruence. apply demo_lookup in H as [_ ->]. reflexivity.
Qed.
Lemma ready_ok : alloc_ready ready_mm 0 demo_zone.
Proof.
  assert (Len : length (pages ready_mm) = 130%nat) by (vm_compute; reflexivity).
  split; [|split; [|split; [exact ready_bits|split; [reflexivity|] ] ] ].
  - intros i p H. destruct i as [|i].
    + vm_compute in H. injection H as <-. split; [reflexivity|]. vm_compute. lia.
    + rewrite (ready_lookup (S i) p H) by discriminate. split; [reflexivity|]. vm_compute. lia.
  - vm_compute. reflexivity.
  - intros b Hb. change (bits ready_mm) with (set_bit demo_bits 0) in Hb. rewrite bit_set in Hb.
    apply orb_false_iff in Hb as [Hb H0]. apply N.eqb_neq in H0.
    assert (Hlt : b < 130).
    { destruct (N.lt_ge_cases b 130) as [|G]; [assumption|]. exfalso. revert Hb. unfold bit, demo_bits.
      destruct (N.ltb_spec (b / 64) 2) as [H1|H1]; [lia|]. destruct (N.eqb_spec (b / 64) 2) as [H2|H2].
      - assert (A : forallb (fun i => N.testbit (W64 - 4) (N.of_nat i)) (seq 2 62) = true) by (vm_compute; reflexivity).
        rewrite forallb_forall in A. specialize (A (N.to_nat (b mod 64))). rewrite N2Nat.id in A.
        rewrite A; [discriminate|]. apply in_seq. lia.
      - change (W64 - 1) with (N.ones 64). rewrite N.ones_spec_low by lia. discriminate. }
    split; [cbn [z_start z_end demo_zone]; lia|].
    destruct (lookup_lt_is_Some_2 (pages ready_mm) (N.to_nat b)) as [p Hp]; [rewrite Len; lia|].
    exists p. split; [exact Hp|]. rewrite (ready_lookup _ p Hp) by lia. reflexivity.
Qed.
Lemma ready_demo : alloc_ready ready_mm 0 demo_zone /\ z_start demo_zone mod 64 = 1 /\ 3 <= z_free demo_zone /\
  (exists q, z_start demo_zone <= q < z_start demo_zone + 62 /\ forall i, i < 3 -> bit (bits ready_mm) (q + i) = false) /\
  match alloc_pages false 1 2 0 ready_mm ZONE_NORMAL 3 4 with Ok (Some pg, _) => pg = 1 | _ => False end.
Proof.
  split; [exact ready_ok|]. split; [reflexivity|]. split; [vm_compute; discriminate|]. split.
  - exists 1. split; [cbn [z_start demo_zone]; lia|]. intros i Hi. change (bits ready_mm) with (set_bit demo_bits 0).
    rewrite bit_set, demo_bits_free by lia. replace (1 + i =? 0) with false by lia. reflexivity.
  - vm_compute. reflexivity.
Qed.

(** All of pages 0..63 in use: the next request for one page is given page 63 again. *)
Definition full_ops : list page_op := map (fun i => OpInit i 4) (seq 0 64).
Lemma in_use_refuted : exists s ops s1 pg s2, fresh s /\ Forall (op_ok s) ops /\ page_run 1 2 s ops = Ok s1 /\
  counts_ok s1 /\ bits_exact s1 /\
  alloc_pages true 1 2 0 s1 ZONE_NORMAL 1 4 = Ok (Some pg, s2) /\ bit (bits s1) pg = true.
Proof.
  assert (O : Forall (op_ok demo_mm) full_ops).
  { apply Forall_forall. intros op H. unfold full_ops in H. apply elem_of_list_In, in_map_iff in H as (i & <- & H).
    apply in_seq in H. cbn. lia. }
  assert (Q : Forall (op_plain 1 2) full_ops).
  { apply Forall_forall. intros op H. unfold full_ops in H. apply elem_of_list_In, in_map_iff in H as (i & <- & H).
    split; reflexivity. }
  destruct (run_exact 1 2 demo_mm full_ops demo_fresh O Q eq_refl) as (s1 & E1 & C1 & _ & X1).
  assert (G : match page_run 1 2 demo_mm full_ops with
    | Ok s1 => match alloc_pages true 1 2 0 s1 ZONE_NORMAL 1 4 with Ok (Some pg, _) => bit (bits s1) pg = true | _ => False end
    | _ => False end) by (vm_compute; reflexivity).
  rewrite E1 in G. destruct (alloc_pages true 1 2 0 s1 ZONE_NORMAL 1 4) as [[[pg|] s2]| |] eqn:E2; try contradiction.
  exists demo_mm, full_ops, s1, pg, s2. split; [exact demo_fresh|]. split; [exact O|]. split; [exact E1|].
  split; [exact C1|]. split; [exact X1|]. split; [exact E2|exact G].
Qed.
(** The same state read strictly: undefined. *)
Lemma full_ub : exists s ops s1, fresh s /\ Forall (op_ok s) ops /\ page_run 1 2 s ops = Ok s1 /\
  alloc_pages false 1 2 0 s1 ZONE_NORMAL 1 4 = UB.
Proof.
  exists demo_mm, full_ops.
  assert (O : Forall (op_ok demo_mm) full_ops).
  { apply Forall_forall. intros op H. unfold full_ops in H. apply elem_of_list_In, in_map_iff in H as (i & <- & H).
    apply in_seq in H. cbn. lia. }
  assert (G : match page_run 1 2 demo_mm full_ops with
    | Ok s1 => alloc_pages false 1 2 0 s1 ZONE_NORMAL 1 4 = UB
    | _ => False end) by (vm_compute; reflexivity).
  destruct (page_run 1 2 demo_mm full_ops) as [s1| |]; try contradiction.
  exists s1. split; [exact demo_fresh|]. split; [exact O|]. split; [reflexivity|exact G].
Qed.

(** Two adjacent zones 1..4 and 5..129: a run across the border is handed out. *)
Definition two_zone_page (i : nat) : page :=
  {| pg_attr := 0; pg_refs := 0; pg_phy := N.of_nat i; pg_zone := if (i =? 0)%nat then 2 else if (i <? 5)%nat then 0 else 1 |}.
Definition two_mm : mm :=
  {| bits := demo_bits; pages := map two_zone_page (seq 0 130);
     zones := [ {| z_start := 1; z_end := 5; z_using := 0; z_free := 4; z_links := 0 |};
                {| z_start := 5; z_end := 130; z_using := 0; z_free := 125; z_links := 0 |};
                {| z_start := 0; z_end := 1; z_using := 0; z_free := 1; z_links := 0 |} ] |}.
Lemma two_fresh : fresh two_mm.
Proof.
  assert (LK : forall i p, pages two_mm !! i = Some p -> (i < 130)%nat /\ p = two_zone_page i).
  { intros i p H. unfold two_mm in H. cbn [pages] in H. apply list_lookup_fmap_Some in H as (j & H & ->).
    apply lookup_seq in H as [-> H]. split; [exact H|reflexivity]. }
  split; [|split; [|split]].
  - intros i p H. apply LK in H as [H ->]. split; [reflexivity|]. cbn [two_zone_page pg_zone two_mm zones length].
    destruct (i =? 0)%nat; [lia|]. destruct (i <? 5)%nat; lia.
  - intros i p H. apply LK in H as [H ->]. split; [reflexivity|]. split; [reflexivity|]. apply demo_bits_free. lia.
  - intros zi z H. destruct zi as [|[|[|zi]]]; [| | |destruct zi; discriminate]; injection H as <-;
      (split; [reflexivity|split; [vm_compute; reflexivity|reflexivity]]).
  - vm_compute. reflexivity.
Qed.
Lemma border_refuted : exists s ops s1 z pg s2, fresh s /\ Forall (op_ok s) ops /\ page_run 1 2 s ops = Ok s1 /\
  zones s1 !! 0%nat = Some z /\
  alloc_pages false 1 2 0 s1 ZONE_NORMAL 2 4 = Ok (Some pg, s2) /\ pg < z_end z < pg + 2.
Proof.
  set (ops := [OpInit 0 4; OpInit 2 4; OpInit 3 4]).
  assert (G : match page_run 1 2 two_mm ops with
    | Ok s1 => match zones s1 !! 0%nat, alloc_pages false 1 2 0 s1 ZONE_NORMAL 2 4 with
               | Some z, Ok (Some pg, _) => z_end z = 5 /\ pg = 4 | _, _ => False end
    | _ => False end) by (vm_compute; split; reflexivity).
  destruct (page_run 1 2 two_mm ops) as [s1| |] eqn:E1; try contradiction.
  destruct (zones s1 !! 0%nat) as [z|] eqn:Ez; [|contradiction].
  destruct (alloc_pages false 1 2 0 s1 ZONE_NORMAL 2 4) as [[[pg|] s2]| |] eqn:E2; try contradiction.
  exists two_mm, ops, s1, z, pg, s2. split; [exact two_fresh|]. split.
  - unfold ops. repeat (apply Forall_cons; split; [cbn; lia|]). constructor.
  - split; [exact E1|]. split; [exact Ez|]. split; [exact E2|]. lia.
Qed.

(** ** C60 *)
Definition pc_map : list e820_entry :=
  [ {| e_addr := 0; e_len := 0x9fc00; e_type := 1 |}; {| e_addr := 0x9fc00; e_len := 0x400; e_type := 2 |};
    {| e_addr := 0x100000; e_len := 0xbff00000; e_type := 1 |};
    {| e_addr := 0x100000000; e_len := 0x40000000; e_type := 1 |} ].
Lemma pc_sane : Forall entry_sane pc_map.
Proof. unfold pc_map. repeat (apply Forall_cons; split; [vm_compute; reflexivity|]). constructor. Qed.
Lemma pc_demo : Forall entry_sane pc_map /\ holders pc_map 1 = 1%nat /\ holders pc_map 1536 = 0%nat /\ holders pc_map 2048 = 1%nat.
Proof. split; [exact pc_sane|]. vm_compute. repeat split. Qed.
Lemma array_refuted : exists es b p, Forall entry_sane es /\ s_pages (setup_zones es) b = Some p /\ page_capacity es <= b.
Proof.
  destruct (setup_page_records pc_map 2048 pc_sane) as [_ R].
  destruct (s_pages (setup_zones pc_map) 2048) as [p|] eqn:E.
  - exists pc_map, 2048, p. split; [exact pc_sane|]. split; [exact E|]. vm_compute. discriminate.
  - exfalso. destruct R as [R _]. specialize (R eq_refl). vm_compute in R. discriminate.
Qed.
Definition overlap_map : list e820_entry :=
  [ {| e_addr := 0x200000; e_len := 0x800000; e_type := 1 |}; {| e_addr := 0x400000; e_len := 0x800000; e_type := 1 |} ].
Lemma overlap_refuted : exists es b e, Forall entry_sane es /\ e ∈ es /\ page_inside e b /\ bit (s_bits (setup_zones es)) b = true.
Proof.
  exists overlap_map, 3, {| e_addr := 0x200000; e_len := 0x800000; e_type := 1 |}.
  assert (S : Forall entry_sane overlap_map).
  { unfold overlap_map. repeat (apply Forall_cons; split; [vm_compute; reflexivity|]). constructor. }
  split; [exact S|]. split; [apply elem_of_list_here|]. split; [apply insideb_spec; vm_compute; reflexivity|].
  rewrite setup_bitmap by exact S. vm_compute. reflexivity.
Qed.
