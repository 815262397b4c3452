(** Proofs about alloc_pages and the set-up of the zones. *)
From stdpp Require Import list.
From Coq Require Import NArith Lia ZifyBool ZifyNat ZifyN.
From Verif Require Import Base E820Model PageModel PageSpec PageProofs.
Local Open Scope N_scope.
Ltac Zify.zify_post_hook ::= Z.div_mod_to_equations.

(** * alloc_pages *)
Lemma land_ones_zero x n : N.land x (N.ones n) =? 0 = true <-> forall i, i < n -> N.testbit x i = false.
Proof.
  rewrite N.eqb_eq. split.
  - intros E i Hi. assert (T : N.testbit (N.land x (N.ones n)) i = false) by (rewrite E; apply N.bits_0).
    rewrite N.land_spec, N.ones_spec_low, andb_true_r in T by exact Hi. exact T.
  - intros H. apply N.bits_inj_0. intros i. rewrite N.land_spec.
    destruct (N.lt_ge_cases i n) as [L|L]; [rewrite (H i L); reflexivity|].
    rewrite N.ones_spec_high by exact L. apply andb_false_r.
Qed.
Lemma mask_ok hw n : 1 <= n <= 64 ->
  (if n =? 64 then Ok (W64 - 1) else obind (shl64 hw 1 n) (fun x => Ok ((x + (W64 - 1)) mod W64))) = Ok (N.ones n).
Proof.
  intros H. destruct (N.eqb_spec n 64) as [->|E]; [reflexivity|]. unfold shl64.
  destruct (N.ltb_spec n 64) as [L|L]; [|lia]. cbn [obind]. f_equal.
  rewrite N.shiftl_1_l. assert (P : 2 ^ n <= 2 ^ 63) by (apply N.pow_le_mono_r; lia).
  assert (P1 : 1 <= 2 ^ n) by (change 1 with (2 ^ 0); apply N.pow_le_mono_r; lia).
  change (2 ^ 63) with 9223372036854775808 in P. rewrite W64_val. rewrite N.ones_equiv.
  set (q := 2 ^ n) in *. clearbody q. lia.
Qed.
Lemma testbit_high x i : x < 2 ^ 64 -> 64 <= i -> N.testbit x i = false.
Proof.
  intros H Hi. destruct (N.eq_dec x 0) as [->|Hx]; [apply N.bits_0|].
  apply N.bits_above_log2. apply N.log2_lt_pow2; [lia|]. eapply N.lt_le_trans; [exact H|]. apply N.pow_le_mono_r; lia.
Qed.
Lemma run_free_spec hw m w k n : 1 <= k <= 63 -> 1 <= n <= 64 -> m w < 2 ^ 64 ->
  exists f, run_free hw m w k n = Ok f /\ (f = true <-> forall i, i < n -> bit m (64 * w + k + i) = false).
Proof.
  intros Hk Hn Hw. unfold run_free. unfold shl64 at 1. destruct (N.ltb_spec (64 - k) 64) as [L|L]; [|lia]. cbn [obind].
  rewrite mask_ok by exact Hn. cbn [obind]. eexists. split; [reflexivity|]. rewrite land_ones_zero.
  assert (Q : forall i, i < n -> N.testbit (N.lor (N.shiftr (m w) k) (N.shiftl (m (w + 1)) (64 - k) mod W64)) i = bit m (64 * w + k + i)).
  { intros i Hi. rewrite N.lor_spec, N.shiftr_spec'. unfold bit.
    change W64 with (2 ^ 64). rewrite N.mod_pow2_bits_low by lia.
    destruct (N.lt_ge_cases i (64 - k)) as [H1|H1].
    - rewrite N.shiftl_spec_low by exact H1. rewrite orb_false_r.
      replace ((64 * w + k + i) / 64) with w by lia. f_equal. lia.
    - rewrite testbit_high by (exact Hw || lia). rewrite N.shiftl_spec_high' by exact H1. cbn [orb].
      replace ((64 * w + k + i) / 64) with (w + 1) by lia. f_equal. lia. }
  split; intros H i Hi; specialize (H i Hi); specialize (Q i Hi); congruence.
Qed.
Lemma scan_word_spec hw m w number n : forall k, 1 <= k -> k + N.of_nat n <= 64 -> 1 <= number <= 64 -> m w < 2 ^ 64 ->
  (exists k', scan_word hw m w number n k = Ok (Some k') /\ k <= k' < k + N.of_nat n /\
     (forall i, i < number -> bit m (64 * w + k' + i) = false) /\
     (forall q, k <= q < k' -> ~ forall i, i < number -> bit m (64 * w + q + i) = false)) \/
  (scan_word hw m w number n k = Ok None /\
     (forall q, k <= q < k + N.of_nat n -> ~ forall i, i < number -> bit m (64 * w + q + i) = false)).
Proof.
  induction n as [|n IH]; intros k H1 H2 H3 H4; cbn [scan_word].
  - right. split; [reflexivity|]. lia.
  - destruct (run_free_spec hw m w k number) as (f & E & S); [lia|exact H3|exact H4|]. rewrite E. cbn [obind].
    destruct f.
    + left. exists k. split; [reflexivity|]. split; [lia|]. split; [apply S; reflexivity|]. lia.
    + assert (Nk : ~ forall i, i < number -> bit m (64 * w + k + i) = false).
      { intros A. apply S in A. discriminate. }
      destruct (IH (k + 1)) as [(k' & E' & B & A & F)|(E' & F)]; [lia|lia|exact H3|exact H4| |].
      * left. exists k'. split; [exact E'|]. split; [lia|]. split; [exact A|]. intros q Hq.
        destruct (N.eq_dec q k) as [->|]; [exact Nk|]. apply F. lia.
      * right. split; [exact E'|]. intros q Hq. destruct (N.eq_dec q k) as [->|]; [exact Nk|]. apply F. lia.
Qed.

(** Zones that start at bit 1 of a word: the first word is scanned correctly, the second is undefined. *)
Lemma scan_zone_first m number fuel s e : 1 <= number <= 64 -> s mod 64 = 1 -> s < e -> e < 2 ^ 43 -> (forall w, m w < 2 ^ 64) ->
  (exists pg, scan_zone false (S (S fuel)) m number 63 e s = Ok (Some pg) /\ s <= pg < s + 62 /\
     (forall i, i < number -> bit m (pg + i) = false) /\
     (forall q, s <= q < pg -> ~ forall i, i < number -> bit m (q + i) = false)) \/
  ((forall q, s <= q < s + 62 -> ~ forall i, i < number -> bit m (q + i) = false) /\
   scan_zone false (S (S fuel)) m number 63 e s = if e <? s + 63 then Ok None else UB).
Proof.
  intros Hn Hs He Hb Hm. cbn [scan_zone]. destruct (N.ltb_spec e s) as [L|L]; [lia|]. rewrite Hs.
  change (N.to_nat (64 - 1) - N.to_nat 1)%nat with 62%nat.
  destruct (scan_word_spec false m (s / 64) number 62 1) as [(k & E & B & A & F)|(E & F)]; [lia|lia|exact Hn|apply Hm| |].
  - left. rewrite E. cbn [obind]. rewrite W64_val. change (2 ^ 43) with 8796093022208 in Hb.
    exists (64 * (s / 64) + k). split; [do 2 f_equal; lia|]. split; [lia|]. split; [exact A|].
    intros q Hq A'. apply (F (q - 64 * (s / 64))); [lia|]. intros i Hi. rewrite <-(A' i Hi). f_equal. lia.
  - right. split.
    + intros q Hq A'. apply (F (q - 64 * (s / 64))); [lia|]. intros i Hi. rewrite <-(A' i Hi). f_equal. lia.
    + rewrite E. cbn [obind]. destruct (N.eqb_spec 1 0) as [X|_]; [lia|].
      destruct (N.ltb_spec e (s + 63)) as [L'|L']; [reflexivity|].
      replace ((s + 63) mod 64) with 0 by lia.
      change (N.to_nat (64 - 0) - N.to_nat 0)%nat with 64%nat. cbn [scan_word]. reflexivity.
Qed.

Lemma page_init_bits r sh s i p flags : layout_ok s -> pages s !! i = Some p -> pg_attr p = 0 ->
  exists s', page_init r sh s i flags = Ok s' /\ layout_ok s' /\
    (forall b, bit (bits s') b = bit (bits s) b || (b =? N.of_nat i)) /\
    (forall j, j <> i -> pages s' !! j = pages s !! j) /\
    (exists p', pages s' !! i = Some p' /\ pg_attr p' = flags).
Proof.
  intros L Hp A. destruct (L i p Hp) as [E Z]. destruct (lookup_lt_is_Some_2 _ _ Z) as [z Hz].
  unfold page_init. rewrite Hp. cbn [of_option obind]. rewrite Hz. cbn [of_option obind]. rewrite A. change (0 =? 0) with true. cbv iota.
  eexists. split; [reflexivity|]. split; [|split; [|split]].
  - eapply put_layout; [exact L|exact Hp|exact Hz|reflexivity|reflexivity].
  - intros b. unfold put. cbn [bits]. rewrite bit_set, E. reflexivity.
  - intros j Hj. unfold put. cbn [pages]. apply list_lookup_insert_ne. congruence.
  - unfold put. cbn [pages]. eexists. split; [apply list_lookup_insert; eapply lookup_lt_Some; exact Hp|reflexivity].
Qed.
Lemma init_pages_bits r sh flags n : forall s pg, layout_ok s ->
  (forall i, (pg <= i < pg + n)%nat -> exists p, pages s !! i = Some p /\ pg_attr p = 0) ->
  exists s', init_pages r sh s pg n flags = Ok s' /\
    (forall b, bit (bits s') b = bit (bits s) b || ((N.of_nat pg <=? b) && (b <? N.of_nat pg + N.of_nat n))) /\
    (forall j, (j < pg \/ pg + n <= j)%nat -> pages s' !! j = pages s !! j) /\
    (forall j, (pg <= j < pg + n)%nat -> exists p, pages s' !! j = Some p /\ pg_attr p = flags).
Proof.
  induction n as [|n IH]; intros s pg L H; cbn [init_pages].
  - exists s. split; [reflexivity|]. split; [|split; [reflexivity|lia]]. intros b.
    replace ((N.of_nat pg <=? b) && (b <? N.of_nat pg + N.of_nat 0)) with false by lia. rewrite orb_false_r. reflexivity.
  - destruct (H pg) as (p & Hp & A); [lia|].
    destruct (page_init_bits r sh s pg p flags L Hp A) as (s1 & E1 & L1 & B1 & O1 & P1). rewrite E1. cbn [obind].
    destruct (IH s1 (S pg) L1) as (s' & E' & B' & O' & P').
    { intros i Hi. rewrite O1 by lia. apply H. lia. }
    exists s'. split; [exact E'|]. split; [|split].
    + intros b. rewrite B', B1. rewrite <-orb_assoc. f_equal. lia.
    + intros j Hj. rewrite O' by lia. apply O1. lia.
    + intros j Hj. destruct (decide (j = pg)) as [->|].
      * rewrite O' by lia. exact P1.
      * apply P'. lia.
Qed.

Lemma alloc_first_word r sh u s sel z number flags : sel = ZONE_DMA \/ sel = ZONE_NORMAL ->
  alloc_ready s 0 z -> z_start z mod 64 = 1 -> z_start z < z_end z -> 1 <= number <= 64 -> number <= z_free z ->
  (exists q, z_start z <= q < z_start z + 62 /\ forall i, i < number -> bit (bits s) (q + i) = false) ->
  exists pg s', alloc_pages false r sh u s sel number flags = Ok (Some pg, s') /\ alloc_right s s' z pg number /\
    (forall j, (j < N.to_nat pg \/ N.to_nat pg + N.to_nat number <= j)%nat -> pages s' !! j = pages s !! j) /\
    (forall j, (N.to_nat pg <= j < N.to_nat pg + N.to_nat number)%nat -> exists p, pages s' !! j = Some p /\ pg_attr p = flags).
Proof.
  intros Hsel (L & Hz & Hw & Hb & Hfree) Hs He Hn Hf (q & Hq & Aq).
  assert (E0 : alloc_pages false r sh u s sel number flags = alloc_zones false r sh s 0 1 number flags)
    by (destruct Hsel as [-> | ->]; reflexivity).
  rewrite E0. cbn [alloc_zones]. rewrite Hz. cbn [of_option obind].
  destruct (N.ltb_spec (z_free z) number) as [X|_]; [lia|].
  rewrite Hs. change (64 - 1) with 63.
  replace (N.to_nat (z_end z - z_start z) + 2)%nat with (S (S (N.to_nat (z_end z - z_start z)))) by lia.
  destruct (scan_zone_first (bits s) number (N.to_nat (z_end z - z_start z)) (z_start z) (z_end z) Hn Hs He Hb Hw)
    as [(pg & E & B & A & F)|(F & _)]; [|exfalso; exact (F q Hq Aq)].
  rewrite E. cbn [obind].
  destruct (init_pages_bits r sh flags (N.to_nat number) s (N.to_nat pg) L) as (s' & E' & B' & O' & P').
  { intros i Hi. destruct (Hfree (N.of_nat i)) as [_ X].
    - replace (N.of_nat i) with (pg + (N.of_nat i - pg)) by lia. apply A. lia.
    - rewrite Nat2N.id in X. exact X. }
  rewrite E'. cbn [obind]. exists pg, s'. split; [reflexivity|]. split; [|split; [exact O'|exact P']].
  assert (Last : pg + number <= z_end z).
  { destruct (Hfree (pg + (number - 1))) as [X _]; [apply A; lia|]. lia. }
  unfold alloc_right. split; [lia|]. split; [exact Last|]. split; [|split].
  - intros b Hb'. replace b with (pg + (b - pg)) by lia. apply A. lia.
  - intros b. rewrite B'. rewrite !N2Nat.id. reflexivity.
  - intros b Hb' Ab. exact (F b Hb' Ab).
Qed.

Lemma alloc_sound r sh u s sel z number flags pg s' : sel = ZONE_DMA \/ sel = ZONE_NORMAL ->
  alloc_ready s 0 z -> z_start z mod 64 = 1 -> z_start z < z_end z -> 1 <= number <= 64 ->
  alloc_pages false r sh u s sel number flags = Ok (Some pg, s') -> alloc_right s s' z pg number.
Proof.
  intros Hsel R Hs He Hn Ha. pose proof R as (L & Hz & Hw & Hb & Hfree).
  assert (E0 : alloc_pages false r sh u s sel number flags = alloc_zones false r sh s 0 1 number flags)
    by (destruct Hsel as [-> | ->]; reflexivity).
  destruct (N.lt_ge_cases (z_free z) number) as [X|X].
  - rewrite E0 in Ha. cbn [alloc_zones] in Ha. rewrite Hz in Ha. cbn [of_option obind] in Ha.
    apply N.ltb_lt in X. rewrite X in Ha. discriminate.
  - destruct (scan_zone_first (bits s) number (N.to_nat (z_end z - z_start z)) (z_start z) (z_end z) Hn Hs He Hb Hw)
      as [(pg0 & E & B & A & F)|(F & E)].
    + destruct (alloc_first_word r sh u s sel z number flags Hsel R Hs He Hn X) as (pg1 & s1 & E1 & R1 & _).
      { exists pg0. split; [exact B|exact A]. }
      rewrite Ha in E1. injection E1 as -> ->. exact R1.
    + exfalso. rewrite E0 in Ha. cbn [alloc_zones] in Ha. rewrite Hz in Ha. cbn [of_option obind] in Ha.
      apply N.ltb_ge in X. rewrite X, Hs in Ha. change (64 - 1) with 63 in Ha.
      replace (N.to_nat (z_end z - z_start z) + 2)%nat with (S (S (N.to_nat (z_end z - z_start z)))) in Ha by lia.
      rewrite E in Ha. destruct (z_end z <? z_start z + 63); discriminate.
Qed.

Lemma alloc_zones_none hw r sh s number flags n : forall i s', alloc_zones hw r sh s i n number flags = Ok (None, s') -> s' = s.
Proof.
  induction n as [|n IH]; intros i s' H; cbn [alloc_zones] in H; [congruence|].
  destruct (zones s !! i) as [z|]; [|discriminate]. cbn [of_option obind] in H.
  destruct (z_free z <? number); [exact (IH _ _ H)|].
  destruct (scan_zone hw _ _ _ _ _ _) as [[pg|]| |]; cbn [obind] in H; [|exact (IH _ _ H)|discriminate|discriminate].
  destruct (init_pages r sh s _ _ flags) as [s1| |]; discriminate.
Qed.
Lemma alloc_none hw r sh u s sel number flags s' : alloc_pages hw r sh u s sel number flags = Ok (None, s') -> s' = s.
Proof.
  destruct sel; cbn [alloc_pages]; intros H; try (apply alloc_zones_none in H; exact H). congruence.
Qed.

(** Every zone that starts on a word boundary, and whose free count suffices: undefined at once. *)
Lemma alloc_aligned_ub r sh u s sel z number flags : sel = ZONE_DMA \/ sel = ZONE_NORMAL ->
  zones s !! 0%nat = Some z -> z_start z mod 64 = 0 -> z_start z < z_end z -> number <= z_free z ->
  alloc_pages false r sh u s sel number flags = UB.
Proof.
  intros Hsel Hz Hs He Hf.
  assert (E0 : alloc_pages false r sh u s sel number flags = alloc_zones false r sh s 0 1 number flags)
    by (destruct Hsel as [-> | ->]; reflexivity).
  rewrite E0. cbn [alloc_zones]. rewrite Hz. cbn [of_option obind].
  destruct (N.ltb_spec (z_free z) number) as [X|_]; [lia|].
  replace (N.to_nat (z_end z - z_start z) + 2)%nat with (S (S (N.to_nat (z_end z - z_start z)))) by lia.
  cbn [scan_zone]. destruct (N.ltb_spec (z_end z) (z_start z)) as [X|_]; [lia|]. rewrite Hs.
  change (N.to_nat (64 - 0) - N.to_nat 0)%nat with 64%nat. cbn [scan_word]. reflexivity.
Qed.

(** * Set-up of the zones *)
Lemma bit_toggle m p b : bit (toggle_bit m p) b = xorb (bit m b) (b =? p).
Proof.
  unfold bit, toggle_bit. destruct (N.eqb_spec (b / 64) (p / 64)) as [E|E].
  - rewrite N.lxor_spec, N.shiftl_1_l, N.pow2_bits_eqb. f_equal. apply eq_true_iff_eq. rewrite !N.eqb_eq. lia.
  - replace (b =? p) with false by lia. rewrite xorb_false_r. reflexivity.
Qed.
Lemma setup_pages_spec n zi : forall phy b ps x,
  bit (fst (setup_pages n zi phy b ps)) x = xorb (bit b x) ((phy <=? x) && (x <? phy + N.of_nat n)) /\
  snd (setup_pages n zi phy b ps) x =
    if (phy <=? x) && (x <? phy + N.of_nat n) then Some {| pg_attr := 0; pg_refs := 0; pg_phy := x; pg_zone := zi |} else ps x.
Proof.
  induction n as [|n IH]; intros phy b ps x; cbn [setup_pages].
  - replace ((phy <=? x) && (x <? phy + N.of_nat 0)) with false by lia. rewrite xorb_false_r. split; reflexivity.
  - destruct (IH (phy + 1) (toggle_bit b phy) (fun x => if x =? phy then Some {| pg_attr := 0; pg_refs := 0; pg_phy := phy; pg_zone := zi |} else ps x) x) as [I1 I2].
    rewrite I1, I2, bit_toggle. destruct (N.eqb_spec x phy) as [->|E].
    + replace ((phy + 1 <=? phy) && (phy <? phy + 1 + N.of_nat n)) with false by lia.
      replace ((phy <=? phy) && (phy <? phy + N.of_nat (S n))) with true by lia.
      rewrite xorb_false_r. split; reflexivity.
    + replace ((phy + 1 <=? x) && (x <? phy + 1 + N.of_nat n)) with ((phy <=? x) && (x <? phy + N.of_nat (S n))) by lia.
      rewrite xorb_false_r. split; reflexivity.
Qed.

Lemma inside_range e b : entry_sane e -> page_insideb e b = (e_type e =? 1) && ((entry_start e <=? b) && (b <? entry_end e)).
Proof.
  intros S. unfold entry_sane in S. unfold page_insideb, entry_start, entry_end, P2M. rewrite <-andb_assoc. f_equal.
  rewrite !W64_val. change (2 ^ 64) with 18446744073709551616 in S. rewrite !N.mod_small by lia. lia.
Qed.
Lemma insideb_spec e b : page_insideb e b = true <-> page_inside e b.
Proof. unfold page_insideb, page_inside. rewrite !andb_true_iff, N.eqb_eq, !N.leb_le. tauto. Qed.

Lemma setup_entry_spec s e b : entry_sane e ->
  bit (s_bits (setup_entry s e)) b = xorb (bit (s_bits s) b) (page_insideb e b) /\
  s_pages (setup_entry s e) b =
    (if page_insideb e b then Some {| pg_attr := 0; pg_refs := 0; pg_phy := b; pg_zone := length (s_zones s) |} else s_pages s b).
Proof.
  intros S. rewrite (inside_range e b S). unfold setup_entry.
  destruct (e_type e =? 1); cbn [negb andb]; [|rewrite xorb_false_r; split; reflexivity].
  destruct (N.leb_spec (entry_end e) (entry_start e)) as [L|L].
  - replace ((entry_start e <=? b) && (b <? entry_end e)) with false by lia. rewrite xorb_false_r. split; reflexivity.
  - pose proof (setup_pages_spec (N.to_nat (entry_end e - entry_start e)) (length (s_zones s)) (entry_start e) (s_bits s) (s_pages s) b) as [P1 P2].
    destruct (setup_pages (N.to_nat (entry_end e - entry_start e)) (length (s_zones s)) (entry_start e) (s_bits s) (s_pages s)) as [b' ps'].
    cbn [fst snd s_bits s_pages] in *. rewrite N2Nat.id in P1, P2.
    replace (entry_start e + (entry_end e - entry_start e)) with (entry_end e) in P1, P2 by lia. split; assumption.
Qed.
Definition zone_of (e : e820_entry) : option zone :=
  if negb (e_type e =? 1) then None
  else if entry_end e <=? entry_start e then None
  else Some {| z_start := entry_start e; z_end := entry_end e; z_using := 0; z_free := entry_end e - entry_start e; z_links := 0 |}.
Definition zone_list (e : e820_entry) : list zone := match zone_of e with Some z => [z] | None => [] end.
Lemma setup_entry_zones s e : s_zones (setup_entry s e) = s_zones s ++ zone_list e.
Proof.
  unfold setup_entry, zone_list, zone_of. destruct (e_type e =? 1); cbn [negb]; [|symmetry; apply app_nil_r].
  destruct (entry_end e <=? entry_start e); [symmetry; apply app_nil_r|].
  destruct (setup_pages _ _ _ _ _). reflexivity.
Qed.

Lemma fold_bits es : forall s b, Forall entry_sane es ->
  bit (s_bits (fold_left setup_entry es s)) b = xorb (bit (s_bits s) b) (Nat.odd (holders es b)).
Proof.
  induction es as [|e es IH]; intros s b H; cbn [fold_left].
  - rewrite xorb_false_r. reflexivity.
  - inversion_clear H as [|? ? H1 H2]. rewrite IH by exact H2. rewrite (proj1 (setup_entry_spec s e b H1)).
    unfold holders. rewrite filter_cons. destruct (decide (page_insideb e b = true)) as [E|E].
    + rewrite E. cbn [length]. rewrite Nat.odd_succ, <-Nat.negb_odd.
      destruct (bit (s_bits s) b), (Nat.odd (length (filter (fun e => page_insideb e b = true) es))); reflexivity.
    + apply not_true_is_false in E. rewrite E, xorb_false_r. reflexivity.
Qed.
Lemma setup_bitmap es b : Forall entry_sane es ->
  bit (s_bits (setup_zones es)) b = negb (Nat.odd (holders es b)).
Proof.
  intros H. unfold setup_zones. rewrite fold_bits by exact H. cbn [s_bits].
  assert (E : bit (fun _ => W64 - 1) b = true).
  { unfold bit. change (W64 - 1) with (N.ones 64). apply N.ones_spec_low. lia. }
  rewrite E. destruct (Nat.odd _); reflexivity.
Qed.

Lemma fold_zones es : forall s, s_zones (fold_left setup_entry es s) = s_zones s ++ flat_map zone_list es.
Proof.
  induction es as [|e es IH]; intros s; cbn [fold_left].
  - symmetry. apply app_nil_r.
  - rewrite IH, setup_entry_zones. rewrite <-app_assoc. reflexivity.
Qed.
Lemma zone_of_spec e z : entry_sane e -> zone_of e = Some z ->
  z_using z = 0 /\ z_links z = 0 /\ z_free z = z_end z - z_start z /\ z_start z < z_end z /\
  (forall b, z_start z <= b < z_end z <-> page_inside e b).
Proof.
  intros S H. unfold zone_of in H. destruct (e_type e =? 1) eqn:T; [|discriminate]. cbn [negb] in H.
  destruct (N.leb_spec (entry_end e) (entry_start e)) as [L|L]; [discriminate|]. injection H as <-.
  cbn [z_using z_links z_free z_start z_end]. split; [reflexivity|]. split; [reflexivity|]. split; [reflexivity|].
  split; [exact L|]. intros b. rewrite <-insideb_spec, (inside_range e b S), T. cbn [andb]. lia.
Qed.
Lemma zone_of_none e b : entry_sane e -> zone_of e = None -> ~ page_inside e b.
Proof.
  intros S H I. apply insideb_spec in I. rewrite inside_range in I by exact S. unfold zone_of in H.
  destruct (e_type e =? 1); [|discriminate]. cbn [negb andb] in *.
  destruct (N.leb_spec (entry_end e) (entry_start e)) as [L|L]; [lia|discriminate].
Qed.
(** The zones, in order, are the usable entries that hold a whole page. *)
Lemma setup_zone_list es : Forall entry_sane es ->
  exists es', sublist es' es /\ (forall e, e ∈ es -> (exists b, page_inside e b) -> e ∈ es') /\
  Forall2 (fun e z => z_using z = 0 /\ z_links z = 0 /\ z_free z = z_end z - z_start z /\ z_start z < z_end z /\
     (forall b, z_start z <= b < z_end z <-> page_inside e b)) es' (s_zones (setup_zones es)).
Proof.
  intros H. unfold setup_zones. rewrite fold_zones. cbn [s_zones]. rewrite app_nil_l.
  induction es as [|e es IH].
  - exists []. split; [constructor|]. split; [intros e He; inversion He|constructor].
  - inversion_clear H as [|? ? H1 H2]. destruct (IH H2) as (es' & S & C & F).
    change (flat_map zone_list (e :: es)) with (zone_list e ++ flat_map zone_list es). unfold zone_list at 1.
    destruct (zone_of e) as [z|] eqn:Z; cbn [app].
    + exists (e :: es'). split; [constructor; exact S|]. split.
      * intros e' He' Hb. apply elem_of_cons in He' as [->|He']; [apply elem_of_cons; left; reflexivity|].
        apply elem_of_cons. right. apply C; assumption.
      * constructor; [apply zone_of_spec; assumption|exact F].
    + exists es'. split; [constructor; exact S|]. split; [|exact F].
      intros e' He' Hb. apply elem_of_cons in He' as [->|He']; [|apply C; assumption].
      destruct Hb as [b Hb]. exfalso. exact (zone_of_none _ _ H1 Z Hb).
Qed.

Lemma fold_pages es : forall s b, Forall entry_sane es ->
  (forall b p, s_pages s b = Some p -> pg_attr p = 0 /\ pg_refs p = 0 /\ pg_phy p = b /\
     exists z, s_zones s !! pg_zone p = Some z /\ z_start z <= b < z_end z) ->
  (forall p, s_pages (fold_left setup_entry es s) b = Some p -> pg_attr p = 0 /\ pg_refs p = 0 /\ pg_phy p = b /\
     exists z, s_zones (fold_left setup_entry es s) !! pg_zone p = Some z /\ z_start z <= b < z_end z) /\
  (s_pages (fold_left setup_entry es s) b = None <-> s_pages s b = None /\ holders es b = 0%nat).
Proof.
  induction es as [|e es IH]; intros s b H P; cbn [fold_left].
  - split; [apply P|]. split; [intros E; split; [exact E|reflexivity]|tauto].
  - inversion_clear H as [|? ? H1 H2].
    destruct (IH (setup_entry s e) b H2) as [I1 I2].
    { intros b' p Hp. rewrite (proj2 (setup_entry_spec s e b' H1)) in Hp. rewrite setup_entry_zones. unfold zone_list.
      destruct (page_insideb e b') eqn:E.
      - injection Hp as <-. cbn [pg_attr pg_refs pg_phy pg_zone]. split; [reflexivity|]. split; [reflexivity|]. split; [reflexivity|].
        destruct (zone_of e) as [z|] eqn:Z.
        + exists z. split; [apply list_lookup_middle; reflexivity|]. apply (zone_of_spec e z H1 Z). apply insideb_spec. exact E.
        + exfalso. apply insideb_spec in E. exact (zone_of_none _ _ H1 Z E).
      - destruct (P b' p Hp) as (P1 & P2 & P3 & z & P4 & P5). split; [exact P1|]. split; [exact P2|]. split; [exact P3|].
        exists z. split; [|exact P5]. apply lookup_app_l_Some. exact P4. }
    split; [exact I1|]. rewrite I2. rewrite (proj2 (setup_entry_spec s e b H1)). unfold holders. rewrite filter_cons.
    destruct (decide (page_insideb e b = true)) as [E|E].
    + rewrite E. cbn [length]. split; [intros [? _]; discriminate|intros [_ ?]; discriminate].
    + apply not_true_is_false in E. rewrite E. reflexivity.
Qed.
Lemma setup_page_records es b : Forall entry_sane es ->
  (forall p, s_pages (setup_zones es) b = Some p -> pg_attr p = 0 /\ pg_refs p = 0 /\ pg_phy p = b /\
     exists z, s_zones (setup_zones es) !! pg_zone p = Some z /\ z_start z <= b < z_end z) /\
  (s_pages (setup_zones es) b = None <-> holders es b = 0%nat).
Proof.
  intros H. unfold setup_zones.
  destruct (fold_pages es {| s_bits := fun _ => W64 - 1; s_pages := fun _ => None; s_zones := [] |} b H) as [F1 F2].
  - intros b' p Hp. discriminate.
  - split; [exact F1|]. rewrite F2. cbn [s_pages]. tauto.
Qed.
