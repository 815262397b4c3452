(** Proofs about init_memory as a whole. *)
From stdpp Require Import list.
From Coq Require Import NArith Lia ZifyBool ZifyNat ZifyN.
From Verif Require Import Base E820Model E820Spec E820Proofs PageModel PageSpec PageProofs PageAllocProofs PagingModel PagingSpec
  PagingProofs SetupModel SetupSpec.
Local Open Scope N_scope.
Local Open Scope outcome_scope.
Local Ltac Zify.zify_post_hook ::= Z.div_mod_to_equations.

(** Reading *)
Lemma raw_of_lookup m es : forall a n, (length es <= n)%nat ->
  (forall i e, es !! i = Some e -> read_entry m (a + 20 * N.of_nat i) = e) ->
  raw_entries m a n = es ++ raw_entries m (a + 20 * N.of_nat (length es)) (n - length es).
Proof.
  induction es as [|e es IH]; intros a n Hn H.
  - cbn [length app]. replace (a + 20 * N.of_nat 0) with a by lia. rewrite Nat.sub_0_r. reflexivity.
  - destruct n as [|n]; [cbn [length] in Hn; lia|]. cbn [raw_entries app length].
    pose proof (H 0%nat e eq_refl) as H0. replace (a + 20 * N.of_nat 0) with a in H0 by lia. rewrite H0. f_equal.
    rewrite (IH (a + 20) n); [|cbn [length] in Hn; lia|].
    + f_equal. replace (S n - S (length es))%nat with (n - length es)%nat by lia. f_equal. lia.
    + intros i x Hx. rewrite <- (H (S i) x Hx). f_equal. lia.
Qed.
Lemma scan_map m es : map_at m es -> scan m e820_addr 32 0 = (es, usable_total es mod 2 ^ 64).
Proof.
  intros (Ho & Hp & Hl & Hr & He). rewrite scan_spec by lia. rewrite (raw_of_lookup m es _ 32) by (lia || assumption).
  rewrite prefix_while_app by (eapply Forall_impl; [exact Hp|]; intros e; apply accepts_plain).
  assert (E : prefix_while scan_accepts (raw_entries m (e820_addr + 20 * N.of_nat (length es)) (32 - length es)) = []).
  { destruct (32 - length es)%nat eqn:E; [lia|]. cbn [raw_entries prefix_while]. rewrite accepts_plain in He.
    destruct (scan_accepts _); [contradiction|reflexivity]. }
  rewrite E, app_nil_r. rewrite N.add_0_l. reflexivity.
Qed.
Lemma add_zero es n z : (length es <= n)%nat -> Forall entry_ok es -> e_addr z = 0 -> e_len z = 0 -> zip_with add_row (replicate n z) es = es.
Proof.
  intros Hn H Za Zl. revert n Hn. induction H as [|e es He _ IH]; intros n Hn; [destruct n; reflexivity|].
  destruct n as [|n]; [cbn [length] in Hn; lia|]. cbn [replicate zip_with]. f_equal; [|apply IH; cbn [length] in Hn; lia].
  destruct He as (H1 & H2 & H3). destruct e as [a l ty]. cbn [e_addr e_len e_type] in *. unfold add_row. cbn [e_addr e_len e_type].
  rewrite Za, Zl, !N.add_0_l. unfold W64. rewrite !N.mod_small by assumption. reflexivity.
Qed.
Lemma read_first m es : map_at m es -> es <> [] ->
  exists t, read_rows m zero_table = (t, usable_total es mod 2 ^ 64) /\ rows_used t = es /\
    t_rows t = es ++ replicate (32 - length es) {| e_addr := 0; e_len := 0; e_type := 0 |} /\ t_len t = (length es - 1)%nat.
Proof.
  intros H Hn. pose proof (scan_map m es H) as E. destruct H as (Ho & _ & Hl & _). unfold read_rows. rewrite E. cbv beta iota zeta.
  eexists. split; [reflexivity|]. unfold rows_used. cbn [t_rows t_len zero_table].
  rewrite add_zero by (lia || assumption || reflexivity). rewrite drop_replicate.
  destruct es as [|e es]; [contradiction|]. split; [|split; reflexivity].
  replace (S (length (e :: es) - 1))%nat with (length (e :: es)) by (cbn [length]; lia). apply take_app.
Qed.
Lemma read_again m es : map_at m es -> es <> [] ->
  rows_used (fst (read_rows m (fst (read_rows m zero_table)))) =
  map (fun e => {| e_addr := 2 * e_addr e mod 2 ^ 64; e_len := 2 * e_len e mod 2 ^ 64; e_type := e_type e |}) es.
Proof.
  intros H Hn. destruct (read_first m es H Hn) as (t & E & _ & Hr & Ht). rewrite E. cbn [fst].
  pose proof (scan_map m es H) as Es. unfold read_rows. rewrite Es. cbv beta iota zeta. cbn [fst]. unfold rows_used. cbn [t_rows t_len].
  rewrite Hr. clear - Hn.
  assert (Z : zip_with add_row (es ++ replicate (32 - length es) {| e_addr := 0; e_len := 0; e_type := 0 |}) es =
    map (fun e => {| e_addr := 2 * e_addr e mod 2 ^ 64; e_len := 2 * e_len e mod 2 ^ 64; e_type := e_type e |}) es).
  { generalize (replicate (32 - length es) {| e_addr := 0; e_len := 0; e_type := 0 |}). clear. intros l.
    induction es as [|e es IH]; [destruct l; reflexivity|]. cbn [app zip_with map]. rewrite IH. f_equal. unfold add_row, W64.
    f_equal; f_equal; lia. }
  rewrite Z. destruct es as [|e es]; [contradiction|].
  replace (S (length (e :: es) - 1))%nat with (length (map (fun e => {| e_addr := 2 * e_addr e mod 2 ^ 64; e_len := 2 * e_len e mod 2 ^ 64; e_type := e_type e |}) (e :: es)))
    by (rewrite map_length; cbn [length]; lia).
  apply take_app.
Qed.

(** Layout *)
Lemma land_high x k : k <= 64 -> x < 2 ^ 64 -> N.land x (N.shiftl (N.ones (64 - k)) k) = x / 2 ^ k * 2 ^ k.
Proof.
  intros Hk Hx. rewrite <- N.shiftr_div_pow2, <- N.shiftl_mul_pow2. apply N.bits_inj. intros i. rewrite N.land_spec.
  destruct (N.lt_ge_cases i k) as [H|H].
  - rewrite !N.shiftl_spec_low by exact H. apply andb_false_r.
  - rewrite !N.shiftl_spec_high' by exact H. rewrite N.shiftr_spec'. replace (i - k + k) with i by lia.
    destruct (N.lt_ge_cases i 64) as [L|L].
    + rewrite N.ones_spec_low by lia. apply andb_true_r.
    + rewrite (testbit_high x i Hx L). reflexivity.
Qed.
Lemma align4k_val x : x + 4095 < 2 ^ 64 -> align4k x = (x + 4095) / 4096 * 4096.
Proof.
  intros H. unfold align4k, W64. rewrite N.mod_small by exact H. change (2 ^ 64 - 4096) with (N.shiftl (N.ones (64 - 12)) 12).
  rewrite land_high by (lia || exact H). reflexivity.
Qed.
Lemma down8_val x : x < 2 ^ 64 -> down8 x = x / 8 * 8.
Proof.
  intros H. unfold down8, W64. change (2 ^ 64 - 8) with (N.shiftl (N.ones (64 - 3)) 3). rewrite land_high by (lia || exact H). reflexivity.
Qed.
Lemma lay_good szp szz brk total nz : brk + total / 2097152 / 8 + szp * (total / 2097152) + szz * nz + 3 * 4096 + 300 < 2 ^ 64 ->
  layout_good szp szz brk (total / 2097152) nz (lay szp szz brk total nz) /\ l_end (lay szp szz brk total nz) < 2 ^ 64.
Proof.
  unfold lay, layout_good. cbn [l_bits l_bits_len l_pages l_pages_len l_zones l_zones_len l_end]. unfold P2M.
  generalize (total / 2097152). clear total. intros n H. rewrite (N.mul_comm n szp), (N.mul_comm nz szz).
  assert (exists A, A = szp * n) as [A EA] by eauto. assert (exists B, B = szz * nz) as [B EB] by eauto. rewrite <- EA, <- EB in *.
  clear EA EB. change (2 ^ 64) with 18446744073709551616 in *.
  rewrite (align4k_val brk) by lia.
  assert (exists b, b = (brk + 4095) / 4096 * 4096) as [b Eb] by eauto. rewrite <- Eb.
  assert (Hb : brk <= b <= brk + 4095 /\ b mod 4096 = 0) by (subst b; split; [lia|apply N.mod_mul; lia]). clear Eb.
  assert (exists bl, bl = (n + 63) / 8) as [bl El] by eauto. rewrite <- El.
  assert (Hbl : 8 * ((n + 63) / 64) <= bl <= n / 8 + 8) by lia. clear El. unfold W64. change (2 ^ 64) with 18446744073709551616.
  rewrite (N.mod_small (b + bl)) by lia. rewrite (align4k_val (b + bl)) by (change (2 ^ 64) with 18446744073709551616; lia).
  assert (exists p, p = (b + bl + 4095) / 4096 * 4096) as [p Ep] by eauto. rewrite <- Ep.
  assert (Hp : b + bl <= p <= b + bl + 4095 /\ p mod 4096 = 0) by (subst p; split; [lia|apply N.mod_mul; lia]). clear Ep.
  rewrite (N.mod_small (A + 7)) by lia. rewrite (down8_val (A + 7)) by (change (2 ^ 64) with 18446744073709551616; lia).
  assert (exists a, a = (A + 7) / 8 * 8) as [a Ea] by eauto. rewrite <- Ea. assert (Ha : A <= a <= A + 7) by lia. clear Ea.
  rewrite (N.mod_small (p + a)) by lia. rewrite (align4k_val (p + a)) by (change (2 ^ 64) with 18446744073709551616; lia).
  assert (exists z, z = (p + a + 4095) / 4096 * 4096) as [z Ez] by eauto. rewrite <- Ez.
  assert (Hz : p + a <= z <= p + a + 4095 /\ z mod 4096 = 0) by (subst z; split; [lia|apply N.mod_mul; lia]). clear Ez.
  rewrite (N.mod_small (B + 7)) by lia. rewrite (down8_val (B + 7)) by (change (2 ^ 64) with 18446744073709551616; lia).
  assert (exists c, c = (B + 7) / 8 * 8) as [c Ec] by eauto. rewrite <- Ec. assert (Hc : B <= c <= B + 7) by lia. clear Ec.
  rewrite (N.mod_small (z + c + 256)) by lia. rewrite (down8_val (z + c + 256)) by (change (2 ^ 64) with 18446744073709551616; lia).
  assert (exists e, e = (z + c + 256) / 8 * 8) as [e Ee] by eauto. rewrite <- Ee. assert (He : z + c <= e <= z + c + 256) by lia. clear Ee.
  destruct Hb as [Hb1 Hb2], Hp as [Hp1 Hp2], Hz as [Hz1 Hz2]. repeat split; try assumption; lia.
Qed.
(** Every table access of the set-up loop stays in its own table. *)
Lemma accesses_inside szp szz brk nz es l b : layout_good szp szz brk (usable_total es / 2097152) nz l -> no_holes es -> usable es b ->
  l_bits l + 8 * (b / 64) + 8 <= l_pages l /\ l_pages l + szp * (b + 1) <= l_zones l.
Proof.
  intros (H1 & H2 & H3 & H4 & H5 & H6 & H7 & H8) Hn Hu. specialize (Hn b Hu). split; [lia|].
  assert (szp * (b + 1) <= szp * (usable_total es / 2097152)) by (apply N.mul_le_mono_l; lia). lia.
Qed.

(** Mapped *)
Lemma boot_linear other va : HIGH <= va -> va < HIGH + 0xa00000 ->
  boot_walk other va = Some {| phys := va - HIGH; writable := true; user := false |}.
Proof.
  intros H1 H2. pose proof (proj2 (low_memory other (va - HIGH) ltac:(lia))) as H.
  unfold HIGH in *. replace (0xffff800000000000 + (va - 0xffff800000000000)) with va in H by lia. exact H.
Qed.
Lemma mapped_iff other brk e : HIGH <= brk <= HIGH + 0xa00000 -> e < 2 ^ 64 ->
  ((forall va, brk <= va < e -> boot_walk other va = Some {| phys := va - HIGH; writable := true; user := false |}) <-> e <= HIGH + 0xa00000).
Proof.
  intros Hb He. split.
  - intros H. destruct (N.le_gt_cases e (HIGH + 0xa00000)) as [L|L]; [exact L|]. exfalso.
    specialize (H (HIGH + 0xa00000) ltac:(lia)).
    pose proof (frame_buffer other 0 ltac:(lia)) as F. change (0xffff800000a00000 + 0) with (HIGH + 0xa00000) in F. rewrite H in F. discriminate F.
  - intros L va Hva. apply boot_linear; lia.
Qed.

(** Marking *)
Definition same_ranges (zs zs' : list zone) : Prop := map (fun z => (z_start z, z_end z)) zs = map (fun z => (z_start z, z_end z)) zs'.
Lemma ranges_len zs zs' : same_ranges zs zs' -> length zs = length zs'.
Proof. intros H. apply (f_equal length) in H. rewrite !map_length in H. exact H. Qed.
Lemma ranges_put zs i z f r : zs !! i = Some z -> same_ranges (<[i := put_zone z f r]> zs) zs.
Proof.
  intros H. unfold same_ranges. apply list_eq. intros k. 
  change (map (fun z => (z_start z, z_end z))) with (fmap (M := list) (fun z => (z_start z, z_end z))). rewrite !list_lookup_fmap.
  destruct (decide (k = i)) as [->|Hk].
  - rewrite list_lookup_insert by (eapply lookup_lt_Some; exact H). rewrite H. reflexivity.
  - rewrite list_lookup_insert_ne by congruence. reflexivity.
Qed.
Lemma mark_fresh r sh flags j s p z : s_pages s j = Some p -> pg_attr p = 0 -> pg_phy p = j -> s_zones s !! pg_zone p = Some z ->
  exists s', mark_page r sh flags j s = Ok s' /\ (forall b, bit (s_bits s') b = bit (s_bits s) b || (b =? j)) /\
    s_pages s' j = Some {| pg_attr := flags; pg_refs := inc (pg_refs p); pg_phy := j; pg_zone := pg_zone p |} /\
    (forall x, x <> j -> s_pages s' x = s_pages s x) /\ same_ranges (s_zones s') (s_zones s).
Proof.
  intros Hp Ha Hph Hz. unfold mark_page. rewrite Hp. cbn [of_option obind]. rewrite Hz. cbn [of_option obind].
  eexists. split; [reflexivity|]. cbn [s_bits s_pages s_zones]. rewrite Ha. cbn [N.eqb negb andb orb]. split; [|split; [|split]].
  - intros b. rewrite Hph. apply bit_set.
  - rewrite N.eqb_refl, Hph. reflexivity.
  - intros x Hx. destruct (N.eqb_spec x j); [contradiction|reflexivity].
  - eapply ranges_put, Hz.
Qed.
Lemma mark_missing r sh flags j s : s_pages s j = None -> mark_page r sh flags j s = UB.
Proof. intros H. unfold mark_page. rewrite H. reflexivity. Qed.
Lemma mark_run r sh flags n : forall j s,
  (forall x, j <= x < j + N.of_nat n -> exists p, s_pages s x = Some p /\ pg_attr p = 0 /\ pg_phy p = x /\ (pg_zone p < length (s_zones s))%nat) ->
  exists s', mark_pages r sh flags n j s = Ok s' /\
    (forall b, bit (s_bits s') b = bit (s_bits s) b || ((j <=? b) && (b <? j + N.of_nat n))) /\
    (forall x, j <= x < j + N.of_nat n -> exists p, s_pages s' x = Some p /\ pg_attr p = flags /\ pg_phy p = x) /\
    (forall x, ~ j <= x < j + N.of_nat n -> s_pages s' x = s_pages s x) /\ same_ranges (s_zones s') (s_zones s).
Proof.
  induction n as [|n IH]; intros j s H.
  - exists s. split; [reflexivity|]. split; [|split; [|split]].
    + intros b. replace ((j <=? b) && (b <? j + N.of_nat 0)) with false by lia. rewrite orb_false_r. reflexivity.
    + intros x Hx. lia.
    + intros x _. reflexivity.
    + reflexivity.
  - destruct (H j ltac:(lia)) as (p & Hp & Ha & Hph & Hz). destruct (lookup_lt_is_Some_2 _ _ Hz) as [z Ez].
    destruct (mark_fresh r sh flags j s p z Hp Ha Hph Ez) as (s1 & E1 & B1 & P1 & O1 & R1).
    destruct (IH (j + 1) s1) as (s2 & E2 & B2 & P2 & O2 & R2).
    { intros x Hx. destruct (H x ltac:(lia)) as (q & Q1 & Q2 & Q3 & Q4). exists q. rewrite O1 by lia. rewrite (ranges_len _ _ R1). auto. }
    exists s2. cbn [mark_pages]. rewrite E1. cbn [obind]. split; [exact E2|]. split; [|split; [|split]].
    + intros b. rewrite B2, B1. rewrite <- orb_assoc. f_equal. lia.
    + intros x Hx. destruct (N.eq_dec x j) as [->|Hne].
      * rewrite (O2 j) by lia. eexists. split; [exact P1|]. split; reflexivity.
      * apply P2. lia.
    + intros x Hx. rewrite O2 by lia. apply O1. lia.
    + unfold same_ranges in *. congruence.
Qed.
Lemma mark_run_ub r sh flags n : forall j s x, j <= x < j + N.of_nat n -> s_pages s x = None -> mark_pages r sh flags n j s = UB.
Proof.
  induction n as [|n IH]; intros j s x Hx Hn; [lia|]. cbn [mark_pages]. destruct (N.eq_dec x j) as [->|Hne].
  - rewrite mark_missing by exact Hn. reflexivity.
  - destruct (mark_page r sh flags j s) as [s1| |] eqn:E; cbn [obind]; try reflexivity.
    + apply (IH (j + 1) s1 x); [lia|]. unfold mark_page in E. destruct (s_pages s j); [|discriminate]. cbn [of_option obind] in E.
      destruct (s_zones s !! pg_zone p); [|discriminate]. cbn [of_option obind] in E. injection E as <-. cbn [s_pages].
      destruct (N.eqb_spec x j); [contradiction|exact Hn].
    + unfold mark_page in E. destruct (s_pages s j); [|discriminate]. cbn [of_option obind] in E. destruct (s_zones s !! pg_zone p); discriminate.
Qed.

Lemma holders_usable es b : holders es b = 0%nat <-> ~ usable es b.
Proof.
  unfold holders, usable. split.
  - intros H (e & He & Hi). apply nil_length_inv in H. apply insideb_spec in Hi.
    assert (e ∈ filter (fun e => page_insideb e b = true) es) as X by (apply elem_of_list_filter; auto). rewrite H in X. inversion X.
  - intros H. destruct (filter _ es) as [|e l] eqn:E; [reflexivity|]. exfalso. apply H. exists e.
    assert (e ∈ filter (fun e => page_insideb e b = true) es) as X by (rewrite E; left).
    apply elem_of_list_filter in X as [X1 X2]. split; [exact X2|]. apply insideb_spec, X1.
Qed.
Lemma zones_iff es : Forall entry_sane es -> (s_zones (setup_zones es) <> [] <-> exists b, usable es b).
Proof.
  intros H. destruct (setup_zone_list es H) as (es' & Hs & Hin & F). split.
  - intros Hz. destruct (s_zones (setup_zones es)) as [|z zs]; [contradiction|]. inversion F as [|e ? l ? Fe]; subst.
    destruct Fe as (_ & _ & _ & L & I). exists (z_start z), e. split; [eapply elem_of_submseteq; [left|apply sublist_submseteq, Hs]|apply I; lia].
  - intros (b & e & He & Hi) Hz. rewrite Hz in F. inversion F; subst. specialize (Hin e He (ex_intro _ b Hi)). inversion Hin.
Qed.

Lemma marking es r sh flags last : Forall entry_sane es ->
  ((exists b, usable es b) /\ (forall j, 1 <= j <= last -> usable es j) ->
   exists s', mark_pages r sh flags (S (N.to_nat last)) 0 (with_page0 (setup_zones es)) = Ok s' /\
    (forall b, bit (s_bits s') b = bit (s_bits (setup_zones es)) b || (b <=? last)) /\
    (forall j, j <= last -> exists p, s_pages s' j = Some p /\ pg_attr p = flags /\ pg_phy p = j) /\
    (forall j, last < j -> s_pages s' j = s_pages (setup_zones es) j) /\ same_ranges (s_zones s') (s_zones (setup_zones es))) /\
  (~ ((exists b, usable es b) /\ (forall j, 1 <= j <= last -> usable es j)) ->
   mark_pages r sh flags (S (N.to_nat last)) 0 (with_page0 (setup_zones es)) = UB).
Proof.
  intros Hs. split.
  - intros [Hz Hu]. apply (zones_iff es Hs) in Hz.
    destruct (mark_run r sh flags (S (N.to_nat last)) 0 (with_page0 (setup_zones es))) as (s' & E & B & P & O & R).
    { intros x Hx. cbn [with_page0 s_pages s_zones]. destruct (N.eqb_spec x 0) as [->|Hne].
      - exists page0. split; [reflexivity|]. split; [reflexivity|]. split; [reflexivity|]. cbn [page0 pg_zone].
        destruct (s_zones (setup_zones es)); [contradiction|cbn [length]; lia].
      - destruct (setup_page_records es x Hs) as [H1 H2]. destruct (s_pages (setup_zones es) x) as [p|] eqn:Ep.
        + destruct (H1 p eq_refl) as (A & _ & C & z & Z & _). exists p. split; [reflexivity|]. split; [exact A|]. split; [exact C|].
          eapply lookup_lt_Some, Z.
        + exfalso. apply (proj1 (holders_usable es x)); [apply H2; reflexivity|]. apply Hu. lia. }
    exists s'. split; [exact E|]. split; [|split; [|split]].
    + intros b. rewrite B. cbn [with_page0 s_bits]. f_equal. lia.
    + intros j Hj. apply P. lia.
    + intros j Hj. rewrite O by lia. cbn [with_page0 s_pages]. destruct (N.eqb_spec j 0); [lia|reflexivity].
    + exact R.
  - intros Hn. destruct (s_zones (setup_zones es)) as [|z zs] eqn:Ez.
    + cbn [mark_pages]. unfold mark_page at 1. change (s_pages (with_page0 (setup_zones es)) 0) with (Some page0). cbn [of_option obind].
      change (s_zones (with_page0 (setup_zones es))) with (s_zones (setup_zones es)). rewrite Ez. reflexivity.
    + assert (Hz : exists b, usable es b) by (apply (zones_iff es Hs); rewrite Ez; discriminate).
      assert (exists j, 1 <= j <= last /\ s_pages (setup_zones es) j = None) as (j & Hj & Hp).
      { destruct (decide (Exists (fun j => ~ is_Some (s_pages (setup_zones es) (N.of_nat j))) (seq 1 (N.to_nat last)))) as [X|X].
        - apply Exists_exists in X as (j & Hj & X). apply elem_of_list_In, in_seq in Hj. exists (N.of_nat j). split; [lia|apply eq_None_not_Some, X].
        - exfalso. apply Hn. split; [exact Hz|]. intros j Hj. apply (not_Exists_Forall _) in X. rewrite Forall_forall in X.
          destruct (Nat.eq_dec (holders es j) 0%nat) as [E0|E0].
          + exfalso. apply (X (N.to_nat j)); [apply elem_of_list_In, in_seq; lia|]. rewrite N2Nat.id. apply eq_None_not_Some, (setup_page_records es j Hs), E0.
          + unfold holders in E0. destruct (filter (fun e => page_insideb e j = true) es) as [|e l] eqn:Ef; [contradiction|].
            assert (e ∈ filter (fun e => page_insideb e j = true) es) as Xe by (rewrite Ef; left).
            apply elem_of_list_filter in Xe as [X1 X2]. exists e. split; [exact X2|]. apply insideb_spec, X1. }
      apply (mark_run_ub _ _ _ _ _ _ j); [lia|]. cbn [with_page0 s_pages]. destruct (N.eqb_spec j 0); [lia|exact Hp].
Qed.

(** Address space *)
Definition cut (n : N) (m : N -> N) (a : N) : N := if existsb (fun i => a =? cr3 + 8 * N.of_nat i) (seq 0 (N.to_nat n)) then 0 else m a.
Lemma cut_at n m i : i < n -> cut n m (cr3 + 8 * i) = 0.
Proof.
  intros H. unfold cut. replace (existsb _ _) with true; [reflexivity|]. symmetry. apply existsb_exists. exists (N.to_nat i).
  split; [apply in_seq; lia|]. rewrite N2Nat.id. apply N.eqb_refl.
Qed.
Lemma cut_off n m a : a < cr3 \/ cr3 + 8 * n <= a -> cut n m a = m a.
Proof.
  intros H. unfold cut. destruct (existsb _ _) eqn:E; [|reflexivity]. apply existsb_exists in E as (i & Hi & E). apply in_seq in Hi. lia.
Qed.
Lemma p39 : 2 ^ 39 = 549755813888. Proof. reflexivity. Qed.
Lemma p47 : 2 ^ 47 = 140737488355328. Proof. reflexivity. Qed.
Lemma p63 : 2 ^ 63 = 9223372036854775808. Proof. reflexivity. Qed.
Lemma p64 : 2 ^ 64 = 18446744073709551616. Proof. reflexivity. Qed.
Lemma low_index n va : va < 2 ^ 64 -> canonical va = true -> index va 39 < n -> n <= 10 -> (1 <=? n) && (va <? 2 ^ 63) = true.
Proof. rewrite index_div. unfold canonical. rewrite p39, p47, p63, p64. intros Hva C L Hn. lia. Qed.
Lemma high_index n va : va < 2 ^ 64 -> canonical va = true -> index va 39 = 256 -> (1 <=? n) && (va <? 2 ^ 63) = false.
Proof. rewrite index_div. unfold canonical. rewrite p39, p47, p63, p64. intros Hva C L. lia. Qed.
Lemma walk_same m m' va e3 e2 : m (cr3 + 8 * index va 39) = 0x102007 -> m' (cr3 + 8 * index va 39) = 0x102007 ->
  m (0x102000 + 8 * index va 30) = e3 -> m' (0x102000 + 8 * index va 30) = e3 -> e3 = 0x103003 \/ e3 = 0 ->
  m (0x103000 + 8 * index va 21) = e2 -> m' (0x103000 + 8 * index va 21) = e2 -> present e2 = false \/ N.testbit e2 7 = true ->
  walk m va = walk m' va.
Proof.
  intros A A' B B' He3 D D' He2. unfold walk. rewrite A, A', present_4, frame_4, B, B'. destruct (canonical va); [|reflexivity]. cbn [negb].
  destruct He3 as [-> | ->]; [|rewrite present_0; reflexivity]. rewrite present_3, large_3, frame_3, D, D'. cbn [negb].
  destruct (present e2); [|reflexivity]. destruct He2 as [He2|He2]; [discriminate|]. rewrite He2. reflexivity.
Qed.
Lemma pde_cases i : present (PDE i) = false \/ N.testbit (PDE i) 7 = true.
Proof.
  destruct (N.lt_ge_cases i 13) as [L13|L13].
  - right. exact (proj1 (proj2 (proj2 PDE_ok _ L13))).
  - left. rewrite (proj1 PDE_ok _ L13). reflexivity.
Qed.
Lemma cut_walk n other va : n <= 10 -> va < 2 ^ 64 ->
  walk (cut n (table_mem PDE other)) va = if (1 <=? n) && (va <? 2 ^ 63) then None else boot_walk other va.
Proof.
  intros Hn Hva. destruct (canonical va) eqn:C.
  2: { unfold boot_walk. rewrite !walk_nc by exact C. destruct (_ && _); reflexivity. }
  destruct (N.lt_ge_cases (index va 39) n) as [L|L].
  - rewrite (low_index n va Hva C L Hn). exact (walk_np4 _ va 0 (cut_at _ _ _ L) present_0).
  - pose proof (mem4 PDE other va) as M4.
    assert (E4 : cut n (table_mem PDE other) (cr3 + 8 * index va 39) = PML4 (index va 39)).
    { rewrite cut_off by lia. exact M4. }
    destruct (N.eq_dec (PML4 (index va 39)) 0) as [Z|Z].
    + rewrite Z in E4, M4. unfold boot_walk. rewrite (walk_np4 _ va _ E4 present_0), (walk_np4 _ va _ M4 present_0). destruct (_ && _); reflexivity.
    + assert (Z' : PML4 (index va 39) = 0x102007 /\ (index va 39 = 0 \/ index va 39 = 256)).
      { unfold PML4 in *. destruct ((index va 39 =? 0) || (index va 39 =? 256)) eqn:E; [split; [reflexivity|lia]|contradiction]. }
      destruct Z' as [Z1 Z2].
      assert (F : (1 <=? n) && (va <? 2 ^ 63) = false).
      { destruct Z2 as [Z2|Z2]; [|apply high_index; assumption]. replace (1 <=? n) with false by lia. reflexivity. }
      rewrite F. rewrite Z1 in M4, E4. pose proof (index_lt va 30) as I3. pose proof (index_lt va 21) as I2.
      unfold boot_walk. apply (walk_same _ _ va (PDPTE (index va 30)) (PDE (index va 21)) E4 M4).
      * rewrite cut_off by (unfold cr3; lia). apply read3, I3.
      * apply read3, I3.
      * unfold PDPTE. destruct (index va 30 =? 0); [left|right]; reflexivity.
      * rewrite cut_off by (unfold cr3; lia). apply read2, I2.
      * apply read2, I2.
      * apply pde_cases.
Qed.
Lemma drop_run other n : forall i m, i + N.of_nat n <= 10 -> (forall a, m a = cut i (table_mem PDE other) a) ->
  exists m', drop_low n i m = Ok m' /\ forall a, m' a = cut (i + N.of_nat n) (table_mem PDE other) a.
Proof.
  induction n as [|n IH]; intros i m Hi Hm.
  - exists m. split; [reflexivity|]. intros a. rewrite N.add_0_r. apply Hm.
  - cbn [drop_low]. unfold write_va.
    assert (W : walk m (HIGH + cr3 + 8 * i) = Some {| phys := cr3 + 8 * i; writable := true; user := false |}).
    { transitivity (walk (cut i (table_mem PDE other)) (HIGH + cr3 + 8 * i)).
      - unfold walk. rewrite !Hm. reflexivity.
      - rewrite cut_walk by (unfold HIGH, cr3; lia). replace (HIGH + cr3 + 8 * i <? 2 ^ 63) with false by (unfold HIGH, cr3; lia). rewrite andb_false_r.
        rewrite boot_linear by (unfold HIGH, cr3; lia). f_equal. f_equal. lia. }
    rewrite W. cbn [writable phys]. cbn [obind].
    replace (i + N.of_nat (S n)) with (i + 1 + N.of_nat n) by lia. apply IH; [lia|]. intros a. rewrite Hm.
    unfold cut. replace (N.to_nat (i + 1)) with (N.to_nat i + 1)%nat by lia. rewrite seq_app, existsb_app. cbn [seq existsb plus]. rewrite N2Nat.id, orb_false_r.
    destruct (a =? cr3 + 8 * i); [rewrite orb_true_r|rewrite orb_false_r]; reflexivity.
Qed.
Lemma walk_ext m m' va : (forall a, m a = m' a) -> walk m va = walk m' va.
Proof. intros H. unfold walk. rewrite !H. reflexivity. Qed.
Lemma drop_low_spec other n : (n <= 10)%nat ->
  exists m, drop_low n 0 (table_mem PDE other) = Ok m /\
    forall va, va < 2 ^ 64 -> walk m va = if (1 <=? N.of_nat n) && (va <? 2 ^ 63) then None else boot_walk other va.
Proof.
  intros Hn. destruct (drop_run other n 0 (table_mem PDE other)) as (m & E & H); [lia|reflexivity|].
  exists m. split; [exact E|]. intros va Hva. rewrite N.add_0_l in H. rewrite (walk_ext _ _ va H). apply cut_walk; [lia|exact Hva].
Qed.

(** All of it *)
Lemma last_val l : HIGH <= l_end l < 2 ^ 64 -> last_page l = (l_end l - HIGH) / 2097152.
Proof.
  intros H. unfold last_page, P2M, W64, HIGH in *. f_equal. change (2 ^ 64) with 18446744073709551616 in *.
  replace (l_end l + (18446744073709551616 - 0xffff800000000000)) with (l_end l - 0xffff800000000000 + 1 * 18446744073709551616) by lia.
  rewrite N.mod_add by lia. apply N.mod_small. lia.
Qed.
Lemma whole szp szz r sh flags brk m es other :
  map_at m es -> es <> [] -> Forall entry_sane es -> usable_total es < 2 ^ 64 -> HIGH <= brk ->
  let npages := usable_total es / 2097152 in
  let nz := N.of_nat (length (s_zones (setup_zones es))) in
  brk + npages / 8 + szp * npages + szz * nz + 3 * 4096 + 300 < 2 ^ 64 ->
  let l := lay szp szz brk (usable_total es) nz in
  let last := (l_end l - HIGH) / 2097152 in
  layout_good szp szz brk npages nz l /\
  ((exists b, usable es b) /\ (forall j, 1 <= j <= last -> usable es j) ->
   exists res, init_memory_all szp szz r sh flags brk m zero_table (table_mem PDE other) = Ok res /\
     rows_used (r_table res) = es /\ r_layout res = l /\
     (forall b, bit (s_bits (r_setup res)) b = bit (s_bits (setup_zones es)) b || (b <=? last)) /\
     (forall a, HIGH + a < l_end l -> bit (s_bits (r_setup res)) (a / 2097152) = true) /\
     (forall j, j <= last -> exists p, s_pages (r_setup res) j = Some p /\ pg_attr p = flags /\ pg_phy p = j) /\
     (forall j, last < j -> s_pages (r_setup res) j = s_pages (setup_zones es) j) /\
     (forall va, va < 2 ^ 64 -> walk (r_words res) va = if va <? 2 ^ 63 then None else boot_walk other va)) /\
  (~ ((exists b, usable es b) /\ (forall j, 1 <= j <= last -> usable es j)) ->
   init_memory_all szp szz r sh flags brk m zero_table (table_mem PDE other) = UB).
Proof.
  intros Hm Hne Hs Ht Hb npages nz Hw l last. destruct (lay_good szp szz brk (usable_total es) nz Hw) as [Hg He]. fold l in Hg, He. fold npages in Hg.
  assert (Hl : last_page l = last). { apply last_val. split; [|exact He]. destruct Hg as (G1 & G2 & G3 & G4 & G5 & G6 & G7 & G8). lia. }
  split; [exact Hg|]. unfold init_memory_all. destruct (read_first m es Hm Hne) as (t & Et & Er & _). rewrite Et, Er.
  rewrite (N.mod_small _ _ Ht). cbv zeta. fold nz. fold l. rewrite Hl.
  destruct (marking es r sh flags last Hs) as [M1 M2]. split.
  - intros Hu. destruct (M1 Hu) as (s' & Es & B & P & O & R). rewrite Es. cbn [obind].
    destruct (drop_low_spec other 10 ltac:(lia)) as (w & Ew & W). rewrite Ew. cbn [obind].
    eexists. split; [reflexivity|]. cbn [r_table r_layout r_setup r_words]. split; [exact Er|]. split; [reflexivity|]. split; [exact B|].
    split; [|split; [exact P|split; [exact O|exact W]]].
    intros a Ha. rewrite B. replace (a / 2097152 <=? last) with true; [apply orb_true_r|]. subst last.
    assert (a / 2097152 <= (l_end l - HIGH) / 2097152) by (apply N.div_le_mono; lia). lia.
  - intros Hu. rewrite (M2 Hu). reflexivity.
Qed.
