(** alloc_pages: the answer in every case. *)
From stdpp Require Import list.
From Coq Require Import NArith Lia ZifyBool ZifyNat ZifyN.
From Verif Require Import Base PageModel PageSpec PageProofs PageAllocProofs PageExactSpec.
Local Open Scope N_scope.
Ltac Zify.zify_post_hook ::= Z.div_mod_to_equations.

Lemma search_ext hw m n P Q v : (forall q, P q <-> Q q) -> search hw m n P v -> search hw m n Q v.
Proof.
  intros H S. inversion S as [q A B C D|A B|q A B C D]; subst.
  - apply search_found; [by apply H|done|intros q' X; apply C; by apply H|destruct D as [->|D]; [by left|right; intros q' X; apply D; by apply H]].
  - apply search_nothing; [intros q X; apply A; by apply H|destruct B as [->|D]; [by left|right; intros q' X; apply D; by apply H]].
  - apply (search_undefined _ _ _ _ q); [done|by apply H|done|intros q' X; apply D; by apply H].
Qed.

(** First P1, then P2 *)
Lemma search_app_l hw m n (P1 P2 : N -> Prop) v : (forall a b, P1 a -> P2 b -> a < b) -> v <> Nothing ->
  search hw m n P1 v -> search hw m n (fun q => P1 q \/ P2 q) v.
Proof.
  intros O NV S. inversion S as [q A B C D|A B|q A B C D]; subst; [| |].
  - apply search_found; [by left|done| |].
    + intros q' [X|X] L; [by apply C|]. specialize (O _ _ A X). lia.
    + destruct D as [->|D]; [by left|right]. intros q' [X|X] L; [by apply D|]. specialize (O _ _ A X). lia.
  - done.
  - apply (search_undefined _ _ _ _ q); [done|by left|done|]. intros q' [X|X] L; [by apply D|]. specialize (O _ _ B X). lia.
Qed.
Lemma search_app_r hw m n (P1 P2 : N -> Prop) v : (forall a b, P1 a -> P2 b -> a < b) ->
  search hw m n P1 Nothing -> search hw m n P2 v -> search hw m n (fun q => P1 q \/ P2 q) v.
Proof.
  intros O S1 S. inversion S1 as [|A1 B1|]; subst. inversion S as [q A B C D|A B|q A B C D]; subst.
  - apply search_found; [by right|done| |].
    + intros q' [X|X] L; [by apply A1|by apply C].
    + destruct D as [->|D]; [by left|]. destruct B1 as [->|B1]; [by left|right]. intros q' [X|X] L; [by apply B1|by apply D].
  - apply search_nothing; [intros q [X|X]; [by apply A1|by apply A]|].
    destruct B as [->|D]; [by left|]. destruct B1 as [->|B1]; [by left|right]. intros q' [X|X]; [by apply B1|by apply D].
  - apply (search_undefined _ _ _ _ q); [done|by right|done|]. intros q' [X|X] L; [by apply A1|by apply D].
Qed.
Lemma search_det hw m n P v v' : search hw m n P v -> search hw m n P v' -> v = v'.
Proof.
  intros S S'. inversion S as [q A B C D|A B|q A B C D]; inversion S' as [q' A' B' C' D'|A' B'|q' A' B' C' D']; subst; try done.
  - destruct (N.lt_total q q') as [L|[->|L]]; [|done|]; exfalso; [exact (C' q A L B)|exact (C q' A' L B')].
  - exfalso. exact (A' q A B).
  - exfalso. destruct D as [?|D]; [done|]. destruct (N.le_gt_cases q' q) as [L|L]; [exact (D q' B' L C')|exact (D' q A L B)].
  - exfalso. exact (A q' A' B').
  - exfalso. destruct B as [?|B]; [done|]. exact (B q' B' C').
  - exfalso. destruct D' as [?|D']; [done|]. destruct (N.le_gt_cases q q') as [L|L]; [exact (D' q B L C)|exact (D q' A' L B')].
  - exfalso. destruct B' as [?|B']; [done|]. exact (B' q B C).
Qed.
Lemma search_empty hw m n (P : N -> Prop) : (forall q, ~ P q) -> search hw m n P Nothing.
Proof. intros H. apply search_nothing; [intros q X; by destruct (H q)|right; intros q X; by destruct (H q)]. Qed.

(** *** One test *)
Lemma shl64_64 x : x < 2 ^ 64 -> shl64 true x 64 = Ok x.
Proof. intros H. unfold shl64. cbn [N.ltb N.compare Pos.compare Pos.compare_cont]. change (64 mod 64) with 0. rewrite N.shiftl_0_r. change W64 with (2 ^ 64). by rewrite N.mod_small. Qed.

Lemma run_free_0 m w n : 1 <= n <= 64 -> m w < 2 ^ 64 -> m (w + 1) < 2 ^ 64 ->
  exists f, run_free true m w 0 n = Ok f /\ (f = true <-> taken_free m (64 * w) n).
Proof.
  intros Hn Hw Hw1. unfold run_free. change (64 - 0) with 64. rewrite shl64_64 by exact Hw1. cbn [obind].
  rewrite mask_ok by exact Hn. cbn [obind]. eexists. split; [reflexivity|]. rewrite land_ones_zero.
  rewrite N.shiftr_0_r. unfold taken_free, clear, bit.
  assert (E1 : forall i, i < n -> (64 * w + i) / 64 = w /\ (64 * w + i) mod 64 = i) by (intros; lia).
  assert (E2 : forall i, i < n -> (64 * w + 64 + i) / 64 = w + 1 /\ (64 * w + 64 + i) mod 64 = i) by (intros; lia).
  split.
  - intros H. split.
    + intros i Hi. destruct (E1 i Hi) as [-> ->]. specialize (H i Hi). rewrite N.lor_spec in H. apply orb_false_iff in H. tauto.
    + intros _ i Hi. destruct (E2 i Hi) as [-> ->]. specialize (H i Hi). rewrite N.lor_spec in H. apply orb_false_iff in H. tauto.
  - intros [A B] i Hi. rewrite N.lor_spec. specialize (A i Hi). destruct (E1 i Hi) as [X Y]. rewrite X, Y in A.
    assert (Z : 64 * w mod 64 = 0) by lia. specialize (B Z i Hi). destruct (E2 i Hi) as [X' Y']. rewrite X', Y' in B.
    by rewrite A, B.
Qed.
Lemma run_free_any hw m w k n : k <= 63 -> (k = 0 -> hw = true) -> 1 <= n <= 64 -> (forall w, m w < 2 ^ 64) ->
  exists f, run_free hw m w k n = Ok f /\ (f = true <-> taken_free m (64 * w + k) n).
Proof.
  intros Hk H0 Hn Hm. destruct (N.eq_dec k 0) as [->|K].
  - rewrite (H0 eq_refl). rewrite N.add_0_r. by apply run_free_0.
  - destruct (run_free_spec hw m w k n) as (f & E & S); [lia|done|done|]. exists f. split; [exact E|]. rewrite S.
    unfold taken_free. split; [intros H; split; [exact H|lia]|by intros [H _]].
Qed.

(** *** One word *)
Definition in_word (w k n : N) (q : N) : Prop := 64 * w + k <= q < 64 * w + k + n.
Lemma scan_word_exact hw m w number : 1 <= number <= 64 -> (forall w, m w < 2 ^ 64) -> forall n k, k + N.of_nat n <= 64 ->
  exists v, search hw m number (in_word w k (N.of_nat n)) v /\
    scan_word hw m w number n k = match v with Found q => Ok (Some (q - 64 * w)) | Nothing => Ok None | Undefined => UB end /\
    match v with Found q => in_word w k (N.of_nat n) q | _ => True end.
Proof.
  intros Hn Hm. induction n as [|n IH]; intros k Hk.
  - exists Nothing. split; [apply search_empty; unfold in_word; lia|done].
  - cbn [scan_word]. destruct (decide (k = 0 /\ hw = false)) as [[-> ->]|C].
    { exists Undefined. split; [|done]. apply (search_undefined _ _ _ _ (64 * w)); [done|unfold in_word; lia|lia|unfold in_word; lia]. }
    destruct (run_free_any hw m w k number) as (f & E & S); [lia|intros ->; destruct hw; [done|destruct C; done]|done|done|].
    rewrite E. cbn [obind]. destruct f.
    + exists (Found (64 * w + k)). split; [|split; [do 2 f_equal; lia|unfold in_word; lia]].
      apply search_found; [unfold in_word; lia|by apply S|unfold in_word; lia|].
      destruct hw; [by left|right]. unfold in_word. intros q' Q L. assert (k <> 0) by (intros ->; by apply C). lia.
    + destruct (IH (k + 1)) as (v & Sv & Ev & Iv); [lia|]. exists v. rewrite Ev. split; [|split; [done|destruct v; [unfold in_word in *; lia|done..]]].
      eapply search_ext; [|apply (search_app_r hw m number (fun q => q = 64 * w + k) (in_word w (k + 1) (N.of_nat n)) v)].
      * intros q. unfold in_word. lia.
      * unfold in_word. lia.
      * apply search_nothing.
        -- intros q -> A. apply S in A. discriminate.
        -- destruct hw; [by left|right]. intros q ->. assert (k <> 0) by (intros ->; by apply C). lia.
      * exact Sv.
Qed.

(** *** Later words *)
Definition later (j e q : N) : Prop := j <= q /\ q / 64 <= e / 64.
Lemma scan_later hw m number tmp e : 1 <= number <= 64 -> (forall w, m w < 2 ^ 64) -> e < 2 ^ 43 ->
  forall fuel j, j mod 64 = 0 -> (N.to_nat (e + 64 - j) < 64 * fuel)%nat ->
  exists v, search hw m number (later j e) v /\
    scan_zone hw fuel m number tmp e j =
      match v with Found q => Ok (Some ((q + (W64 - 1)) mod W64)) | Nothing => Ok None | Undefined => UB end /\
    match v with Found q => later j e q | _ => True end.
Proof.
  intros Hn Hm He. induction fuel as [|fuel IH]; intros j Hj Hf; [lia|]. cbn [scan_zone].
  destruct (N.ltb_spec e j) as [L|L].
  { exists Nothing. split; [apply search_empty; unfold later; intros q; lia|done]. }
  rewrite Hj. change (N.to_nat (64 - 0) - N.to_nat 0)%nat with 64%nat.
  destruct (scan_word_exact hw m (j / 64) number Hn Hm 64 0) as (v & Sv & Ev & Iv); [lia|].
  rewrite Ev. destruct v as [q| |]; cbn [obind].
  - exists (Found q). unfold in_word in Iv. split; [|split; [do 3 f_equal; lia|unfold later; lia]].
    eapply search_ext; [|apply (search_app_l hw m number (in_word (j / 64) 0 64) (later (j + 64) e)); [|done|exact Sv]].
    + intros x. unfold in_word, later. lia.
    + unfold in_word, later. lia.
  - rewrite N.eqb_refl. destruct (IH (j + 64)) as (v & Sv' & Ev' & Iv'); [lia|lia|]. exists v. rewrite Ev'.
    split; [|split; [done|destruct v; [unfold later in *; lia|done..]]].
    eapply search_ext; [|apply (search_app_r hw m number (in_word (j / 64) 0 64) (later (j + 64) e)); [|exact Sv|exact Sv']].
    + intros x. unfold in_word, later. lia.
    + unfold in_word, later. lia.
  - exists Undefined. split; [|done].
    eapply search_ext; [|apply (search_app_l hw m number (in_word (j / 64) 0 64) (later (j + 64) e)); [|done|exact Sv]].
    + intros x. unfold in_word, later. lia.
    + unfold in_word, later. lia.
Qed.

(** *** A zone *)
Lemma scan_zone_exact hw m number z : 1 <= number <= 64 -> (forall w, m w < 2 ^ 64) -> z_start z <= z_end z -> z_end z < 2 ^ 43 ->
  exists v, search hw m number (looked_at z) v /\
    scan_zone hw (N.to_nat (z_end z - z_start z) + 2) m number (64 - z_start z mod 64) (z_end z) (z_start z) =
      match v with Found q => Ok (Some (handed_out z q)) | Nothing => Ok None | Undefined => UB end.
Proof.
  intros Hn Hm Hz He. destruct (N.eq_dec (z_start z mod 64) 0) as [Z|Z].
  - destruct (scan_later hw m number (64 - z_start z mod 64) (z_end z) Hn Hm He (N.to_nat (z_end z - z_start z) + 2) (z_start z) Z) as (v & Sv & Ev & Iv); [lia|].
    exists v. split; [|rewrite Ev; destruct v as [q| |]; [|done..]].
    + eapply search_ext; [|exact Sv]. intros q. unfold later, looked_at. rewrite Z. lia.
    + unfold later in Iv. unfold handed_out. rewrite Z. change W64 with (2 ^ 64). do 2 f_equal.
      destruct (N.ltb_spec q (z_start z - 0 + 64)); [f_equal; lia|].
      replace (q + (2 ^ 64 - 1)) with (q - 1 + 1 * 2 ^ 64) by lia. rewrite N.mod_add by lia. done.
  - replace (N.to_nat (z_end z - z_start z) + 2)%nat with (S (N.to_nat (z_end z - z_start z) + 1)) by lia. cbn [scan_zone].
    destruct (N.ltb_spec (z_end z) (z_start z)) as [L|L]; [lia|].
    set (r := z_start z mod 64) in *. assert (Hr : r < 64) by (unfold r; lia).
    assert (Hs : z_start z = 64 * (z_start z / 64) + r) by (unfold r; lia). clearbody r.
    set (w := z_start z / 64) in *. clearbody w.
    assert (Hl : (N.to_nat (64 - r) - N.to_nat r)%nat = N.to_nat (64 - r - r)) by lia. rewrite Hl.
    destruct (scan_word_exact hw m w number Hn Hm (N.to_nat (64 - r - r)) r) as (v & Sv & Ev & Iv); [lia|].
    rewrite N2Nat.id in Sv, Iv. rewrite Ev.
    assert (Sp : forall q, in_word w r (64 - r - r) q \/ later (64 * w + 64) (z_end z) q <-> looked_at z q).
    { intros q. unfold in_word, later, looked_at. assert (Q : z_start z mod 64 = r) by lia. rewrite Q. clear - Hs Hr. lia. }
    assert (Or : forall a b, in_word w r (64 - r - r) a -> later (64 * w + 64) (z_end z) b -> a < b).
    { unfold in_word, later. lia. }
    assert (Q : z_start z mod 64 = r) by lia.
    destruct v as [q| |]; cbn [obind].
    + exists (Found q). unfold in_word in Iv. split.
      * eapply search_ext; [exact Sp|]. by apply search_app_l.
      * unfold handed_out. rewrite Q. change W64 with (2 ^ 64). do 2 f_equal.
        destruct (N.ltb_spec q (z_start z - r + 64)); [f_equal; lia|lia].
    + destruct (N.eqb_spec r 0) as [X|_]; [lia|].
      replace (z_start z + (64 - r)) with (64 * w + 64) by lia.
      destruct (scan_later hw m number (64 - r) (z_end z) Hn Hm He (N.to_nat (z_end z - z_start z) + 1) (64 * w + 64)) as (v & Sv' & Ev' & Iv'); [lia|lia|].
      exists v. split.
      * eapply search_ext; [exact Sp|]. by apply search_app_r.
      * rewrite Ev'. destruct v as [q| |]; [|done..]. unfold later in Iv'. unfold handed_out. rewrite Q. change W64 with (2 ^ 64).
        do 2 f_equal. destruct (N.ltb_spec q (z_start z - r + 64)); [lia|].
        replace (q + (2 ^ 64 - 1)) with (q - 1 + 1 * 2 ^ 64) by lia. rewrite N.mod_add by lia. done.
    + exists Undefined. split; [|done]. eapply search_ext; [exact Sp|]. by apply search_app_l.
Qed.

Lemma init_pages_run r sh flags n : forall s pg,
  init_pages r sh s pg n flags = page_run r sh s (map (fun i => OpInit i flags) (seq pg n)).
Proof.
  induction n as [|n IH]; intros s pg; cbn [init_pages seq map page_run page_step]; [done|].
  destruct (page_init r sh s pg flags); cbn [obind]; [apply IH|done..].
Qed.

Definition reply r sh s n flags (v : verdict) : outcome (option N * mm) :=
  match v with Found pg => hand_out r sh s pg n flags | Nothing => Ok (None, s) | Undefined => UB end.
Lemma alloc_zones_exact hw r sh s number flags : 1 <= number <= 64 -> (forall w, bits s w < 2 ^ 64) ->
  forall n i zs, take n (drop i (zones s)) = zs -> length zs = n -> Forall (fun z => z_start z <= z_end z /\ z_end z < 2 ^ 43) zs ->
  exists v, answer hw (bits s) number zs v /\ alloc_zones hw r sh s i n number flags = reply r sh s number flags v.
Proof.
  intros Hn Hm. induction n as [|n IH]; intros i zs Hz Hl Hf.
  - destruct zs; [|done]. exists Nothing. split; [constructor|done].
  - destruct zs as [|z zs]; [done|]. cbn [alloc_zones].
    assert (Hi : zones s !! i = Some z).
    { pose proof (f_equal (fun l => l !! 0%nat) Hz) as H0. cbn in H0. rewrite lookup_take in H0 by lia. rewrite lookup_drop in H0. by rewrite Nat.add_0_r in H0. }
    rewrite Hi. cbn [of_option obind]. inversion_clear Hf as [|? ? [H1 H2] H3].
    rewrite (drop_S _ z i Hi) in Hz. cbn [take] in Hz. injection Hz as Hz. cbn [length] in Hl.
    destruct (IH (S i) zs Hz) as (v & Av & Ev); [lia|done|].
    destruct (N.ltb_spec (z_free z) number) as [L|L].
    + exists v. split; [by apply answer_skip|exact Ev].
    + destruct (scan_zone_exact hw (bits s) number z Hn Hm H1 H2) as (u & Su & Eu). rewrite Eu.
      destruct u as [q| |]; cbn [obind].
      * exists (Found (handed_out z q)). split; [by apply answer_found|]. cbn [reply]. unfold hand_out. rewrite init_pages_run.
        destruct (page_run _ _ _ _); done.
      * exists v. split; [by apply answer_next|exact Ev].
      * exists Undefined. split; [by apply answer_undefined|done].
Qed.
Lemma answer_det hw m n zs v : answer hw m n zs v -> forall v', answer hw m n zs v' -> v = v'.
Proof.
  induction 1 as [|z zs v H A IH|z zs v H S A IH|z zs q H S|z zs H S]; intros v' B; inversion B; subst; try lia; try done; eauto;
    match goal with S1 : search _ _ _ (looked_at z) _, S2 : search _ _ _ (looked_at z) _ |- _ => pose proof (search_det _ _ _ _ _ _ S1 S2) as E; try discriminate E end.
  by injection E as ->.
Qed.
Lemma alloc_exact hw r sh u s sel number flags : pages_sane s -> 1 <= number <= 64 ->
  exists v, answer hw (bits s) number (zones_of u s sel) v /\ (forall v', answer hw (bits s) number (zones_of u s sel) v' -> v' = v) /\
    alloc_pages hw r sh u s sel number flags =
    match v with Found pg => hand_out r sh s pg number flags | Nothing => Ok (None, s) | Undefined => UB end.
Proof.
  intros (Hm & Hf & Hne) Hn.
  assert (G : exists v, answer hw (bits s) number (zones_of u s sel) v /\ alloc_pages hw r sh u s sel number flags = reply r sh s number flags v).
  { destruct sel; cbn [alloc_pages zones_of].
    1,2: destruct (zones s) as [|z zs] eqn:Z; [done|];
         apply alloc_zones_exact; [done|done|by rewrite Z|done|]; inversion_clear Hf; by constructor.
    - apply alloc_zones_exact; [done|done| | |].
      + rewrite <- drop_length. apply firstn_all.
      + by rewrite drop_length.
      + by apply Forall_drop.
    - exists Nothing. split; [constructor|done]. }
  destruct G as (v & A & E). exists v. split; [exact A|]. split; [|exact E]. intros v' A'. symmetry. by apply (answer_det _ _ _ _ _ A).
Qed.

(** The page handed out is the page that was tested exactly in the first word of a zone that begins at the second page of a word. *)
Ltac Zify.zify_post_hook ::= idtac.
Lemma handed_out_low r q : q + r < 2 ^ 64 -> (q + r + (2 ^ 64 - 1)) mod 2 ^ 64 = q <-> r = 1 /\ q + r <> 0.
Proof.
  intros H. destruct (N.eq_dec (q + r) 0) as [E|E].
  - assert (q = 0) as -> by lia. assert (r = 0) as -> by lia. split; [discriminate|lia].
  - replace (q + r + (2 ^ 64 - 1)) with (q + r - 1 + 1 * 2 ^ 64) by lia. rewrite N.mod_add by lia. rewrite N.mod_small by lia. lia.
Qed.
Lemma handed_out_exact z q : z_end z < 2 ^ 43 -> looked_at z q -> z_start z <= z_end z ->
  (handed_out z q = q <-> z_start z mod 64 = 1 /\ q < z_start z + 63).
Proof.
  intros He Hq Hz. unfold handed_out. unfold looked_at in Hq.
  pose proof (N.mod_lt (z_start z) 64 ltac:(discriminate)) as Hr. pose proof (N.mod_le (z_start z) 64 ltac:(discriminate)) as Hr2.
  assert (Hb : q < 2 ^ 43 + 64).
  { destruct Hq as [Hq|[_ Hq]]; [lia|]. clear Hr Hr2 Hz. pose proof (N.div_mod q 64 ltac:(discriminate)). pose proof (N.mod_lt q 64 ltac:(discriminate)).
    pose proof (N.div_mod (z_end z) 64 ltac:(discriminate)). lia. }
  set (r := z_start z mod 64) in *. clearbody r.
  destruct (N.ltb_spec q (z_start z - r + 64)) as [L|L].
  - rewrite handed_out_low by lia. lia.
  - rewrite N.mod_small by lia. lia.
Qed.
