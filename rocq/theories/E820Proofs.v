(** Proofs about the memory map. *)
From stdpp Require Import list.
From Coq Require Import NArith Lia ZifyBool ZifyNat ZifyN.
From Verif Require Import E820Model E820Spec.
Local Open Scope N_scope.
Local Ltac Zify.zify_post_hook ::= Z.div_mod_to_equations.

Lemma le_val_bytes n : forall x, x < 256 ^ N.of_nat n -> le_val (le_bytes n x) = x.
Proof.
  induction n as [|n IH]; intros x Hx.
  - cbn in *. lia.
  - cbn [le_bytes le_val]. rewrite IH.
    + pose proof (N.div_mod x 256 ltac:(lia)). lia.
    + replace (N.of_nat (S n)) with (N.succ (N.of_nat n)) in Hx by lia. rewrite N.pow_succ_r' in Hx.
      apply N.div_lt_upper_bound; [lia|exact Hx].
Qed.
Lemma le_bytes_length n : forall x, length (le_bytes n x) = n.
Proof. induction n as [|n IH]; intros x; [reflexivity|]. cbn. rewrite IH. reflexivity. Qed.

Lemma store_outside bs : forall m a x, x < a \/ a + N.of_nat (length bs) <= x -> store m a bs x = m x.
Proof.
  induction bs as [|b bs IH]; intros m a x H; [reflexivity|].
  cbn [store length] in *. rewrite IH by lia. destruct (N.eqb_spec x a); [lia|reflexivity].
Qed.
Lemma load_ext n : forall m m' a, (forall x, a <= x < a + N.of_nat n -> m x = m' x) -> load m a n = load m' a n.
Proof.
  induction n as [|n IH]; intros m m' a H; [reflexivity|]. cbn [load]. f_equal; [apply H; lia|].
  apply IH. intros x Hx. apply H. lia.
Qed.
Lemma load_store bs : forall m a, load (store m a bs) a (length bs) = bs.
Proof.
  induction bs as [|b bs IH]; intros m a; [reflexivity|]. cbn [store length load]. f_equal.
  - rewrite store_outside by lia. rewrite N.eqb_refl. reflexivity.
  - apply IH.
Qed.
Lemma load_app m n k : forall a, load m a (n + k) = load m a n ++ load m (a + N.of_nat n) k.
Proof.
  induction n as [|n IH]; intros a.
  - cbn. f_equal. lia.
  - cbn [load app Nat.add]. f_equal. rewrite IH. f_equal. f_equal. lia.
Qed.
Lemma load_length m n : forall a, length (load m a n) = n.
Proof. induction n as [|n IH]; intros a; [reflexivity|]. cbn. rewrite IH. reflexivity. Qed.

Lemma entry_bytes_length e : length (entry_bytes e) = 20%nat.
Proof. unfold entry_bytes. rewrite !app_length, !le_bytes_length. reflexivity. Qed.
Lemma store_map_outside es : forall m a x,
  x < a \/ a + 20 * N.of_nat (length es) <= x -> store_map m a es x = m x.
Proof.
  induction es as [|e es IH]; intros m a x H; [reflexivity|]. cbn [store_map length] in *.
  rewrite IH by lia. apply store_outside. rewrite entry_bytes_length. lia.
Qed.

Lemma read_entry_ext m m' a : (forall x, a <= x < a + 20 -> m x = m' x) -> read_entry m a = read_entry m' a.
Proof.
  intros H. unfold read_entry. f_equal; f_equal; apply load_ext; intros x Hx; apply H; lia.
Qed.

Lemma read_store m a e : entry_ok e -> read_entry (store m a (entry_bytes e)) a = e.
Proof.
  intros (H1 & H2 & H3). unfold read_entry.
  pose proof (load_store (entry_bytes e) m a) as L. rewrite entry_bytes_length in L.
  set (m' := store m a (entry_bytes e)) in *. clearbody m'.
  change 20%nat with (8 + (8 + 4))%nat in L. rewrite (load_app m' 8), (load_app m' 8) in L.
  unfold entry_bytes in L.
  apply app_inj_1 in L as [L1 L]; [|rewrite load_length, le_bytes_length; reflexivity].
  apply app_inj_1 in L as [L2 L3]; [|rewrite load_length, le_bytes_length; reflexivity].
  replace (a + N.of_nat 8 + N.of_nat 8) with (a + 16) in L3 by lia.
  change (N.of_nat 8) with 8 in L2. rewrite L1, L2, L3.
  rewrite !le_val_bytes by (cbn; lia). destruct e; reflexivity.
Qed.

Lemma read_map es : forall m a i e, Forall entry_ok es -> es !! i = Some e ->
  read_entry (store_map m a es) (a + 20 * N.of_nat i) = e.
Proof.
  induction es as [|e0 es IH]; intros m a i e Hok Hi; [discriminate|].
  inversion Hok as [|? ? Ho1 Ho2]; subst. destruct i as [|i].
  - injection Hi as <-. cbn [store_map]. replace (a + 20 * N.of_nat 0) with a by lia.
    rewrite <- (read_store m a e0 Ho1) at 2. apply read_entry_ext. intros x Hx. apply store_map_outside. lia.
  - cbn [store_map]. replace (a + 20 * N.of_nat (S i)) with (a + 20 + 20 * N.of_nat i) by lia.
    apply IH; assumption.
Qed.

(** The scan as a prefix of the raw records. *)
Definition scan_accepts (e : e820_entry) : bool := negb ((4 <? e_type e) || (e_len e =? 0) || (e_type e <? 1)).
Fixpoint raw_entries (m : bytes) (a : N) (n : nat) : list e820_entry :=
  match n with O => [] | S n => read_entry m a :: raw_entries m (a + 20) n end.
Fixpoint prefix_while (f : e820_entry -> bool) (l : list e820_entry) : list e820_entry :=
  match l with [] => [] | x :: l => if f x then x :: prefix_while f l else [] end.

Lemma scan_spec m n : forall a av, av < 2 ^ 64 ->
  scan m a n av =
  (prefix_while scan_accepts (raw_entries m a n),
   (av + usable_total (prefix_while scan_accepts (raw_entries m a n))) mod 2 ^ 64).
Proof.
  induction n as [|n IH]; intros a av Hav.
  - cbn [scan raw_entries prefix_while usable_total foldr]. rewrite N.add_0_r, N.mod_small by exact Hav. reflexivity.
  - cbn [scan raw_entries prefix_while]. unfold scan_accepts at 1 3.
    destruct ((4 <? e_type (read_entry m a)) || (e_len (read_entry m a) =? 0) || (e_type (read_entry m a) <? 1)).
    + cbn [negb usable_total foldr]. rewrite N.add_0_r, N.mod_small by exact Hav. reflexivity.
    + cbn [negb usable_total foldr]. destruct (e_type (read_entry m a) =? 1).
      * rewrite IH by (apply N.mod_lt; lia). f_equal. rewrite N.add_mod_idemp_l by lia.
        f_equal. unfold usable_total. lia.
      * rewrite IH by exact Hav. reflexivity.
Qed.

Lemma accepts_plain e : entry_plain e <-> scan_accepts e = true.
Proof. unfold entry_plain, scan_accepts. lia. Qed.

Lemma raw_entries_map m es : forall a n, (length es <= n)%nat -> Forall entry_ok es ->
  raw_entries (store_map m a es) a n = es ++ raw_entries m (a + 20 * N.of_nat (length es)) (n - length es).
Proof.
  intros a n Hn Hok.
  assert (Hk : forall k n, (k <= length es)%nat -> (length es <= k + n)%nat ->
      raw_entries (store_map m a es) (a + 20 * N.of_nat k) n =
      drop k es ++ raw_entries m (a + 20 * N.of_nat (length es)) (k + n - length es)).
    { intros k n0. revert k. set (l := es) in *. induction n0 as [|n0 IHn]; intros k Hk1 Hk2.
      - rewrite drop_ge by lia. replace (k + 0 - length l)%nat with 0%nat by lia. reflexivity.
      - cbn [raw_entries]. destruct (decide (k < length l)%nat) as [Hlt|Hge].
        + destruct (lookup_lt_is_Some_2 l k Hlt) as [e0 He0].
          rewrite (read_map l m a k e0 Hok He0).
          rewrite (drop_S l e0 k He0). cbn [app]. f_equal.
          replace (a + 20 * N.of_nat k + 20) with (a + 20 * N.of_nat (S k)) by lia.
          rewrite IHn by lia. f_equal. f_equal. lia.
        + assert (k = length l) as -> by lia. rewrite drop_ge by lia. cbn [app].
          replace (length l + S n0 - length l)%nat with (S n0) by lia. cbn [raw_entries]. f_equal.
          * apply read_entry_ext. intros x Hx. apply store_map_outside. lia.
          * clear -n0. revert n0. assert (Hx : forall n0 b, a + 20 * N.of_nat (length l) <= b ->
              raw_entries (store_map m a l) b n0 = raw_entries m b n0).
            { induction n0 as [|n0 IH]; intros b Hb; [reflexivity|]. cbn [raw_entries]. f_equal.
              - apply read_entry_ext. intros x Hx. apply store_map_outside. lia.
              - apply IH. lia. }
            intros n0. apply Hx. lia. }
    specialize (Hk 0%nat n ltac:(lia) ltac:(lia)).
    replace (a + 20 * N.of_nat 0) with a in Hk by lia. exact Hk.
Qed.

Lemma prefix_while_app f l l' : Forall (fun x => f x = true) l -> prefix_while f (l ++ l') = l ++ prefix_while f l'.
Proof.
  induction 1 as [|x l Hx _ IH]; [reflexivity|]. cbn [app prefix_while]. rewrite Hx, IH. reflexivity.
Qed.

(** What the kernel sees for any firmware table and any bytes behind it. *)
Lemma init_spec m es :
  Forall entry_ok es -> Forall entry_plain es -> (length es <= 20)%nat ->
  let seen := es ++ prefix_while scan_accepts
                      (raw_entries m (e820_addr + 20 * N.of_nat (length es)) (20 - length es)) in
  e820_init (store_map m e820_addr es) = (seen, usable_total seen mod 2 ^ 64).
Proof.
  intros Ho Hp Hl. cbv zeta. unfold e820_init. rewrite scan_spec by lia.
  rewrite raw_entries_map by assumption.
  rewrite prefix_while_app; [reflexivity|]. eapply Forall_impl; [exact Hp|]. intros e. apply accepts_plain.
Qed.

Lemma init_exact m es :
  Forall entry_ok es -> Forall entry_plain es -> (length es <= 20)%nat ->
  (length es = 20%nat \/ ~ entry_plain (read_entry m (e820_addr + 20 * N.of_nat (length es)))) ->
  e820_init (store_map m e820_addr es) = (es, usable_total es mod 2 ^ 64).
Proof.
  intros Ho Hp Hl Hend. rewrite init_spec by assumption. cbv zeta.
  assert (E : prefix_while scan_accepts
     (raw_entries m (e820_addr + 20 * N.of_nat (length es)) (20 - length es)) = []).
  { destruct Hend as [Hend|Hend].
    - rewrite Hend. reflexivity.
    - destruct (20 - length es)%nat; [reflexivity|]. cbn [raw_entries prefix_while].
      rewrite accepts_plain in Hend. destruct (scan_accepts _); [contradiction|reflexivity]. }
  rewrite E, app_nil_r. reflexivity.
Qed.

Lemma init_total_small es : usable_total es < 2 ^ 64 -> usable_total es mod 2 ^ 64 = usable_total es.
Proof. apply N.mod_small. Qed.

(** The number of entries is at most 20 and every one is plain, for all memories. *)
Lemma prefix_while_all f l : Forall (fun x => f x = true) (prefix_while f l).
Proof.
  induction l as [|x l IH]; [constructor|]. cbn [prefix_while]. destruct (f x) eqn:E; constructor; assumption.
Qed.
Lemma prefix_while_length f l : (length (prefix_while f l) <= length l)%nat.
Proof. induction l as [|x l IH]; [cbn; lia|]. cbn [prefix_while]. destruct (f x); cbn [length]; lia. Qed.
Lemma raw_length m n : forall a, length (raw_entries m a n) = n.
Proof. induction n as [|n IH]; intros a; [reflexivity|]. cbn. rewrite IH. reflexivity. Qed.
Lemma init_bounded m :
  (length (fst (e820_init m)) <= 20)%nat /\ Forall entry_plain (fst (e820_init m)) /\
  snd (e820_init m) = usable_total (fst (e820_init m)) mod 2 ^ 64.
Proof.
  unfold e820_init. rewrite scan_spec by lia. cbn [fst snd]. split; [|split; [|reflexivity]].
  - etransitivity; [apply prefix_while_length|]. rewrite raw_length. lia.
  - eapply Forall_impl; [apply prefix_while_all|]. intros e. apply accepts_plain.
Qed.

(** Exactly what is reported, for all memories. *)
Lemma prefix_raw m n : forall a es,
  prefix_while scan_accepts (raw_entries m a n) = es <->
  (length es <= n)%nat /\
  (forall i e, es !! i = Some e -> read_entry m (a + 20 * N.of_nat i) = e /\ scan_accepts e = true) /\
  (length es = n \/ scan_accepts (read_entry m (a + 20 * N.of_nat (length es))) = false).
Proof.
  induction n as [|n IH]; intros a es.
  - cbn [raw_entries prefix_while]. split.
    + intros <-. split; [cbn; lia|]. split; [intros i e Hi; discriminate|left; reflexivity].
    + intros (H & _). destruct es; [reflexivity|]. cbn in H. lia.
  - cbn [raw_entries prefix_while]. destruct (scan_accepts (read_entry m a)) eqn:Ea.
    + split.
      * intros <-. destruct (proj1 (IH (a + 20) _) eq_refl) as (H1 & H2 & H3). cbn [length].
        split; [lia|]. split.
        -- intros [|i] e Hi.
           ++ injection Hi as <-. rewrite N.mul_0_r, N.add_0_r. split; [reflexivity|exact Ea].
           ++ specialize (H2 i e Hi). replace (a + 20 * N.of_nat (S i)) with (a + 20 + 20 * N.of_nat i) by lia.
              exact H2.
        -- destruct H3 as [H3|H3]; [left; lia|right].
           replace (a + 20 * N.of_nat (S (length (prefix_while scan_accepts (raw_entries m (a + 20) n)))))
             with (a + 20 + 20 * N.of_nat (length (prefix_while scan_accepts (raw_entries m (a + 20) n)))) by lia.
           exact H3.
      * intros (H1 & H2 & H3). destruct es as [|e es].
        { exfalso. cbn [length] in H3. rewrite N.mul_0_r, N.add_0_r in H3.
          destruct H3 as [H3|H3]; [discriminate|]. congruence. }
        destruct (H2 0%nat e eq_refl) as [He _]. rewrite N.mul_0_r, N.add_0_r in He. rewrite He. f_equal.
        apply IH. cbn [length] in H1, H3. split; [lia|]. split.
        -- intros i e' Hi. specialize (H2 (S i) e' Hi).
           replace (a + 20 * N.of_nat (S i)) with (a + 20 + 20 * N.of_nat i) in H2 by lia. exact H2.
        -- destruct H3 as [H3|H3]; [left; lia|right].
           replace (a + 20 * N.of_nat (S (length es))) with (a + 20 + 20 * N.of_nat (length es)) in H3 by lia.
           exact H3.
    + split.
      * intros <-. cbn [length]. split; [lia|]. split; [intros i e Hi; discriminate|].
        right. rewrite N.mul_0_r, N.add_0_r. exact Ea.
      * intros (H1 & H2 & H3). destruct es as [|e es]; [reflexivity|]. exfalso.
        destruct (H2 0%nat e eq_refl) as [He Hs]. rewrite N.mul_0_r, N.add_0_r in He. congruence.
Qed.

Lemma rejects_plain e : ~ entry_plain e <-> scan_accepts e = false.
Proof. rewrite accepts_plain. destruct (scan_accepts e); split; congruence. Qed.

Lemma init_reported m es :
  fst (e820_init m) = es <->
  (length es <= 20)%nat /\
  (forall i e, es !! i = Some e -> read_entry m (e820_addr + 20 * N.of_nat i) = e /\ entry_plain e) /\
  (length es = 20%nat \/ ~ entry_plain (read_entry m (e820_addr + 20 * N.of_nat (length es)))).
Proof.
  unfold e820_init. rewrite scan_spec by lia. cbn [fst]. rewrite prefix_raw, rejects_plain.
  split; intros (H1 & H2 & H3); (split; [exact H1|]; split; [|exact H3]);
    intros i e Hi; specialize (H2 i e Hi); rewrite accepts_plain in *; exact H2.
Qed.

Lemma init_faithful m es : Forall entry_ok es ->
  (fst (e820_init (store_map m e820_addr es)) = es <->
   Forall entry_plain es /\ (length es <= 20)%nat /\
   (length es = 20%nat \/ ~ entry_plain (read_entry m (e820_addr + 20 * N.of_nat (length es))))).
Proof.
  intros Hok. rewrite init_reported.
  assert (E : read_entry (store_map m e820_addr es) (e820_addr + 20 * N.of_nat (length es)) =
              read_entry m (e820_addr + 20 * N.of_nat (length es))).
  { apply read_entry_ext. intros x Hx. apply store_map_outside. lia. }
  rewrite E. split.
  - intros (H1 & H2 & H3). split; [|split; [exact H1|exact H3] ].
    apply Forall_lookup. intros i e Hi. apply (H2 i e Hi).
  - intros (H1 & H2 & H3). split; [exact H2|]. split; [|exact H3].
    intros i e Hi. split; [apply read_map; assumption|]. rewrite Forall_lookup in H1. apply (H1 i e Hi).
Qed.
