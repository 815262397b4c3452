(** Proofs about StringModel. *)
From stdpp Require Import gmap.
From Coq Require Import Lia ZifyBool ZifyNat ZifyN.
From Verif Require Import Base StringModel StringSpec.
Local Open Scope N_scope.
Local Open Scope outcome_scope.
Ltac Zify.zify_post_hook ::= Z.div_mod_to_equations.

Lemma mapped_lookup m a n x : mapped m a n -> a <= x -> x < a + n -> is_Some (m !! x).
Proof. intros H H1 H2. replace x with (a + (x - a)) by lia. apply H. lia. Qed.

Lemma load_bytes_ok (m : mem) w : forall a,
  mapped m a (N.of_nat w) ->
  exists bs, load_bytes m a w = Ok bs /\ length bs = w /\
    forall j, (j < w)%nat -> bs !! j = m !! (a + N.of_nat j).
Proof.
  induction w as [|w IH]; intros a Hm.
  - exists []. repeat split. lia.
  - destruct (mapped_lookup m a _ a Hm) as [b Hb]; [lia|lia|].
    destruct (IH (a + 1)) as (bs & Hl & Hlen & Hbs).
    { intros i Hi. apply (mapped_lookup m a _ _ Hm); lia. }
    exists (b :: bs). cbn [load_bytes]. unfold load8. rewrite Hb. cbn [of_option obind].
    rewrite Hl. cbn [obind]. split; [reflexivity|]. split; [simpl; lia|].
    intros [|j] Hj; simpl.
    + rewrite N.add_0_r. symmetry; exact Hb.
    + rewrite Hbs by lia. f_equal. lia.
Qed.

Lemma store_bytes_ok bs : forall (m : mem) a,
  mapped m a (N.of_nat (length bs)) ->
  exists m', store_bytes m a bs = Ok m' /\
    forall x, m' !! x = if (a <=? x) && (x <? a + N.of_nat (length bs))
                        then bs !! N.to_nat (x - a) else m !! x.
Proof.
  induction bs as [|b bs IH]; intros m a Hm.
  - exists m. split; [reflexivity|]. intros x. simpl.
    destruct ((a <=? x) && (x <? a + 0)) eqn:E; [lia|reflexivity].
  - destruct (mapped_lookup m a _ a Hm) as [b0 Hb]; [lia|simpl; lia|].
    cbn [store_bytes]. unfold store8. rewrite Hb. cbn [obind].
    destruct (IH (<[a:=b]> m) (a + 1)) as (m' & Hs & Hm').
    { intros i Hi. destruct (decide (a + 1 + i = a)) as [E|E]; [lia|].
      rewrite lookup_insert_ne by lia. apply (mapped_lookup m a _ _ Hm); simpl length in *; lia. }
    exists m'. split; [exact Hs|]. intros x. rewrite Hm'. simpl length.
    destruct ((a + 1 <=? x) && (x <? a + 1 + N.of_nat (length bs))) eqn:E1.
    + destruct ((a <=? x) && (x <? a + N.of_nat (S (length bs)))) eqn:E2; [|lia].
      replace (N.to_nat (x - a)) with (S (N.to_nat (x - (a + 1)))) by lia. reflexivity.
    + destruct (decide (x = a)) as [->|Hx].
      * rewrite lookup_insert.
        destruct ((a <=? a) && (a <? a + N.of_nat (S (length bs)))) eqn:E2; [|lia].
        replace (N.to_nat (a - a)) with O by lia. reflexivity.
      * rewrite lookup_insert_ne by lia.
        destruct ((a <=? x) && (x <? a + N.of_nat (S (length bs)))) eqn:E2; [lia|reflexivity].
Qed.

(** Bytes lo..hi-1 of the move have been done. *)
Definition copied (m : mem) (dest src lo hi : N) (m' : mem) : Prop :=
  forall a, m' !! a = if (dest + lo <=? a) && (a <? dest + hi)
                      then m !! (src + (a - dest)) else m !! a.

Lemma copied_cast m dest src lo hi lo' hi' m' :
  copied m dest src lo hi m' -> lo = lo' -> hi = hi' -> copied m dest src lo' hi' m'.
Proof. intros H -> ->. exact H. Qed.

Lemma copied_mapped m dest src lo hi m' x n n' :
  copied m dest src lo hi m' -> lo <= hi -> hi <= n' ->
  mapped m src n' -> mapped m x n -> mapped m' x n.
Proof.
  intros Hc Hlh Hh Hs Hx i Hi. rewrite Hc.
  destruct ((dest + lo <=? x + i) && (x + i <? dest + hi)) eqn:E.
  - apply (mapped_lookup m src n'); [exact Hs|lia|lia].
  - apply Hx; exact Hi.
Qed.

(** One chunk of [w] bytes at offset [x], next to the part already copied. *)
Lemma chunk m dest src lo hi mi x (w : nat) n :
  copied m dest src lo hi mi -> lo <= hi -> hi <= n -> x + N.of_nat w <= n ->
  mapped m src n -> mapped m dest n ->
  (forall j, j < N.of_nat w -> src + x + j < dest + lo \/ dest + hi <= src + x + j) ->
  (x = hi \/ x + N.of_nat w = lo) ->
  exists bs m', load_bytes mi (src + x) w = Ok bs /\ store_bytes mi (dest + x) bs = Ok m' /\
    copied m dest src (N.min lo x) (N.max hi (x + N.of_nat w)) m'.
Proof.
  intros Hc Hlh Hh Hx Hs Hd Hni Hadj.
  destruct (load_bytes_ok mi w (src + x)) as (bs & Hl & Hlen & Hbs).
  { intros i Hi. apply (mapped_lookup mi src n); [|lia|lia].
    eapply copied_mapped; eauto. }
  destruct (store_bytes_ok bs mi (dest + x)) as (m' & Hst & Hm').
  { intros i Hi. apply (mapped_lookup mi dest n); [|lia|lia].
    eapply copied_mapped; eauto. }
  exists bs, m'. split; [exact Hl|]. split; [exact Hst|].
  intros a. rewrite Hm', Hlen.
  destruct ((dest + x <=? a) && (a <? dest + x + N.of_nat w)) eqn:E1.
  - destruct ((dest + N.min lo x <=? a) && (a <? dest + N.max hi (x + N.of_nat w))) eqn:E2; [|lia].
    rewrite Hbs by lia. rewrite Hc.
    replace (src + x + N.of_nat (N.to_nat (a - (dest + x)))) with (src + (a - dest)) by lia.
    destruct (Hni (a - (dest + x))) as [Hq|Hq]; [lia| |].
    + destruct ((dest + lo <=? src + (a - dest)) && (src + (a - dest) <? dest + hi)) eqn:E3;
        [lia|reflexivity].
    + destruct ((dest + lo <=? src + (a - dest)) && (src + (a - dest) <? dest + hi)) eqn:E3;
        [lia|reflexivity].
  - rewrite Hc.
    destruct ((dest + lo <=? a) && (a <? dest + hi)) eqn:E2;
    destruct ((dest + N.min lo x <=? a) && (a <? dest + N.max hi (x + N.of_nat w))) eqn:E3;
      try lia; reflexivity.
Qed.

Lemma load8_store8_bytes m s d :
  (b <~ load8 m s; store8 m d b) = (bs <~ load_bytes m s 1; store_bytes m d bs).
Proof.
  unfold load_bytes, store_bytes, load8, store8.
  destruct (m !! s); simpl; [|reflexivity]. destruct (m !! d); reflexivity.
Qed.

(** Forward copying is right whenever no source byte is overwritten before it is read. *)
Definition fwd_safe (dest src n : N) : Prop := dest <= src \/ disjoint_ranges dest n src n.

Lemma memcpy_words_ok m dest src n k : forall i mi,
  fwd_safe dest src n -> mapped m src n -> mapped m dest n ->
  copied m dest src 0 (8 * i) mi -> 8 * (i + N.of_nat k) <= n ->
  exists m', memcpy_words k i mi dest src = Ok m' /\ copied m dest src 0 (8 * (i + N.of_nat k)) m'.
Proof.
  induction k as [|k IH]; intros i mi Hf Hs Hd Hc Hn.
  - exists mi. split; [reflexivity|]. replace (8 * (i + N.of_nat 0)) with (8 * i) by lia. exact Hc.
  - destruct (chunk m dest src 0 (8 * i) mi (8 * i) 8 n) as (bs & m1 & Hl & Hst & Hc1);
      try assumption; try lia.
    { intros j Hj. unfold fwd_safe, disjoint_ranges in Hf. lia. }
    cbn [memcpy_words]. unfold load64, store64. rewrite Hl. cbn [obind]. rewrite Hst. cbn [obind].
    destruct (IH (i + 1) m1) as (m' & Hw & Hc'); try assumption; try lia.
    { replace (8 * (i + 1)) with (N.max (8 * i) (8 * i + N.of_nat 8)) by lia.
      replace 0 with (N.min 0 (8 * i)) at 1 by lia. exact Hc1. }
    exists m'. split; [exact Hw|].
    replace (8 * (i + N.of_nat (S k))) with (8 * (i + 1 + N.of_nat k)) by lia. exact Hc'.
Qed.

Lemma memcpy_tail_ok m dest src n o k : forall i mi,
  fwd_safe dest src n -> mapped m src n -> mapped m dest n ->
  copied m dest src 0 (o + i) mi -> o + i + N.of_nat k <= n ->
  exists m', memcpy_tail k i mi (dest + o) (src + o) = Ok m' /\
             copied m dest src 0 (o + i + N.of_nat k) m'.
Proof.
  induction k as [|k IH]; intros i mi Hf Hs Hd Hc Hn.
  - exists mi. split; [reflexivity|]. replace (o + i + N.of_nat 0) with (o + i) by lia. exact Hc.
  - destruct (chunk m dest src 0 (o + i) mi (o + i) 1 n) as (bs & m1 & Hl & Hst & Hc1);
      try assumption; try lia.
    { intros j Hj. unfold fwd_safe, disjoint_ranges in Hf. lia. }
    cbn [memcpy_tail].
    assert (Hstep : (b <~ load8 mi (src + o + i); store8 mi (dest + o + i) b) = Ok m1).
    { rewrite load8_store8_bytes, <- !N.add_assoc, Hl. exact Hst. }
    destruct (load8 mi (src + o + i)) as [b| |]; cbn [obind] in Hstep; try discriminate.
    cbn [obind]. rewrite Hstep. cbn [obind].
    destruct (IH (i + 1) m1) as (m' & Hw & Hc'); try assumption; try lia.
    { replace (o + (i + 1)) with (N.max (o + i) (o + i + N.of_nat 1)) by lia.
      replace 0 with (N.min 0 (o + i)) at 1 by lia. exact Hc1. }
    exists m'. split; [exact Hw|].
    replace (o + i + N.of_nat (S k)) with (o + (i + 1) + N.of_nat k) by lia. exact Hc'.
Qed.

Lemma copied_refl m dest src x : copied m dest src x x m.
Proof. intros a. destruct ((dest + x <=? a) && (a <? dest + x)) eqn:E; [lia|reflexivity]. Qed.

Lemma copied_moved m dest src n m' : copied m dest src 0 n m' -> moved m dest src n m'.
Proof.
  intros H a. rewrite H.
  destruct ((dest + 0 <=? a) && (a <? dest + n)) eqn:E;
  destruct ((dest <=? a) && (a <? dest + n)) eqn:E2; try lia; reflexivity.
Qed.

Lemma moved_same m a n : moved m a a n m.
Proof.
  intros x. destruct ((a <=? x) && (x <? a + n)) eqn:E; [|reflexivity].
  f_equal. lia.
Qed.

Lemma moved_zero m a b : moved m a b 0 m.
Proof. intros x. destruct ((a <=? x) && (x <? a + 0)) eqn:E; [lia|reflexivity]. Qed.

Lemma memcpy_ok m dest src n :
  dest <> 0 -> src <> 0 -> mapped m src n -> mapped m dest n -> fwd_safe dest src n ->
  exists m', memcpy m dest src n = Ok (m', dest + n) /\ moved m dest src n m'.
Proof.
  intros Hd0 Hs0 Hs Hd Hf. unfold memcpy.
  destruct ((dest =? 0) || (src =? 0) || (n =? 0)) eqn:E0.
  { assert (n = 0) as -> by lia. exists m. rewrite N.add_0_r. split; [reflexivity|apply moved_zero]. }
  destruct (dest =? src) eqn:Eq.
  { apply N.eqb_eq in Eq as ->. exists m. split; [reflexivity|apply moved_same]. }
  destruct (8 <=? n) eqn:E8.
  - destruct (memcpy_words_ok m dest src n (N.to_nat (n / 8)) 0 m) as (m1 & Hw & Hc);
      try assumption; try lia; [apply copied_refl|].
    rewrite Hw. cbn [obind].
    destruct (memcpy_tail_ok m dest src n (n / 8 * 8) (N.to_nat (n - n / 8 * 8)) 0 m1)
      as (m2 & Ht & Hc2); try assumption; try lia.
    { replace (n / 8 * 8 + 0) with (8 * (0 + N.of_nat (N.to_nat (n / 8)))) by lia. exact Hc. }
    rewrite Ht. cbn [obind]. exists m2. split; [do 2 f_equal; lia|].
    apply copied_moved.
    replace n with (n / 8 * 8 + 0 + N.of_nat (N.to_nat (n - n / 8 * 8))) at 1 by lia. exact Hc2.
  - cbn [obind].
    destruct (memcpy_tail_ok m dest src n 0 (N.to_nat n) 0 m) as (m2 & Ht & Hc2);
      try assumption; try lia; [apply copied_refl|].
    rewrite !N.add_0_r in Ht. rewrite Ht. cbn [obind]. exists m2. split; [reflexivity|].
    apply copied_moved.
    replace n with (0 + 0 + N.of_nat (N.to_nat n)) by lia. exact Hc2.
Qed.

Lemma memmove_words_ok m dest src n k : forall i mi,
  src < dest -> mapped m src n -> mapped m dest n -> 8 * (i + N.of_nat k) <= n ->
  copied m dest src (n - 8 * i) n mi ->
  exists m', memmove_words k i mi (dest + n) (src + n) = Ok m' /\
             copied m dest src (n - 8 * (i + N.of_nat k)) n m'.
Proof.
  induction k as [|k IH]; intros i mi Hlt Hs Hd Hn Hc.
  - exists mi. split; [reflexivity|]. replace (8 * (i + N.of_nat 0)) with (8 * i) by lia. exact Hc.
  - destruct (chunk m dest src (n - 8 * i) n mi (n - 8 * i - 8) 8 n) as (bs & m1 & Hl & Hst & Hc1);
      try assumption; try lia.
    cbn [memmove_words]. unfold load64, store64.
    replace (src + n - 8 * i - 8) with (src + (n - 8 * i - 8)) by lia.
    replace (dest + n - 8 * i - 8) with (dest + (n - 8 * i - 8)) by lia.
    rewrite Hl. cbn [obind]. rewrite Hst. cbn [obind].
    destruct (IH (i + 1) m1) as (m' & Hw & Hc'); try assumption; try lia.
    { eapply copied_cast; [exact Hc1|lia|lia]. }
    exists m'. split; [exact Hw|].
    replace (8 * (i + N.of_nat (S k))) with (8 * (i + 1 + N.of_nat k)) by lia. exact Hc'.
Qed.

Lemma memmove_tail_ok m dest src n r k : forall i mi,
  src < dest -> mapped m src n -> mapped m dest n -> r <= n -> i + N.of_nat k <= r ->
  copied m dest src (r - i) n mi ->
  exists m', memmove_tail k i mi (dest + r) (src + r) = Ok m' /\
             copied m dest src (r - (i + N.of_nat k)) n m'.
Proof.
  induction k as [|k IH]; intros i mi Hlt Hs Hd Hr Hn Hc.
  - exists mi. split; [reflexivity|]. replace (i + N.of_nat 0) with i by lia. exact Hc.
  - destruct (chunk m dest src (r - i) n mi (r - 1 - i) 1 n) as (bs & m1 & Hl & Hst & Hc1);
      try assumption; try lia.
    cbn [memmove_tail].
    replace (src + r - 1 - i) with (src + (r - 1 - i)) by lia.
    replace (dest + r - 1 - i) with (dest + (r - 1 - i)) by lia.
    assert (Hstep : (b <~ load8 mi (src + (r - 1 - i)); store8 mi (dest + (r - 1 - i)) b) = Ok m1).
    { rewrite load8_store8_bytes, Hl. exact Hst. }
    destruct (load8 mi (src + (r - 1 - i))) as [b| |]; cbn [obind] in Hstep; try discriminate.
    cbn [obind]. rewrite Hstep. cbn [obind].
    destruct (IH (i + 1) m1) as (m' & Hw & Hc'); try assumption; try lia.
    { eapply copied_cast; [exact Hc1|lia|lia]. }
    exists m'. split; [exact Hw|].
    replace (i + N.of_nat (S k)) with (i + 1 + N.of_nat k) by lia. exact Hc'.
Qed.

Lemma memmove_ok m dest src n :
  dest <> 0 -> src <> 0 -> mapped m src n -> mapped m dest n ->
  exists m', memmove m dest src n = Ok (m', dest + n) /\ moved m dest src n m'.
Proof.
  intros Hd0 Hs0 Hs Hd. unfold memmove.
  destruct ((dest =? 0) || (src =? 0) || (n =? 0)) eqn:E0.
  { assert (n = 0) as -> by lia. exists m. rewrite N.add_0_r. split; [reflexivity|apply moved_zero]. }
  destruct (dest =? src) eqn:Eq.
  { apply N.eqb_eq in Eq as ->. exists m. split; [reflexivity|apply moved_same]. }
  destruct (dest <? src) eqn:Elt.
  { apply memcpy_ok; try assumption. left. lia. }
  destruct (8 <=? n) eqn:E8.
  - destruct (memmove_words_ok m dest src n (N.to_nat (n / 8)) 0 m) as (m1 & Hw & Hc);
      try assumption; try lia.
    { replace (n - 8 * 0) with n by lia. apply copied_refl. }
    rewrite Hw. cbn [obind].
    destruct (memmove_tail_ok m dest src n (n - n / 8 * 8) (N.to_nat (n - n / 8 * 8)) 0 m1)
      as (m2 & Ht & Hc2); try assumption; try lia.
    { replace (n - n / 8 * 8 - 0) with (n - 8 * (0 + N.of_nat (N.to_nat (n / 8)))) by lia. exact Hc. }
    rewrite Ht. cbn [obind]. exists m2. split; [reflexivity|].
    apply copied_moved.
    eapply copied_cast; [exact Hc2|lia|lia].
  - cbn [obind].
    destruct (memmove_tail_ok m dest src n n (N.to_nat n) 0 m) as (m2 & Ht & Hc2);
      try assumption; try lia.
    { replace (n - 0) with n by lia. apply copied_refl. }
    rewrite Ht. cbn [obind]. exists m2. split; [reflexivity|].
    apply copied_moved. eapply copied_cast; [exact Hc2|lia|lia].
Qed.

Lemma memcpy_noop m dest src n :
  dest = 0 \/ src = 0 \/ n = 0 -> memcpy m dest src n = Ok (m, dest) /\ memmove m dest src n = Ok (m, dest).
Proof.
  intros H. unfold memcpy, memmove.
  destruct ((dest =? 0) || (src =? 0) || (n =? 0)) eqn:E; [split; reflexivity|lia].
Qed.

(** strlen *)
Lemma strlen_loop_ok m len : forall a n fuel,
  cstring_at m a len -> (N.to_nat len < fuel)%nat ->
  strlen_loop fuel m a n = Ok (n + len).
Proof.
  induction len as [|len IH] using N.peano_ind; intros a n fuel [H0 Hne] Hf.
  - destruct fuel as [|fuel]; [lia|]. cbn [strlen_loop]. unfold load8.
    rewrite N.add_0_r in H0. rewrite H0. simpl. f_equal. lia.
  - destruct fuel as [|fuel]; [lia|]. cbn [strlen_loop]. unfold load8.
    destruct (Hne 0) as (b & Hb & Hb0); [lia|]. rewrite N.add_0_r in Hb. rewrite Hb.
    cbn [of_option obind]. destruct (b =? 0) eqn:E; [lia|].
    rewrite (IH (a + 1) (n + 1) fuel); [f_equal; lia| |lia].
    split.
    + rewrite <- H0. f_equal. lia.
    + intros i Hi. destruct (Hne (i + 1)) as (c & Hc & Hc0); [lia|].
      exists c. split; [|exact Hc0]. rewrite <- Hc. f_equal. lia.
Qed.

Lemma strlen_ok m a len fuel :
  cstring_at m a len -> (N.to_nat len < fuel)%nat -> strlen fuel m a = Ok len.
Proof. intros H Hf. unfold strlen. rewrite (strlen_loop_ok m len); auto. Qed.

(** strcpy: forward copying of i characters done so far *)
Lemma strcpy_loop_ok m dest src len fuel : forall k i mi,
  cstring_at m src len -> mapped m dest (len + 1) -> dest <> src ->
  fwd_safe dest src (len + 1) -> i + N.of_nat k = len ->
  copied m dest src 0 i mi -> (k < fuel)%nat ->
  exists m', strcpy_loop fuel mi (dest + i) (src + i) = Ok m' /\
             copied m dest src 0 (len + 1) m'.
Proof.
  induction fuel as [|fuel IH]; intros k i mi Hcs Hd Hne Hf Hk Hc Hfu; [lia|].
  assert (Hms : mapped m src (len + 1)).
  { intros j Hj. destruct Hcs as [H0 Hn]. destruct (decide (j = len)) as [->|E]; [eauto|].
    destruct (Hn j) as (b & Hb & _); [lia|eauto]. }
  destruct (chunk m dest src 0 i mi i 1 (len + 1)) as (bs & m1 & Hl & Hst & Hc1);
    try assumption; try lia.
  { intros j Hj. unfold fwd_safe, disjoint_ranges in Hf. lia. }
  assert (Hstep : (b <~ load8 mi (src + i); store8 mi (dest + i) b) = Ok m1).
  { rewrite load8_store8_bytes, Hl. exact Hst. }
  cbn [strcpy_loop].
  destruct (load8 mi (src + i)) as [b| |]; cbn [obind] in Hstep; try discriminate.
  cbn [obind]. rewrite Hstep. cbn [obind].
  assert (Hc1' : copied m dest src 0 (i + 1) m1).
  { replace (i + 1) with (N.max i (i + N.of_nat 1)) by lia.
    replace 0 with (N.min 0 i) at 1 by lia. exact Hc1. }
  assert (Hrd : m1 !! (dest + i) = m !! (src + i)).
  { rewrite (Hc1' (dest + i)).
    destruct ((dest + 0 <=? dest + i) && (dest + i <? dest + (i + 1))) eqn:E; [|lia].
    f_equal. lia. }
  unfold load8. rewrite Hrd.
  destruct (decide (i = len)) as [->|Hil].
  - destruct Hcs as [H0 _]. rewrite H0. simpl. exists m1. split; [reflexivity|exact Hc1'].
  - destruct Hcs as [H0 Hn]. destruct (Hn i) as (c & Hcc & Hc0); [lia|].
    rewrite Hcc. cbn [of_option obind]. destruct (c =? 0) eqn:E; [lia|].
    destruct (IH (k - 1)%nat (i + 1) m1) as (m' & Hr & Hc'); try assumption; try lia.
    { split; assumption. }
    exists m'. split; [|exact Hc'].
    rewrite <- Hr. f_equal; lia.
Qed.

Lemma strcpy_ok m dest src len fuel :
  dest <> 0 -> src <> 0 -> cstring_at m src len -> mapped m dest (len + 1) ->
  fwd_safe dest src (len + 1) -> (N.to_nat len < fuel)%nat ->
  exists m', strcpy fuel m dest src = Ok (m', dest) /\ moved m dest src (len + 1) m'.
Proof.
  intros Hd0 Hs0 Hcs Hd Hf Hfu. unfold strcpy.
  destruct ((dest =? 0) || (src =? 0)) eqn:E0; [lia|].
  destruct (dest =? src) eqn:Eq.
  { apply N.eqb_eq in Eq as ->. exists m. split; [reflexivity|apply moved_same]. }
  destruct (strcpy_loop_ok m dest src len fuel (N.to_nat len) 0 m) as (m' & Hr & Hc);
    try assumption; try lia; [apply copied_refl|].
  rewrite !N.add_0_r in Hr. rewrite Hr. cbn [obind]. exists m'. split; [reflexivity|].
  apply copied_moved. exact Hc.
Qed.

(** The copy overlapping upwards by one byte: source "AAA" is smeared. *)
Lemma memcpy_overlap_up_bad :
  exists (m : mem) dest src n, dest <> 0 /\ src <> 0 /\ src < dest /\ mapped m src n /\ mapped m dest n /\
    forall m' r, memcpy m dest src n = Ok (m', r) -> ~ moved m dest src n m'.
Proof.
  exists (<[10:=1]> (<[11:=2]> (<[12:=3]> ∅))), 11, 10, 2.
  split; [lia|]. split; [lia|]. split; [lia|]. repeat split.
  - intros i Hi. assert (i = 0 \/ i = 1) as [->| ->] by lia; vm_compute; eauto.
  - intros i Hi. assert (i = 0 \/ i = 1) as [->| ->] by lia; vm_compute; eauto.
  - intros m' r H Hmv. specialize (Hmv 12). vm_compute in H. injection H as <- <-.
    vm_compute in Hmv. discriminate.
Qed.
