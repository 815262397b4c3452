(** Proofs about PrintfModel: numerals, emission of text, safety for every format. *)
From stdpp Require Import gmap.
From Coq Require Import ZArith Lia ZifyBool ZifyNat ZifyN SpecFloat.
From Verif Require Import Base StringModel StringSpec StringProofs PrintfModel PrintfSpec.
Local Open Scope N_scope.
Local Open Scope fres_scope.
Ltac Zify.zify_post_hook ::= Z.div_mod_to_equations.
#[global] Opaque N.pow Z.pow.

(** ** Numerals *)

Lemma read_number_app b u xs : forall ys a,
  read_number b u (xs ++ ys) a =
  match read_number b u xs a with Some a' => read_number b u ys a' | None => None end.
Proof.
  induction xs as [|x xs IH]; intros ys a; [reflexivity|]. simpl.
  destruct (digit_value u x); [|reflexivity]. destruct (_ <? b); [apply IH|reflexivity].
Qed.

Lemma digit_value_inj u c1 c2 v : digit_value u c1 = Some v -> digit_value u c2 = Some v -> c1 = c2.
Proof.
  unfold digit_value. destruct u;
  repeat match goal with |- context [if ?x then _ else _] => destruct x eqn:? end;
  intros [= <-]; intros [= ?]; lia.
Qed.

Lemma digit_value_0 u c : digit_value u c = Some 0 -> c = 48.
Proof.
  unfold digit_value. destruct u;
  repeat match goal with |- context [if ?x then _ else _] => destruct x eqn:? end;
  intros [= ?]; lia.
Qed.

Lemma read_number_snoc b u xs c a n :
  read_number b u (xs ++ [c]) a = Some n ->
  exists n' v, read_number b u xs a = Some n' /\ digit_value u c = Some v /\ v < b /\ n = n' * b + v.
Proof.
  rewrite read_number_app. destruct (read_number b u xs a) as [n'|]; [|discriminate].
  simpl. destruct (digit_value u c) as [v|]; [|discriminate].
  destruct (v <? b) eqn:E; [|discriminate]. intros [= <-]. exists n', v. repeat split; lia.
Qed.

Lemma numeral_snoc b u n xs c :
  xs <> [] -> numeral b u n (xs ++ [c]) ->
  exists v, numeral b u ((n - v) / b) xs /\ digit_value u c = Some v /\ v < b /\ v = n mod b /\ n / b = (n - v) / b.
Proof.
  intros Hne (Hr & _ & Hz).
  apply read_number_snoc in Hr as (n' & v & Hr & Hv & Hvb & ->).
  exists v. assert (Hn' : (n' * b + v - v) / b = n').
  { rewrite N.add_sub. apply N.div_mul. lia. }
  rewrite Hn'. repeat split; auto.
  - intros cs' ->. destruct cs' as [|y ys]; [reflexivity|].
    specialize (Hz ((y :: ys) ++ [c]) eq_refl). destruct ys; discriminate.
  - rewrite N.add_comm, N.mod_add by lia. symmetry. apply N.mod_small. exact Hvb.
  - rewrite N.add_comm, N.div_add by lia. rewrite N.div_small by lia. lia.
Qed.

Lemma numeral_0 b u cs : 2 <= b -> numeral b u 0 cs -> cs = [48].
Proof.
  intros Hb (Hr & Hne & Hz).
  assert (H : forall xs a, read_number b u xs a = Some 0 -> a = 0).
  { induction xs as [|x xs IH]; intros a; simpl; [intros [= ->]; reflexivity|].
    destruct (digit_value u x) as [v|]; [|discriminate]. destruct (v <? b); [|discriminate].
    intros H. apply IH in H. nia. }
  destruct cs as [|c cs]; [congruence|]. simpl in Hr.
  destruct (digit_value u c) as [v|] eqn:Ev; [|discriminate].
  destruct (v <? b) eqn:Evb; [|discriminate].
  apply H in Hr. assert (v = 0) as -> by lia. apply digit_value_0 in Ev as ->.
  rewrite (Hz cs eq_refl). reflexivity.
Qed.

Lemma numeral_unique b u : 2 <= b -> forall ds1 ds2 n,
  numeral b u n ds1 -> numeral b u n ds2 -> ds1 = ds2.
Proof.
  intros Hb. induction ds1 as [|c1 xs1 IH] using rev_ind; intros ds2 n H1 H2.
  { destruct H1 as (_ & H & _). congruence. }
  destruct ds2 as [|c2 xs2 _] using rev_ind.
  { destruct H2 as (_ & H & _). congruence. }
  destruct (decide (xs1 = [])) as [->|N1]; destruct (decide (xs2 = [])) as [->|N2].
  - destruct H1 as (H1 & _), H2 as (H2 & _).
    apply read_number_snoc in H1 as (n1 & v1 & [= <-] & Hv1 & Hb1 & ->).
    apply read_number_snoc in H2 as (n2 & v2 & [= <-] & Hv2 & Hb2 & E).
    assert (v1 = v2) as -> by lia. f_equal. f_equal. eapply digit_value_inj; eauto.
  - exfalso. pose proof H1 as (H1' & _).
    apply read_number_snoc in H1' as (n1 & v1 & [= <-] & Hv1 & Hb1 & ->).
    pose proof H2 as (_ & _ & Hz).
    apply numeral_snoc in H2 as (v & Hx & Hv & Hvb & Hvm & Hd); [|exact N2].
    rewrite <- Hd in Hx. rewrite N.mul_0_l, N.add_0_l, N.div_small in Hx by lia.
    apply numeral_0 in Hx; [|exact Hb]. subst xs2. specialize (Hz [c2] eq_refl). discriminate.
  - exfalso. pose proof H2 as (H2' & _).
    apply read_number_snoc in H2' as (n1 & v1 & [= <-] & Hv1 & Hb1 & ->).
    pose proof H1 as (_ & _ & Hz).
    apply numeral_snoc in H1 as (v & Hx & Hv & Hvb & Hvm & Hd); [|exact N1].
    rewrite <- Hd in Hx. rewrite N.mul_0_l, N.add_0_l, N.div_small in Hx by lia.
    apply numeral_0 in Hx; [|exact Hb]. subst xs1. specialize (Hz [c1] eq_refl). discriminate.
  - apply numeral_snoc in H1 as (v1 & Hx1 & Hv1 & Hb1 & Hm1 & Hd1); [|exact N1].
    apply numeral_snoc in H2 as (v2 & Hx2 & Hv2 & Hb2 & Hm2 & Hd2); [|exact N2].
    rewrite <- Hd1 in Hx1. rewrite <- Hd2 in Hx2.
    rewrite (IH xs2 _ Hx1 Hx2). f_equal. f_equal.
    apply (digit_value_inj u c1 c2 v1); [exact Hv1|]. rewrite Hm1, <- Hm2. exact Hv2.
Qed.

(** The numeral of a number from the numeral of its quotient. *)
Lemma numeral_extend b u n xs c :
  2 <= b -> n / b <> 0 -> numeral b u (n / b) xs -> digit_value u c = Some (n mod b) ->
  numeral b u n (xs ++ [c]).
Proof.
  intros Hb Hq (Hr & Hne & Hz) Hv. repeat split.
  - rewrite read_number_app, Hr. simpl. rewrite Hv.
    destruct (n mod b <? b) eqn:E.
    + f_equal. rewrite (N.div_mod n b) at 3 by lia. lia.
    + pose proof (N.mod_lt n b). lia.
  - destruct xs; discriminate.
  - intros cs' Hc. destruct xs as [|x xs]; [congruence|]. simpl in Hc. injection Hc as -> Hc.
    assert (xs = []) as -> by (apply Hz; reflexivity).
    cbn [read_number] in Hr. assert (digit_value u 48 = Some 0) as E by (destruct u; reflexivity).
    rewrite E in Hr. destruct (0 <? b); [|discriminate]. injection Hr as Hr. lia.
Qed.

Lemma numeral_single b u n c :
  n < b -> digit_value u c = Some n -> numeral b u n [c].
Proof.
  intros Hb Hv. repeat split; [|discriminate|].
  - simpl. rewrite Hv. destruct (n <? b) eqn:E; [f_equal; lia|lia].
  - intros cs' [= _ <-]. reflexivity.
Qed.

Lemma dec_digits_ok p : forall n acc,
  n < 10 ^ N.of_nat p -> (0 < p)%nat ->
  exists ds, dec_digits p n acc = FOk (ds ++ acc) /\ numeral 10 false n ds /\ (length ds <= p)%nat.
Proof.
  induction p as [|p IH]; intros n acc Hn Hp; [lia|].
  cbn [dec_digits].
  assert (Hv : digit_value false (n mod 10 + 48) = Some (n mod 10)).
  { unfold digit_value. pose proof (N.mod_lt n 10).
    destruct ((48 <=? n mod 10 + 48) && (n mod 10 + 48 <=? 57)) eqn:E; [f_equal; lia|lia]. }
  destruct (n / 10 =? 0) eqn:Eq.
  - exists [n mod 10 + 48]. split; [reflexivity|]. split; [|simpl; lia].
    assert (n mod 10 = n) as E by lia. rewrite E in *. apply numeral_single; [lia|exact Hv].
  - assert (Hn' : n / 10 < 10 ^ N.of_nat p).
    { rewrite Nat2N.inj_succ, N.pow_succ_r in Hn by lia.
      apply N.div_lt_upper_bound; lia. }
    destruct (decide (p = 0)%nat) as [->|Hp0].
    { change (10 ^ N.of_nat 0) with (10 ^ 0) in Hn'. rewrite N.pow_0_r in Hn'. lia. }
    destruct (IH (n / 10) ((n mod 10 + 48) :: acc)) as (ds & Hd & Hnum & Hl); [exact Hn'|lia|].
    exists (ds ++ [n mod 10 + 48]). split; [rewrite Hd, <- app_assoc; reflexivity|].
    split; [|rewrite app_length; simpl; lia].
    apply numeral_extend; try assumption; lia.
Qed.

Lemma hex_digits_ok table u p : forall n acc,
  (forall v, v < 16 -> exists c, table !! N.to_nat v = Some c /\ digit_value u c = Some v) ->
  n < 16 ^ N.of_nat p -> (0 < p)%nat ->
  exists ds, hex_digits table p n acc = FOk (ds ++ acc) /\ numeral 16 u n ds /\ (length ds <= p)%nat.
Proof.
  induction p as [|p IH]; intros n acc Ht Hn Hp; [lia|].
  cbn [hex_digits].
  change 15 with (N.ones 4). rewrite N.land_ones, N.shiftr_div_pow2.
  change (2 ^ 4) with 16.
  destruct (Ht (n mod 16)) as (c & Hc & Hv); [pose proof (N.mod_lt n 16); lia|].
  rewrite Hc.
  destruct (n / 16 =? 0) eqn:Eq.
  - exists [c]. split; [reflexivity|]. split; [|simpl; lia].
    assert (n mod 16 = n) as E by lia. rewrite E in *. apply numeral_single; [lia|exact Hv].
  - assert (Hn' : n / 16 < 16 ^ N.of_nat p).
    { rewrite Nat2N.inj_succ, N.pow_succ_r in Hn by lia.
      apply N.div_lt_upper_bound; lia. }
    destruct (decide (p = 0)%nat) as [->|Hp0].
    { change (16 ^ N.of_nat 0) with (16 ^ 0) in Hn'. rewrite N.pow_0_r in Hn'. lia. }
    destruct (IH (n / 16) (c :: acc)) as (ds & Hd & Hnum & Hl); [exact Ht|exact Hn'|lia|].
    exists (ds ++ [c]). split; [rewrite Hd, <- app_assoc; reflexivity|].
    split; [|rewrite app_length; simpl; lia].
    apply numeral_extend; try assumption; lia.
Qed.

Lemma hex_table_ok (u : bool) (v : N) :
  v < 16 -> exists c : N, (if u then hex_upper else hex_lower) !! N.to_nat v = Some c /\ digit_value u c = Some v.
Proof.
  intros Hv.
  assert (v = 0 \/ v = 1 \/ v = 2 \/ v = 3 \/ v = 4 \/ v = 5 \/ v = 6 \/ v = 7 \/
          v = 8 \/ v = 9 \/ v = 10 \/ v = 11 \/ v = 12 \/ v = 13 \/ v = 14 \/ v = 15) as H by lia.
  repeat destruct H as [->|H]; [..|subst v]; destruct u; eexists; (split; [reflexivity|reflexivity]).
Qed.

(** ** Emission of text *)

Definition room (bd : bounds) (b : N) : nat := N.to_nat (last bd - b).

(** [r] is the state after writing as much of [o] as fits, starting at [b]. *)
Definition emits (bd : bounds) (m : mem) (b : N) (o : list N) (r : fres (mem * N)) : Prop :=
  exists m', r = FOk (m', b + N.of_nat (length (take (room bd b) o))) /\
             text_written m b (take (room bd b) o) m'.

Lemma text_written_nil m a : text_written m a [] m.
Proof. intros x. simpl. destruct ((a <=? x) && (x <? a + 0)) eqn:E; [lia|reflexivity]. Qed.

Lemma text_written_app m a xs ys m1 m2 :
  text_written m a xs m1 -> text_written m1 (a + N.of_nat (length xs)) ys m2 ->
  text_written m a (xs ++ ys) m2.
Proof.
  intros H1 H2 x. rewrite H2, app_length.
  destruct ((a + N.of_nat (length xs) <=? x) && (x <? a + N.of_nat (length xs) + N.of_nat (length ys))) eqn:E.
  - destruct ((a <=? x) && (x <? a + N.of_nat (length xs + length ys))) eqn:E2; [|lia].
    rewrite lookup_app_r by lia. f_equal. lia.
  - rewrite H1.
    destruct ((a <=? x) && (x <? a + N.of_nat (length xs))) eqn:E3.
    + destruct ((a <=? x) && (x <? a + N.of_nat (length xs + length ys))) eqn:E2; [|lia].
      rewrite lookup_app_l by lia. reflexivity.
    + destruct ((a <=? x) && (x <? a + N.of_nat (length xs + length ys))) eqn:E2; [lia|reflexivity].
Qed.

Lemma emits_nil bd m b : emits bd m b [] (FOk (m, b)).
Proof.
  exists m. rewrite take_nil. simpl. rewrite N.add_0_r.
  split; [reflexivity|apply text_written_nil].
Qed.

Lemma emits_app bd m b o1 o2 r1 (k : mem * N -> fres (mem * N)) :
  b <= last bd ->
  emits bd m b o1 r1 ->
  (forall m1 b1, r1 = FOk (m1, b1) -> b <= b1 -> b1 <= last bd -> emits bd m1 b1 o2 (k (m1, b1))) ->
  emits bd m b (o1 ++ o2) (fbind r1 k).
Proof.
  intros Hb (m1 & -> & H1) Hk.
  destruct (Hk m1 (b + N.of_nat (length (take (room bd b) o1))) eq_refl) as (m2 & Hr & H2).
  { lia. }
  { rewrite take_length. unfold room. lia. }
  exists m2. simpl fbind. rewrite Hr.
  assert (E : take (room bd b) (o1 ++ o2) =
              take (room bd b) o1 ++ take (room bd (b + N.of_nat (length (take (room bd b) o1)))) o2).
  { destruct (Nat.le_gt_cases (room bd b) (length o1)) as [Hle|Hgt].
    - rewrite take_app_le by exact Hle.
      rewrite take_length, Nat.min_l by exact Hle.
      replace (room bd (b + N.of_nat (room bd b))) with 0%nat by (unfold room; lia).
      simpl. rewrite app_nil_r. reflexivity.
    - rewrite take_app_ge by lia. rewrite (take_ge o1) by lia. f_equal. f_equal. unfold room. lia. }
  rewrite E, app_length. split.
  - do 2 f_equal. lia.
  - eapply text_written_app; [exact H1|exact H2].
Qed.

(** A usable buffer: not null, not inverted, below 2^64. *)
Definition wfb (bd : bounds) : Prop := 0 < base bd /\ base bd <= last bd /\ last bd < 2 ^ 64.

Lemma put_ok bd m b c : base bd <= b -> b < last bd ->
  put bd m b c = FOk (<[b:=c]> m, b + 1).
Proof. intros H1 H2. unfold put. destruct ((base bd <=? b) && (b <? last bd)) eqn:E; [reflexivity|lia]. Qed.

Lemma put_emits bd m b c : base bd <= b -> b < last bd -> emits bd m b [c] (put bd m b c).
Proof.
  intros H1 H2. unfold put.
  destruct ((base bd <=? b) && (b <? last bd)) eqn:E; [|lia].
  assert (Ht : take (room bd b) [c] = [c]) by (apply take_ge; unfold room; simpl; lia).
  exists (<[b:=c]> m). rewrite Ht. split; [reflexivity|].
  intros x. simpl length.
  destruct ((b <=? x) && (x <? b + N.of_nat 1)) eqn:Ex.
  - assert (x = b) as -> by lia. rewrite lookup_insert. replace (N.to_nat (b - b)) with O by lia.
    reflexivity.
  - rewrite lookup_insert_ne by lia. reflexivity.
Qed.

Lemma puts_emits bd cs : forall m b,
  base bd <= b -> (length cs <= room bd b)%nat -> emits bd m b cs (puts bd m b cs).
Proof.
  induction cs as [|c cs IH]; intros m b Hb Hl; [apply emits_nil|].
  cbn [puts]. change (c :: cs) with ([c] ++ cs).
  simpl length in Hl. unfold room in Hl.
  apply emits_app; [lia| |].
  - apply put_emits; lia.
  - intros m1 b1 Hr H1 H2. apply IH; [lia|].
    rewrite put_ok in Hr by lia. injection Hr as <- <-.
    unfold room. lia.
Qed.

Lemma pad_emits bd width zero fuel : forall m b len,
  base bd <= b -> b <= last bd -> (room bd b <= fuel)%nat ->
  emits bd m b (replicate (N.to_nat (width - len)) zero) (pad fuel bd m b len width zero).
Proof.
  induction fuel as [|f IH]; intros m b len H1 H2 Hf; unfold room in *; cbn [pad].
  - destruct ((len <? width) && (b <? last bd)) eqn:E; [lia|].
    assert (take (room bd b) (replicate (N.to_nat (width - len)) zero) = []) as Ht.
    { replace (room bd b) with 0%nat by (unfold room; lia). reflexivity. }
    exists m. rewrite Ht. simpl. rewrite N.add_0_r. split; [reflexivity|apply text_written_nil].
  - destruct ((len <? width) && (b <? last bd)) eqn:E.
    + replace (N.to_nat (width - len)) with (S (N.to_nat (width - (len + 1)))) by lia.
      cbn [replicate]. change (zero :: ?l) with ([zero] ++ l).
      apply emits_app; [lia|apply put_emits; lia|].
      intros m1 b1 Hr Hb1 Hb2. apply IH; [lia|lia|].
      rewrite put_ok in Hr by lia. injection Hr as <- <-. lia.
    + assert (take (room bd b) (replicate (N.to_nat (width - len)) zero) = []) as Ht.
      { destruct (decide (width <= len)).
        - replace (N.to_nat (width - len)) with 0%nat by lia. apply take_nil.
        - replace (room bd b) with 0%nat by (unfold room; lia). reflexivity. }
      exists m. rewrite Ht. simpl. rewrite N.add_0_r. split; [reflexivity|apply text_written_nil].
Qed.

Lemma u64z_small z : (0 <= z < 2 ^ 64)%Z -> u64z z = Z.to_N z.
Proof. intros H. unfold u64z. rewrite Z.mod_small by exact H. reflexivity. Qed.

Lemma pow64_Z : (2 ^ 64)%Z = Z.of_N (2 ^ 64).
Proof. reflexivity. Qed.

Lemma u64z_diff bd b : wfb bd -> b <= last bd ->
  u64z (Z.of_N (last bd) - Z.of_N b) = last bd - b.
Proof.
  intros (H1 & H2 & H3) Hb. rewrite u64z_small; [lia|]. rewrite pow64_Z. lia.
Qed.

Lemma copy_digits_emits bd m b ds :
  wfb bd -> base bd <= b -> b <= last bd -> emits bd m b ds (copy_digits bd m b ds).
Proof.
  intros Hw H1 H2. unfold copy_digits. rewrite u64z_diff by assumption.
  destruct Hw as (Hb0 & Hbl & Hl).
  set (len := if last bd <? b + N.of_nat (length ds) then last bd - b else N.of_nat (length ds)).
  assert (Hlen : N.to_nat len = Nat.min (room bd b) (length ds)).
  { unfold len, room. destruct (last bd <? b + N.of_nat (length ds)) eqn:E; lia. }
  assert (Ht : take (room bd b) ds = take (N.to_nat len) ds).
  { rewrite Hlen. destruct (Nat.le_gt_cases (room bd b) (length ds)).
    - rewrite Nat.min_l by lia. reflexivity.
    - rewrite Nat.min_r by lia. rewrite !take_ge by lia. reflexivity. }
  destruct ((b =? 0) || (len =? 0)) eqn:E0.
  - exists m. rewrite Ht. replace (N.to_nat len) with 0%nat by lia. simpl. rewrite N.add_0_r.
    split; [reflexivity|apply text_written_nil].
  - destruct (N.of_nat (length ds) <? len) eqn:E1; [lia|].
    destruct (puts_emits bd (take (N.to_nat len) ds) m b) as (m' & Hp & Htw); [lia| |].
    { rewrite take_length. lia. }
    exists m'. rewrite Hp, Ht.
    rewrite (take_ge (take (N.to_nat len) ds)) in * by (rewrite take_length; lia).
    split; [reflexivity|exact Htw].
Qed.

(** The numeral the conversion produces. *)
Definition num_base (h : N) : N := if h =? 0 then 10 else 16.
Definition num_upper (h : N) : bool := if h =? 0 then false else if h =? 1 then false else true.

Lemma digits_ok h n : n < 2 ^ 64 ->
  exists ds, (if h =? 0 then dec_digits 20 n []
              else if h =? 1 then hex_digits hex_lower 20 n []
              else hex_digits hex_upper 20 n []) = FOk ds /\
             numeral (num_base h) (num_upper h) n ds /\ (length ds <= 20)%nat.
Proof.
  intros Hn. unfold num_base, num_upper.
  assert (Hd : 2 ^ 64 <= 10 ^ N.of_nat 20) by (vm_compute; discriminate).
  assert (Hh : 2 ^ 64 <= 16 ^ N.of_nat 20) by (vm_compute; discriminate).
  destruct (h =? 0) eqn:E0; [|destruct (h =? 1) eqn:E1].
  - destruct (dec_digits_ok 20 n []) as (ds & H1 & H2 & H3); [lia|lia|].
    exists ds. rewrite app_nil_r in H1. auto.
  - destruct (hex_digits_ok hex_lower false 20 n []) as (ds & H1 & H2 & H3);
      [intros v Hv; exact (hex_table_ok false v Hv)|lia|lia|].
    exists ds. rewrite app_nil_r in H1. auto.
  - destruct (hex_digits_ok hex_upper true 20 n []) as (ds & H1 & H2 & H3);
      [intros v Hv; exact (hex_table_ok true v Hv)|lia|lia|].
    exists ds. rewrite app_nil_r in H1. auto.
Qed.

Lemma sprintf_num_emits bd m b n zero h width :
  wfb bd -> base bd <= b -> b <= last bd -> n < 2 ^ 64 ->
  exists ds, numeral (num_base h) (num_upper h) n ds /\ (length ds <= 20)%nat /\
             emits bd m b (padded zero width ds) (sprintf_num bd m b n zero h width).
Proof.
  intros Hw H1 H2 Hn. destruct (digits_ok h n Hn) as (ds & Hd & Hnum & Hl).
  exists ds. split; [exact Hnum|]. split; [exact Hl|].
  unfold sprintf_num. rewrite Hd. cbn [fbind]. unfold padded.
  apply emits_app; [exact H2| |].
  - apply pad_emits; [exact H1|exact H2|reflexivity].
  - intros m1 b1 _ Hb1 Hb2. apply copy_digits_emits; [exact Hw|lia|exact Hb2].
Qed.

(** ** Safety for every format *)

(** No store outside the buffer, no loop without end; memory outside the buffer unchanged. *)
Definition safe (bd : bounds) (m : mem) (b : N) (r : fres (mem * N)) : Prop :=
  match r with
  | FOk (m', b') => b <= b' /\ b' <= last bd /\ same_outside m m' (base bd) (last bd)
  | FErr e => e <> Wild /\ e <> NoFuel
  end.

Lemma same_outside_refl m a b : same_outside m m a b.
Proof. intros x _. reflexivity. Qed.
Lemma same_outside_trans m1 m2 m3 a b :
  same_outside m1 m2 a b -> same_outside m2 m3 a b -> same_outside m1 m3 a b.
Proof. intros H1 H2 x Hx. rewrite H1 by exact Hx. apply H2. exact Hx. Qed.

Lemma safe_ret bd m b : b <= last bd -> safe bd m b (FOk (m, b)).
Proof. intros H. split; [lia|]. split; [exact H|apply same_outside_refl]. Qed.

Lemma text_written_outside bd m b o m' :
  base bd <= b -> b + N.of_nat (length o) <= last bd -> text_written m b o m' ->
  same_outside m m' (base bd) (last bd).
Proof.
  intros H1 H2 Ht x Hx. rewrite Ht.
  destruct ((b <=? x) && (x <? b + N.of_nat (length o))) eqn:E; [lia|reflexivity].
Qed.

Lemma emits_safe bd m b o r :
  base bd <= b -> b <= last bd -> emits bd m b o r -> safe bd m b r.
Proof.
  intros H1 H2 (m' & -> & Ht). simpl.
  assert (b + N.of_nat (length (take (room bd b) o)) <= last bd).
  { rewrite take_length. unfold room. lia. }
  split; [lia|]. split; [assumption|]. eapply text_written_outside; eauto.
Qed.

Lemma safe_bind bd m b r (k : mem * N -> fres (mem * N)) :
  safe bd m b r ->
  (forall m1 b1, b <= b1 -> b1 <= last bd -> safe bd m1 b1 (k (m1, b1))) ->
  safe bd m b (fbind r k).
Proof.
  intros Hr Hk. destruct r as [[m1 b1]|e]; [|exact Hr].
  destruct Hr as (H1 & H2 & H3). simpl. specialize (Hk m1 b1 H1 H2).
  destruct (k (m1, b1)) as [[m2 b2]|e]; [|exact Hk].
  destruct Hk as (H4 & H5 & H6). split; [lia|]. split; [assumption|].
  eapply same_outside_trans; eauto.
Qed.

Lemma safe_seq bd m b m1 b1 r :
  safe bd m b (FOk (m1, b1)) -> safe bd m1 b1 r -> safe bd m b r.
Proof.
  intros (H1 & H2 & H3) Hr. destruct r as [[m2 b2]|e]; [|exact Hr].
  destruct Hr as (H4 & H5 & H6). split; [lia|]. split; [lia|]. eapply same_outside_trans; eauto.
Qed.

Lemma put_safe bd m b c : base bd <= b -> b < last bd -> safe bd m b (put bd m b c).
Proof. intros. eapply emits_safe; [eassumption|lia|]. apply put_emits; assumption. Qed.

Lemma sprintf_num_safe bd m b n zero h width :
  wfb bd -> base bd <= b -> b <= last bd -> n < 2 ^ 64 ->
  safe bd m b (sprintf_num bd m b n zero h width).
Proof.
  intros Hw H1 H2 Hn.
  destruct (sprintf_num_emits bd m b n zero h width Hw H1 H2 Hn) as (ds & _ & _ & He).
  eapply emits_safe; eauto.
Qed.




Lemma copy_cstr_safe bd fuel : forall m b p,
  base bd <= b -> b <= last bd -> (room bd b <= fuel)%nat ->
  safe bd m b (copy_cstr fuel bd m b p).
Proof.
  induction fuel as [|f IH]; intros m b p H1 H2 Hf; cbn [copy_cstr]; unfold room in *;
    (destruct (m !! p) as [c|]; [|split; discriminate]).
  - destruct (negb (c =? 0) && (b <? last bd)) eqn:E; [lia|].
    apply safe_ret; lia.
  - destruct (negb (c =? 0) && (b <? last bd)) eqn:E.
    + rewrite put_ok by lia. cbn [fbind].
      pose proof (IH (<[b:=c]> m) (b + 1) (p + 1)) as Hs.
      destruct (copy_cstr f bd (<[b:=c]> m) (b + 1) (p + 1)) as [[m2 b2]|e]; [|apply Hs; lia].
      destruct Hs as (H3 & H4 & H5); [lia|lia|lia|].
      split; [lia|]. split; [lia|]. intros x Hx. rewrite <- H5 by exact Hx.
      rewrite lookup_insert_ne by lia. reflexivity.
    + apply safe_ret; lia.
Qed.

(** memcpy on arbitrary memory: it may fail on unmapped bytes, but it writes only its target. *)
Lemma store8_frame m a v m' : store8 m a v = Ok m' -> forall x, x <> a -> m' !! x = m !! x.
Proof.
  unfold store8. destruct (m !! a); [|discriminate]. intros [= <-] x Hx.
  apply lookup_insert_ne. congruence.
Qed.

Lemma store_bytes_frame bs : forall m a m', store_bytes m a bs = Ok m' ->
  forall x, x < a \/ a + N.of_nat (length bs) <= x -> m' !! x = m !! x.
Proof.
  induction bs as [|c bs IH]; intros m a m' H x Hx; cbn [store_bytes] in H.
  - injection H as <-. reflexivity.
  - destruct (store8 m a c) as [m1| |] eqn:E; try discriminate. cbn [obind] in H.
    rewrite (IH _ _ _ H) by (simpl length in *; lia). apply (store8_frame _ _ _ _ E).
    simpl length in *. lia.
Qed.

Lemma load_bytes_len m w : forall a bs, load_bytes m a w = Ok bs -> length bs = w.
Proof.
  induction w as [|w IH]; intros a bs H; cbn [load_bytes] in H.
  - injection H as <-. reflexivity.
  - destruct (load8 m a); try discriminate. cbn [obind] in H.
    destruct (load_bytes m (a + 1) w) eqn:E; try discriminate. cbn [obind] in H.
    injection H as <-. simpl. f_equal. eapply IH; eauto.
Qed.

Lemma memcpy_words_frame k : forall i m d s,
  match memcpy_words k i m d s with
  | Ok m' => forall x, x < d \/ d + 8 * (i + N.of_nat k) <= x -> m' !! x = m !! x
  | UB => True
  | Base.Fuel => False
  end.
Proof.
  induction k as [|k IH]; intros i m d s; cbn [memcpy_words]; [auto|].
  unfold load64, store64.
  destruct (load_bytes m (s + 8 * i) 8) as [w| |] eqn:El; cbn [obind]; [|exact I|].
  2:{ exfalso. revert El. generalize (s + 8 * i). generalize 8%nat. intros w.
      induction w as [|w IHw]; intros a H; cbn [load_bytes] in H; [discriminate|].
      unfold load8 in H. destruct (m !! a); cbn [of_option obind] in H; [|discriminate].
      destruct (load_bytes m (a + 1) w) eqn:E; cbn [obind] in H; try discriminate. eapply IHw; eauto. }
  pose proof (load_bytes_len _ _ _ _ El) as Hlen.
  destruct (store_bytes m (d + 8 * i) w) as [m1| |] eqn:Es; cbn [obind]; [|exact I|].
  2:{ exfalso. clear El Hlen IH. revert m Es. generalize (d + 8 * i). induction w as [|c w IHw]; intros a m H;
      cbn [store_bytes] in H; [discriminate|].
      unfold store8 in H. destruct (m !! a); cbn [obind] in H; [|discriminate]. eapply IHw; eauto. }
  specialize (IH (i + 1) m1 d s). destruct (memcpy_words k (i + 1) m1 d s); auto.
  intros x Hx. rewrite IH by lia. eapply store_bytes_frame; eauto. rewrite Hlen. lia.
Qed.

Lemma memcpy_tail_frame k : forall i m d s,
  match memcpy_tail k i m d s with
  | Ok m' => forall x, x < d \/ d + i + N.of_nat k <= x -> m' !! x = m !! x
  | UB => True
  | Base.Fuel => False
  end.
Proof.
  induction k as [|k IH]; intros i m d s; cbn [memcpy_tail]; [auto|].
  unfold load8. destruct (m !! (s + i)) as [c|]; cbn [of_option obind]; [|exact I].
  destruct (store8 m (d + i) c) as [m1| |] eqn:Es; cbn [obind]; [|exact I|].
  2:{ unfold store8 in Es. destruct (m !! (d + i)); discriminate. }
  specialize (IH (i + 1) m1 d s). destruct (memcpy_tail k (i + 1) m1 d s); auto.
  intros x Hx. rewrite IH by lia. eapply store8_frame; eauto. lia.
Qed.

Lemma memcpy_frame m d s n :
  match memcpy m d s n with
  | Ok (m', r) => (r = d \/ r = d + n) /\ (forall x, x < d \/ d + n <= x -> m' !! x = m !! x)
  | UB => True
  | Base.Fuel => False
  end.
Proof.
  unfold memcpy.
  destruct ((d =? 0) || (s =? 0) || (n =? 0)); [auto|].
  destruct (d =? s); [auto|].
  destruct (8 <=? n) eqn:E8; cbn [obind].
  - pose proof (memcpy_words_frame (N.to_nat (n / 8)) 0 m d s) as H1.
    destruct (memcpy_words (N.to_nat (n / 8)) 0 m d s) as [m1| |]; cbn [obind]; auto.
    pose proof (memcpy_tail_frame (N.to_nat (n - n / 8 * 8)) 0 m1 (d + n / 8 * 8) (s + n / 8 * 8)) as H2.
    destruct (memcpy_tail _ 0 m1 (d + n / 8 * 8) (s + n / 8 * 8)) as [m2| |]; cbn [obind]; auto.
    split; [right; lia|]. intros x Hx. rewrite H2 by lia. apply H1. lia.
  - pose proof (memcpy_tail_frame (N.to_nat n) 0 m d s) as H2.
    destruct (memcpy_tail (N.to_nat n) 0 m d s) as [m2| |]; cbn [obind]; auto.
    split; [right; lia|]. intros x Hx. apply H2. lia.
Qed.

Lemma copy_counted_safe bd m b p n :
  wfb bd -> base bd <= b -> b <= last bd -> safe bd m b (copy_counted bd m b p n).
Proof.
  intros Hw H1 H2. unfold copy_counted. rewrite u64z_diff by assumption.
  set (len := if last bd - b <? n then last bd - b else n).
  assert (len <= last bd - b) by (unfold len; destruct (last bd - b <? n) eqn:E; lia).
  destruct (negb _ && negb _) eqn:E; [lia|].
  pose proof (memcpy_frame m b p len) as Hf.
  destruct (memcpy m b p len) as [[m' r]| |]; [|split; discriminate|contradiction].
  destruct Hf as [Hr Hx]. split; [lia|]. split; [lia|].
  intros x Hxx. symmetry. apply Hx. lia.
Qed.

Lemma u64z_lt z : u64z z < 2 ^ 64.
Proof.
  unfold u64z. pose proof (Z.mod_pos_bound z (2 ^ 64)) as H.
  assert (0 < 2 ^ 64)%Z by reflexivity. rewrite pow64_Z in *. lia.
Qed.
Lemma u64_lt n : u64 n < 2 ^ 64.
Proof. apply N.mod_lt. discriminate. Qed.
Lemma u32_lt n : u32 n < 2 ^ 64.
Proof. unfold u32. assert (n mod 2 ^ 32 < 2 ^ 32) by (apply N.mod_lt; discriminate).
  assert (2 ^ 32 < 2 ^ 64) by reflexivity. lia. Qed.

Lemma conv_int_safe bd m b zero width sg hx i u :
  wfb bd -> base bd <= b -> b < last bd -> u < 2 ^ 64 ->
  safe bd m b (conv_int bd m b zero width sg hx i u).
Proof.
  intros Hw H1 H2 Hu. unfold conv_int. destruct sg; cbn [fbind].
  - destruct (i <? 0)%Z; cbn [fbind].
    + rewrite put_ok by lia. cbn [fbind].
      destruct (i =? - 2 ^ 63)%Z; [split; discriminate|]. cbn [fbind].
      pose proof (put_safe bd m b 45 H1 H2) as Hp. rewrite put_ok in Hp by lia.
      eapply safe_seq; [exact Hp|].
      apply sprintf_num_safe; [exact Hw|lia|lia|apply u64z_lt].
    + apply sprintf_num_safe; [exact Hw|exact H1|lia|apply u64z_lt].
  - apply sprintf_num_safe; [exact Hw|exact H1|lia|exact Hu].
Qed.

Lemma dbl_to_i64_err f e : dbl_to_i64 f = FErr e -> e = BadArg.
Proof. unfold dbl_to_i64. destruct (dbl_trunc f); [destruct (_ && _)%Z|]; congruence. Qed.
Lemma dbl_to_u64_spec f :
  match dbl_to_u64 f with FOk n => n < 2 ^ 64 | FErr e => e = BadArg end.
Proof.
  unfold dbl_to_u64. destruct (dbl_trunc f); [|reflexivity].
  destruct ((0 <=? z) && (z <? 2 ^ 64))%Z eqn:E; [|reflexivity].
  rewrite pow64_Z in E. lia.
Qed.

Lemma conv_float_safe bd m b zero width fw f :
  wfb bd -> base bd <= b -> b < last bd ->
  safe bd m b (conv_float bd m b zero width fw f).
Proof.
  intros Hw H1 H2. unfold conv_float.
  assert (Hstart : exists m1 b1 f1,
    (if dbl_lt0 f then '(m1, b1) <~ put bd m b 45; FOk (m1, b1, SFopp f) else FOk (m, b, f))
      = FOk (m1, b1, f1) /\ b <= b1 /\ b1 <= last bd /\ same_outside m m1 (base bd) (last bd)).
  { destruct (dbl_lt0 f).
    - pose proof (put_safe bd m b 45 H1 H2) as Hp. rewrite put_ok in * by lia. cbn [fbind].
      destruct Hp as (Ha & Hb & Hc). eauto 10.
    - exists m, b, f. split; [reflexivity|]. split; [lia|]. split; [lia|]. apply same_outside_refl. }
  destruct Hstart as (m1 & b1 & f1 & -> & Hb1 & Hb2 & Ho). cbn [fbind].
  destruct (dbl_to_i64 f1) as [i|e] eqn:Ei; cbn [fbind].
  2:{ apply dbl_to_i64_err in Ei as ->. split; discriminate. }
  assert (Hk : forall r, safe bd m1 b1 r -> safe bd m b r).
  { intros r Hr. destruct r as [[m2 b2]|e]; [|exact Hr].
    destruct Hr as (Ha & Hb & Hc). split; [lia|]. split; [lia|]. eapply same_outside_trans; eauto. }
  apply Hk. destruct (fw =? 0) eqn:Ef; cbn [fbind].
  - pose proof (sprintf_num_safe bd m1 b1 (u64z i) zero 0 width Hw) as Hs.
    apply safe_bind; [apply Hs; (lia || apply u64z_lt)|].
    intros m2 b2 Ha Hb. apply safe_ret; lia.
  - match goal with |- context [dbl_to_u64 ?x] => pose proof (dbl_to_u64_spec x) as Hd;
      destruct (dbl_to_u64 x) as [fr|e] end; cbn [fbind].
    2:{ subst e. split; discriminate. }
    assert (Hpair : exists ui1 frac,
      (if fr =? frac_scale fw then FOk (u64 (u64z i + 1), 0) else FOk (u64z i, fr)) = FOk (ui1, frac)
      /\ ui1 < 2 ^ 64 /\ frac < 2 ^ 64).
    { destruct (fr =? frac_scale fw).
      - exists (u64 (u64z i + 1)), 0. split; [reflexivity|]. split; [apply u64_lt|reflexivity].
      - exists (u64z i), fr. split; [reflexivity|]. split; [apply u64z_lt|exact Hd]. }
    destruct Hpair as (ui1 & frac & -> & Hu & Hfr). cbn [fbind].
    apply safe_bind; [apply sprintf_num_safe; [exact Hw|lia|lia|exact Hu]|].
    intros m2 b2 Ha Hb.
    destruct (b2 <? last bd) eqn:E.
    + apply safe_bind; [apply put_safe; lia|].
      intros m3 b3 Hc Hd'. apply sprintf_num_safe; [exact Hw|lia|exact Hd'|exact Hfr].
    + cbn [fbind]. apply sprintf_num_safe; [exact Hw|lia|exact Hb|exact Hfr].
Qed.
