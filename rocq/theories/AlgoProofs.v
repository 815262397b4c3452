From stdpp Require Import list.
From Coq Require Import NArith ZArith Lia.
From Verif Require Import AlgoModel AlgoSpec.
Local Open Scope N_scope.

Lemma write_same m a v : write m a v a = v.
Proof. unfold write. rewrite N.eqb_refl. reflexivity. Qed.
Lemma write_other m a v b : b <> a -> write m a v b = m b.
Proof. unfold write. destruct (N.eqb_spec b a); congruence. Qed.

Lemma fill_ok n : forall m first va,
  exists m', fill (S n) m first (first + N.of_nat n) va = Some m' /\
  forall a, m' a = if (first <=? a) && (a <? first + N.of_nat n) then m va else m a.
Proof.
  induction n as [|n IH]; intros m first va.
  - exists m. cbn. rewrite N.add_0_r, N.eqb_refl. split; [reflexivity|]. intros a.
    destruct (N.leb_spec first a), (N.ltb_spec a first); cbn; try reflexivity; lia.
  - remember (S n) as k. cbn [fill]. destruct (N.eqb_spec first (first + N.of_nat k)); [lia|]. subst k.
    destruct (IH (write m first (m va)) (first + 1) va) as (m' & E & H).
    exists m'. split. { rewrite <- E. f_equal. lia. }
    intros a. rewrite H.
    assert (V : write m first (m va) va = m va) by (unfold write; destruct (va =? first); reflexivity).
    rewrite V. unfold write.
    destruct (N.leb_spec (first + 1) a), (N.leb_spec first a), (N.ltb_spec a (first + 1 + N.of_nat n)),
      (N.ltb_spec a (first + N.of_nat (S n))), (N.eqb_spec a first); cbn; try reflexivity; try lia.
Qed.
Lemma fill_backwards fuel : forall m first last va, last < first -> fill fuel m first last va = None.
Proof.
  induction fuel as [|f IH]; intros m first last va H; cbn; [reflexivity|].
  destruct (N.eqb_spec first last); [lia|]. apply IH. lia.
Qed.
Lemma fill_n_ok n : forall m first va,
  exists m', fill_n (S n) m first (N.of_nat n) va = Some m' /\
  forall a, m' a = if (first <=? a) && (a <? first + N.of_nat n) then m va else m a.
Proof.
  induction n as [|n IH]; intros m first va.
  - exists m. cbn. split; [reflexivity|]. intros a.
    destruct (N.leb_spec first a), (N.ltb_spec a (first + 0)); cbn; try reflexivity; lia.
  - remember (S n) as k. cbn [fill_n]. destruct (N.ltb_spec 0 (N.of_nat k)); [|lia]. subst k.
    replace (N.of_nat (S n) - 1) with (N.of_nat n) by lia.
    destruct (IH (write m first (m va)) (first + 1) va) as (m' & E & Hm).
    exists m'. split; [exact E|]. intros a. rewrite Hm.
    assert (V : write m first (m va) va = m va) by (unfold write; destruct (va =? first); reflexivity).
    rewrite V. unfold write.
    destruct (N.leb_spec (first + 1) a), (N.leb_spec first a), (N.ltb_spec a (first + 1 + N.of_nat n)),
      (N.ltb_spec a (first + N.of_nat (S n))), (N.eqb_spec a first); cbn; try reflexivity; try lia.
Qed.

Lemma min_least {T} (lt : T -> T -> bool) (x y : T) : (forall a b, lt a b = true -> lt b a = false) ->
  let r := pick (min_ref lt x y) x y in (r = x \/ r = y) /\ lt x r = false /\ lt y r = false.
Proof.
  intros A. unfold min_ref.
  assert (I : forall a, lt a a = false) by (intros a; destruct (lt a a) eqn:F; [pose proof (A _ _ F); congruence|reflexivity]).
  destruct (lt x y) eqn:E; cbn; auto.
Qed.
Lemma max_greatest {T} (gt : T -> T -> bool) (x y : T) : (forall a b, gt a b = true -> gt b a = false) ->
  let r := pick (max_ref gt x y) x y in (r = x \/ r = y) /\ gt x r = false /\ gt y r = false.
Proof. exact (min_least gt x y). Qed.
Lemma ties {T} (lt gt : T -> T -> bool) (x y : T) : lt x y = false -> gt x y = false ->
  pick (min_ref lt x y) x y = y /\ pick (max_ref gt x y) x y = y.
Proof. unfold min_ref, max_ref. intros -> ->. auto. Qed.

Ltac eqs := repeat match goal with |- context[?x =? ?y] => destruct (N.eqb_spec x y); try lia end.
Lemma swap_cells_spec m a b c : swap_cells m a b c = if c =? a then m b else if c =? b then m a else m c.
Proof. unfold swap_cells, write. eqs; subst; try reflexivity; congruence. Qed.
Lemma swap_impl_spec n : forall m a b, a + N.of_nat n <= b \/ b + N.of_nat n <= a ->
  forall c, swap_impl n m a b c = if inside n a c then m (b + (c - a)) else if inside n b c then m (a + (c - b)) else m c.
Proof.
  induction n as [|n IH]; intros m a b D c; cbn [swap_impl].
  - unfold inside. destruct (N.leb_spec a c), (N.ltb_spec c (a + N.of_nat 0)), (N.leb_spec b c), (N.ltb_spec c (b + N.of_nat 0)); cbn; try reflexivity; lia.
  - rewrite IH by lia. rewrite !swap_cells_spec. unfold inside.
    destruct (N.leb_spec (a + 1) c), (N.ltb_spec c (a + 1 + N.of_nat n)), (N.leb_spec a c), (N.ltb_spec c (a + N.of_nat (S n))),
      (N.leb_spec (b + 1) c), (N.ltb_spec c (b + 1 + N.of_nat n)), (N.leb_spec b c), (N.ltb_spec c (b + N.of_nat (S n)));
      cbn; try lia; eqs; first [reflexivity | f_equal; lia].
Qed.
Lemma copy_spec n : forall m to from, to + N.of_nat n <= from \/ from + N.of_nat n <= to ->
  forall c, copy_tuple n m to from c = if inside n to c then m (from + (c - to)) else m c.
Proof.
  induction n as [|n IH]; intros m t f D c; cbn [copy_tuple].
  - unfold inside. destruct (N.leb_spec t c), (N.ltb_spec c (t + N.of_nat 0)); cbn; try reflexivity; lia.
  - rewrite IH by lia. unfold write, inside.
    destruct (N.leb_spec (t + 1) c), (N.ltb_spec c (t + 1 + N.of_nat n)), (N.leb_spec t c), (N.ltb_spec c (t + N.of_nat (S n)));
      cbn; try lia; eqs; first [reflexivity | f_equal; lia].
Qed.
(** the temporary is apart from both; the target and the source are apart or the same *)
Lemma assign_spec n m tmp this t :
  (tmp + N.of_nat n <= this \/ this + N.of_nat n <= tmp) -> (tmp + N.of_nat n <= t \/ t + N.of_nat n <= tmp) ->
  (this + N.of_nat n <= t \/ t + N.of_nat n <= this \/ this = t) ->
  forall c, inside n tmp c = false -> assign_tuple n m tmp this t c = if inside n this c then m (t + (c - this)) else m c.
Proof.
  intros D1 D2 D3 c Hc. unfold assign_tuple. rewrite swap_impl_spec by exact D1. rewrite Hc.
  unfold inside in *. rewrite !copy_spec by exact D2. unfold inside.
  destruct (N.leb_spec this c), (N.ltb_spec c (this + N.of_nat n)); cbn [andb].
  - destruct (N.leb_spec tmp (tmp + (c - this))), (N.ltb_spec (tmp + (c - this)) (tmp + N.of_nat n)); cbn; try lia. f_equal. lia.
  - rewrite Hc. reflexivity.
  - rewrite Hc. reflexivity.
  - rewrite Hc. reflexivity.
Qed.
Lemma array_fill_ok n : forall m base va, exists m',
  array_fill (S n) m base (N.of_nat n) va = Some m' /\
  forall a, m' a = if (base <=? a) && (a <? base + N.of_nat n) then m va else m a.
Proof. exact (fill_ok n). Qed.

(** the standard's min returns the second only if it is less, its max only if it is greater *)
Lemma tie_exact {T} (lt gt : T -> T -> bool) (x y : T) : (forall a b, lt a b = true -> lt b a = false) -> (forall a b, gt a b = lt b a) ->
  (min_ref lt x y = negb (lt y x) <-> lt x y = true \/ lt y x = true) /\ (max_ref gt x y = negb (lt x y) <-> lt x y = true \/ lt y x = true).
Proof.
  intros A G. unfold min_ref, max_ref. rewrite G. pose proof (A x y). pose proof (A y x).
  destruct (lt x y), (lt y x); cbn; intuition congruence.
Qed.
