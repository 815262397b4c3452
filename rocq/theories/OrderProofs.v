(** Proofs about OrderModel. *)
From stdpp Require Import gmap.
From Coq Require Import ZArith Lia ZifyBool ZifyNat ZifyN.
From Verif Require Import Base OrderModel OrderSpec.
Local Open Scope Z_scope.
Ltac Zify.zify_post_hook ::= Z.div_mod_to_equations.

(** ** pair *)

Lemma pair_lt_not_lex :
  exists x y : Z * Z, pair_lt Z.ltb Z.ltb x y = true /\ pair_lt Z.ltb Z.ltb y x = true /\
                      pair_le Z.ltb Z.eqb Z.ltb Z.eqb x y = true /\ pair_gt Z.ltb Z.ltb x y = true /\
                      ~ lex Z.ltb Z.ltb y x.
Proof. exists (1, 2), (2, 1). repeat split; try reflexivity. unfold lex. cbn. lia. Qed.

Lemma pair_lt_not_swo : ~ strict_weak (pair_lt Z.ltb Z.ltb).
Proof. intros (_ & H & _). specialize (H (1, 2) (2, 1) eq_refl). discriminate. Qed.

Lemma pair_lt_lex {A B} (lt1 : A -> A -> bool) (lt2 : B -> B -> bool) x y :
  ~ (lt1 y.1 x.1 = true /\ lt2 x.2 y.2 = true) ->
  (pair_lt lt1 lt2 x y = true <-> lex lt1 lt2 x y).
Proof.
  unfold pair_lt, lex. intros H. destruct (lt1 x.1 y.1) eqn:E1; [split; auto|].
  destruct (lt1 y.1 x.1) eqn:E2; destruct (lt2 x.2 y.2) eqn:E3; intuition congruence.
Qed.

Lemma pair_lt_lex_exact {A B} (lt1 : A -> A -> bool) (lt2 : B -> B -> bool) x y :
  (forall a b, lt1 a b = true -> lt1 b a = false) ->
  ((pair_lt lt1 lt2 x y = true <-> lex lt1 lt2 x y) <-> ~ (lt1 y.1 x.1 = true /\ lt2 x.2 y.2 = true)).
Proof.
  intros As. split; [|apply pair_lt_lex]. unfold pair_lt, lex. intros H [H1 H2]. rewrite (As _ _ H1) in H.
  destruct H as [H _]. destruct (H H2) as [E|[E _]]; congruence.
Qed.
Lemma pair_lt_swo_exact {A B} (lt1 : A -> A -> bool) (lt2 : B -> B -> bool) : strict_weak lt1 -> strict_weak lt2 ->
  (strict_weak (pair_lt lt1 lt2) <-> ~ exists a a' b b', lt1 a a' = true /\ lt2 b b' = true).
Proof.
  intros (I1 & A1 & T1 & W1) (I2 & A2 & T2 & W2). split.
  - intros (_ & H & _) (a & a' & b & b' & E1 & E2). specialize (H (a, b') (a', b)). unfold pair_lt in H. cbn in H.
    rewrite E1, (A1 _ _ E1), E2 in H. discriminate (H eq_refl).
  - intros N. assert (N1 : forall a a', lt1 a a' = true -> forall b b', lt2 b b' = false).
    { intros a a' E b b'. destruct (lt2 b b') eqn:E2; [|done]. destruct N. exists a, a', b, b'. done. }
    assert (N2 : forall b b', lt2 b b' = true -> forall a a', lt1 a a' = false).
    { intros b b' E a a'. destruct (lt1 a a') eqn:E2; [|done]. destruct N. exists a, a', b, b'. done. }
    assert (F : forall x y, pair_lt lt1 lt2 x y = false -> lt1 x.1 y.1 = false /\ lt2 x.2 y.2 = false).
    { unfold pair_lt. intros x y. destruct (lt1 x.1 y.1); [discriminate|auto]. }
    split; [|split; [|split]].
    + intros x. unfold pair_lt. rewrite I1. apply I2.
    + intros x y. unfold pair_lt. destruct (lt1 x.1 y.1) eqn:E; intros H.
      * rewrite (A1 _ _ E). exact (N1 _ _ E _ _).
      * rewrite (N2 _ _ H). exact (A2 _ _ H).
    + intros x y z. unfold pair_lt. destruct (lt1 x.1 y.1) eqn:E; intros H.
      * destruct (lt1 y.1 z.1) eqn:E'; intros H'; [by rewrite (T1 _ _ _ E E')|]. rewrite (N1 _ _ E) in H'. discriminate.
      * rewrite !(N2 _ _ H). exact (T2 _ _ _ H).
    + intros x y z H1 H2 H3 H4. apply F in H1 as [? ?], H2 as [? ?], H3 as [? ?], H4 as [? ?].
      destruct (W1 x.1 y.1 z.1) as [E1 E2]; [done..|]. destruct (W2 x.2 y.2 z.2) as [E3 E4]; [done..|].
      unfold pair_lt. rewrite E1, E2. done.
Qed.

Lemma pair_consistent {A B} (lt1 eq1 : A -> A -> bool) (lt2 eq2 : B -> B -> bool) x y :
  (forall a b, eq1 a b = true <-> a = b) -> (forall a b, eq2 a b = true <-> a = b) ->
  (pair_eq eq1 eq2 x y = true <-> x = y) /\
  (pair_ne eq1 eq2 x y = true <-> x <> y) /\
  (pair_le lt1 eq1 lt2 eq2 x y = true <-> pair_lt lt1 lt2 x y = true \/ x = y) /\
  pair_gt lt1 lt2 x y = pair_lt lt1 lt2 y x /\
  (pair_ge lt1 lt2 x y = true <-> pair_lt lt1 lt2 x y <> true).
Proof.
  intros H1 H2. assert (He : pair_eq eq1 eq2 x y = true <-> x = y).
  { unfold pair_eq. rewrite andb_true_iff, H1, H2. destruct x, y. cbn. split; [intros [-> ->]|intros [= -> ->]]; auto. }
  split; [exact He|]. split.
  { unfold pair_ne. rewrite <- He. destruct (pair_eq _ _ _ _); cbn; intuition congruence. }
  split.
  { unfold pair_le. rewrite orb_true_iff, He. reflexivity. }
  split; [reflexivity|].
  unfold pair_ge. destruct (pair_lt _ _ x y); cbn; intuition congruence.
Qed.

(** ** string_view *)

Lemma lex_less_irrefl s : ~ lex_less s s.
Proof. induction s as [|c s IH]; intros H; inversion H; subst; [lia|auto]. Qed.
Lemma lex_less_trans s t u : lex_less s t -> lex_less t u -> lex_less s u.
Proof.
  intros H. revert u. induction H; intros u Hu; inversion Hu; subst;
    try (constructor; (lia || assumption)).
  - apply LL_tail. auto.
Qed.
Lemma lex_less_total s : forall t, length s = length t -> lex_less s t \/ s = t \/ lex_less t s.
Proof.
  induction s as [|c s IH]; intros [|d t] H; try discriminate; [auto|].
  injection H as H. destruct (Ztrichotomy c d) as [Hc|[->|Hc]].
  - left. apply LL_head. exact Hc.
  - destruct (IH t H) as [Hi|[->|Hi]]; [left|right; left; reflexivity|right; right]; try (apply LL_tail; exact Hi).
  - right. right. apply LL_head. lia.
Qed.

Lemma shortlex_irrefl s : ~ shortlex_less s s.
Proof. intros [H|[_ H]]; [lia|]. eapply lex_less_irrefl; eassumption. Qed.
Lemma shortlex_trans s t u : shortlex_less s t -> shortlex_less t u -> shortlex_less s u.
Proof.
  intros [H1|[E1 H1]] [H2|[E2 H2]]; try (left; lia).
  right. split; [lia|]. eapply lex_less_trans; eassumption.
Qed.
Lemma shortlex_total s t : shortlex_less s t \/ s = t \/ shortlex_less t s.
Proof.
  destruct (lt_eq_lt_dec (length s) (length t)) as [[H|H]|H].
  - left. left. exact H.
  - destruct (lex_less_total s t H) as [Hi|[->|Hi]]; [left|right; left; reflexivity|right; right]; right; auto.
  - right. right. left. exact H.
Qed.

Lemma compare_loop_ok m x y : forall s t i,
  length s = length t ->
  (forall j c, s !! j = Some c -> m !! (sv_data x + i + N.of_nat j)%N = Some c) ->
  (forall j c, t !! j = Some c -> m !! (sv_data y + i + N.of_nat j)%N = Some c) ->
  exists r, compare_loop (length s) i m x y = Ok r /\
    ((r = 0 /\ s = t) \/ (r = -1 /\ lex_less s t) \/ (r = 1 /\ lex_less t s)).
Proof.
  induction s as [|c s IH]; intros [|d t] i Hl Hs Ht; try discriminate.
  - exists 0. split; [reflexivity|]. auto.
  - cbn [length compare_loop]. unfold sv_at.
    pose proof (Hs 0%nat c eq_refl) as H1. pose proof (Ht 0%nat d eq_refl) as H2.
    rewrite N.add_0_r in H1, H2. rewrite H1, H2. cbn [of_option obind].
    destruct (c <? d) eqn:E1.
    { exists (-1). split; [reflexivity|]. right; left. split; [reflexivity|]. apply LL_head. lia. }
    destruct (d <? c) eqn:E2.
    { exists 1. split; [reflexivity|]. right; right. split; [reflexivity|]. apply LL_head. lia. }
    assert (c = d) as -> by lia. injection Hl as Hl.
    destruct (IH t (i + 1)%N Hl) as (r & Hr & Hc).
    + intros j c' Hj. rewrite <- (Hs (S j) c' Hj). f_equal. lia.
    + intros j c' Hj. rewrite <- (Ht (S j) c' Hj). f_equal. lia.
    + exists r. split; [exact Hr|]. destruct Hc as [[-> ->]|[[-> H]|[-> H]]]; [auto|..].
      * right; left. split; [reflexivity|]. apply LL_tail. exact H.
      * right; right. split; [reflexivity|]. apply LL_tail. exact H.
Qed.

Lemma compare_ok m x y s t : views m x s -> views m y t ->
  exists r, sv_compare m x y = Ok r /\
    ((r = 0 /\ s = t) \/ (r = -1 /\ shortlex_less s t) \/ (r = 1 /\ shortlex_less t s)).
Proof.
  intros [Hxs Hx] [Hys Hy]. unfold sv_compare. rewrite Hxs, Hys.
  destruct (N.of_nat (length s) <? N.of_nat (length t))%N eqn:E1.
  { exists (-1). split; [reflexivity|]. right; left. split; [reflexivity|]. left. lia. }
  destruct (N.of_nat (length t) <? N.of_nat (length s))%N eqn:E2.
  { exists 1. split; [reflexivity|]. right; right. split; [reflexivity|]. left. lia. }
  rewrite Nat2N.id. destruct (compare_loop_ok m x y s t 0) as (r & Hr & Hc).
  - lia.
  - intros j c Hj. rewrite N.add_0_r. apply Hx. exact Hj.
  - intros j c Hj. rewrite N.add_0_r. apply Hy. exact Hj.
  - exists r. split; [exact Hr|]. assert (length s = length t) by lia. unfold shortlex_less. intuition.
Qed.

Lemma compare_exact m x y s t : views m x s -> views m y t ->
  (sv_compare m x y = Ok 0 <-> s = t) /\
  (sv_compare m x y = Ok (-1) <-> shortlex_less s t) /\
  (sv_compare m x y = Ok 1 <-> shortlex_less t s) /\
  exists r, sv_compare m x y = Ok r /\ (r = 0 \/ r = -1 \/ r = 1).
Proof.
  intros Hx Hy. destruct (compare_ok m x y s t Hx Hy) as (r & Hr & Hc).
  assert (Ex : forall a b, shortlex_less a b -> shortlex_less b a -> False).
  { intros a b H1 H2. apply (shortlex_irrefl a). eapply shortlex_trans; eassumption. }
  rewrite Hr.
  destruct Hc as [[-> ->]|[[-> H]|[-> H]]].
  - split; [tauto|]. split; [split; [discriminate|intros H; destruct (shortlex_irrefl _ H)]|].
    split; [split; [discriminate|intros H; destruct (shortlex_irrefl _ H)]|]. eauto.
  - split; [split; [discriminate|intros ->; destruct (shortlex_irrefl _ H)]|]. split; [tauto|].
    split; [split; [discriminate|intros H2; destruct (Ex _ _ H H2)]|]. eauto.
  - split; [split; [discriminate|intros ->; destruct (shortlex_irrefl _ H)]|].
    split; [split; [discriminate|intros H2; destruct (Ex _ _ H H2)]|]. split; [tauto|]. eauto.
Qed.

Lemma view_operators m x y s t : views m x s -> views m y t ->
  (sv_eq m x y = Ok true <-> s = t) /\ (sv_ne m x y = Ok true <-> s <> t) /\
  (sv_lt m x y = Ok true <-> shortlex_less s t) /\ (sv_gt m x y = Ok true <-> shortlex_less t s) /\
  (sv_le m x y = Ok true <-> ~ shortlex_less t s) /\ (sv_ge m x y = Ok true <-> ~ shortlex_less s t).
Proof.
  intros Hx Hy. destruct (compare_ok m x y s t Hx Hy) as (r & Hr & Hc).
  assert (Ex : forall a b, shortlex_less a b -> shortlex_less b a -> False).
  { intros a b H1 H2. apply (shortlex_irrefl a). eapply shortlex_trans; eassumption. }
  unfold sv_eq, sv_ne, sv_lt, sv_gt, sv_le, sv_ge, omap. rewrite Hr. cbn [obind].
  assert (HT : forall b P, (b = true <-> P) -> (Ok b = Ok true <-> P)).
  { intros b P H. rewrite <- H. split; congruence. }
  destruct Hc as [[-> ->]|[[-> H]|[-> H]]]; cbn.
  - pose proof (shortlex_irrefl t). repeat split; intros; auto; try discriminate; contradiction.
  - assert (s <> t) by (intros ->; eapply shortlex_irrefl; eassumption).
    pose proof (Ex _ _ H). repeat split; intros; auto; try discriminate; try contradiction; try tauto.
  - assert (s <> t) by (intros ->; eapply shortlex_irrefl; eassumption).
    pose proof (Ex _ _ H). repeat split; intros; auto; try discriminate; try contradiction; try tauto.
Qed.

Definition demo_chars : gmap N Z := <[100%N := 98]> (<[101%N := 97]> (<[102%N := 97]> ∅)).
Lemma demo_b : views demo_chars {| sv_data := 100; sv_size := 1 |} [98].
Proof. split; [reflexivity|]. intros [|[|i]] c H; cbn in H; try discriminate. injection H as <-. reflexivity. Qed.
Lemma demo_aa : views demo_chars {| sv_data := 101; sv_size := 2 |} [97; 97].
Proof.
  split; [reflexivity|]. intros [|[|[|i]]] c H; cbn in H; try discriminate; injection H as <-; reflexivity.
Qed.
Lemma compare_not_lex : exists m x y s t, views m x s /\ views m y t /\ lex_less t s /\ sv_compare m x y = Ok (-1).
Proof.
  exists demo_chars, {| sv_data := 100; sv_size := 1 |}, {| sv_data := 101; sv_size := 2 |}, [98], [97; 97].
  split; [apply demo_b|]. split; [apply demo_aa|]. split; [apply LL_head; lia|]. reflexivity.
Qed.

Lemma substr_ok m v s pos len : views m v s -> (N.of_nat (length s) < 2 ^ 64)%N -> (pos <= sv_size v)%N ->
  views m (sv_substr v pos len) (take (N.to_nat len) (drop (N.to_nat pos) s)).
Proof.
  intros [Hs Hv] Hl Hp. unfold sv_substr. cbn [sv_size sv_data].
  rewrite Z.mod_small by lia.
  replace (Z.to_N (Z.of_N (sv_size v) - Z.of_N pos)) with (sv_size v - pos)%N by lia.
  split; cbn [sv_size sv_data].
  - rewrite take_length, drop_length. destruct (sv_size v - pos <? len)%N eqn:E; lia.
  - intros i c Hi. apply lookup_take_Some in Hi. destruct Hi as [Hi _]. rewrite lookup_drop in Hi.
    rewrite <- (Hv _ _ Hi). f_equal. lia.
Qed.

Lemma substr_npos v pos : (sv_size v < 2 ^ 64)%N -> (pos <= sv_size v)%N ->
  sv_substr v pos npos = {| sv_data := (sv_data v + pos)%N; sv_size := (sv_size v - pos)%N |}.
Proof.
  intros H1 H2. unfold sv_substr, npos. rewrite Z.mod_small by lia. f_equal.
  destruct (_ <? _)%N eqn:E; lia.
Qed.

Lemma substr_rest m v s pos : views m v s -> (N.of_nat (length s) < 2 ^ 64)%N -> (pos <= sv_size v)%N ->
  views m (sv_substr v pos npos) (drop (N.to_nat pos) s) /\ (npos < 2 ^ 64)%N /\ (forall n, n < 2 ^ 64 -> n <= npos)%N.
Proof.
  intros Hv Hs Hp. split; [|unfold npos; split; lia]. pose proof (substr_ok m v s pos npos Hv Hs Hp) as H.
  rewrite take_ge in H; [exact H|]. rewrite drop_length. unfold npos. lia.
Qed.
Lemma substr_bad : exists v pos len, (sv_size v < 2 ^ 64)%N /\
  (sv_data v + sv_size v < sv_data (sv_substr v pos len) + sv_size (sv_substr v pos len))%N.
Proof.
  exists {| sv_data := 100; sv_size := 3 |}, 5%N, 10%N. split; [reflexivity|]. vm_compute. reflexivity.
Qed.

Lemma substr_exact v pos len : (sv_size v < 2 ^ 64)%N -> (pos < 2 ^ 64)%N ->
  sv_data (sv_substr v pos len) = (sv_data v + pos)%N /\
  sv_size (sv_substr v pos len) = N.min len (if (pos <=? sv_size v)%N then sv_size v - pos else 2 ^ 64 - (pos - sv_size v))%N /\
  ((sv_data (sv_substr v pos len) + sv_size (sv_substr v pos len) <= sv_data v + sv_size v)%N <-> (pos <= sv_size v)%N).
Proof.
  intros Hs Hp. split; [reflexivity|].
  assert (E : sv_size (sv_substr v pos len) = N.min len (if (pos <=? sv_size v)%N then sv_size v - pos else 2 ^ 64 - (pos - sv_size v))%N).
  { unfold sv_substr. cbn [sv_size]. destruct (N.leb_spec pos (sv_size v)).
    - rewrite Z.mod_small by lia. match goal with |- context [(?a <? len)%N] => destruct (N.ltb_spec a len) end; lia.
    - replace ((Z.of_N (sv_size v) - Z.of_N pos) mod 2 ^ 64) with (Z.of_N (sv_size v) - Z.of_N pos + 2 ^ 64).
      + match goal with |- context [(?a <? len)%N] => destruct (N.ltb_spec a len) end; lia.
      + symmetry. rewrite <- (Z.mod_add _ 1) by lia. rewrite Z.mul_1_l. apply Z.mod_small. lia. }
  split; [exact E|]. rewrite E. unfold sv_substr. cbn [sv_data]. destruct (N.leb_spec pos (sv_size v)); lia.
Qed.

(** ** reverse iterators *)

Lemma r_walk_ok {A} (l : list A) : forall k fuel, (k <= length l)%nat -> (k <= fuel)%nat ->
  r_walk fuel l {| current := Z.of_nat k |} = Ok (rev (take k l)).
Proof.
  induction k as [|k IH]; intros fuel Hk Hf.
  - destruct fuel; reflexivity.
  - destruct fuel as [|fuel]; [lia|]. cbn [r_walk]. unfold r_ne, r_end. cbn [current].
    replace (Z.of_nat (S k) =? 0) with false by lia. cbn [negb].
    destruct (lookup_lt_is_Some_2 l k) as [x Hx]; [lia|].
    unfold r_deref, deref, r_incr. cbn [current].
    replace (Z.of_nat (S k) - 1) with (Z.of_nat k) by lia.
    replace (Z.of_nat k <? 0) with false by lia. replace (Z.of_nat (S k) <=? 0) with false by lia.
    rewrite Nat2Z.id, Hx. cbn [of_option obind].
    rewrite IH by lia. cbn [obind]. rewrite (take_S_r l k x Hx), rev_app_distr. reflexivity.
Qed.

Lemma r_walk_rev {A} (l : list A) fuel : (length l <= fuel)%nat -> r_walk fuel l (r_begin l) = Ok (rev l).
Proof. intros H. unfold r_begin. rewrite r_walk_ok by lia. rewrite firstn_all. reflexivity. Qed.

Lemma r_index_ok {A} (l : list A) (n : nat) : r_index l (r_begin l) (Z.of_nat n) =
  match rev l !! n with Some x => Ok x | None => UB end.
Proof.
  unfold r_index, r_deref, r_plus, r_begin, deref. cbn [current].
  destruct (Z.of_nat (length l) - Z.of_nat n - 1 <? 0) eqn:E.
  - rewrite lookup_ge_None_2; [reflexivity|]. rewrite rev_length. lia.
  - rewrite rev_alt. change (rev_append l []) with (reverse l). rewrite reverse_lookup by lia.
    replace (Z.to_nat (Z.of_nat (length l) - Z.of_nat n - 1)) with (length l - S n)%nat by lia.
    destruct (l !! _); reflexivity.
Qed.

Lemma r_decr_incr n r r' : current r <= n -> r_incr r = Ok r' -> r_decr n r' = Ok r.
Proof.
  unfold r_incr, r_decr. intros Hn. destruct (current r <=? 0) eqn:E; [discriminate|].
  intros [= <-]. cbn [current]. replace (n <=? current r - 1) with false by lia.
  f_equal. destruct r as [c]. cbn. f_equal. lia.
Qed.

Lemma later_spec r1 r2 : later r1 r2 <-> 0 <= current r2 < current r1.
Proof.
  split.
  - induction 1 as [r2 H|r2 r3 H IH H2].
    + unfold r_incr in H. destruct (current r1 <=? 0) eqn:E; [discriminate|]. injection H as <-. cbn. lia.
    + unfold r_incr in H2. destruct (current r2 <=? 0) eqn:E; [discriminate|]. injection H2 as <-. cbn. lia.
  - intros H. destruct r1 as [c1], r2 as [c2]. cbn in H.
    assert (G : forall k c2, Z.of_nat k + 1 + c2 = c1 -> 0 <= c2 -> later {| current := c1 |} {| current := c2 |}).
    { induction k as [|k IH]; intros c Hc H0.
      - apply later_one. unfold r_incr. cbn. replace (c1 <=? 0) with false by lia. do 2 f_equal. lia.
      - apply (later_more _ {| current := c + 1 |}); [apply IH; lia|].
        unfold r_incr. cbn. replace (c + 1 <=? 0) with false by lia. do 2 f_equal. lia. }
    apply (G (Z.to_nat (c1 - c2 - 1))); lia.
Qed.

Lemma r_lt_wrong : exists r1 r2, later r1 r2 /\ r_lt r1 r2 = false /\ r_lt r2 r1 = true.
Proof.
  exists {| current := 2 |}, {| current := 1 |}. split; [apply later_spec; cbn; lia|]. split; reflexivity.
Qed.

(** What the comparisons do say: every one of them has its sides exchanged. *)
Lemma r_compare_mirrored r1 r2 : 0 <= current r1 -> 0 <= current r2 ->
  (r_eq r1 r2 = true <-> r1 = r2) /\ (r_ne r1 r2 = true <-> r1 <> r2) /\
  (r_gt r1 r2 = true <-> later r1 r2) /\ (r_lt r1 r2 = true <-> later r2 r1) /\
  (r_ge r1 r2 = true <-> r1 = r2 \/ later r1 r2) /\ (r_le r1 r2 = true <-> r1 = r2 \/ later r2 r1).
Proof.
  intros H1 H2. rewrite !later_spec. destruct r1 as [a], r2 as [b]. unfold r_eq, r_ne, r_gt, r_lt, r_ge, r_le. cbn in *.
  assert (E : {| current := a |} = {| current := b |} <-> a = b) by (split; [intros [= ->]; reflexivity|intros ->; reflexivity]).
  rewrite !E. lia.
Qed.

(** Jumps. *)
Lemma r_jump n : forall r r', r_steps n r = Ok r' -> r_plus r (Z.of_nat n) = r' /\ r_minus r' (Z.of_nat n) = r.
Proof.
  induction n as [|n IH]; intros r r'; cbn [r_steps].
  - intros [= <-]. destruct r as [c]. unfold r_plus, r_minus. cbn. split; f_equal; lia.
  - unfold r_incr. destruct (current r <=? 0) eqn:E; [discriminate|]. cbn [obind]. intros H. apply IH in H as [H1 H2].
    destruct r as [c], r' as [c']. unfold r_plus, r_minus in *. cbn in *. injection H1 as H1. split; f_equal; lia.
Qed.
Lemma back_and_forth n r r' : 0 <= current r <= n ->
  (r_incr r = Ok r' -> r_decr n r' = Ok r) /\ (r_decr n r = Ok r' -> r_incr r' = Ok r) /\ (r_decr n r = UB <-> current r = n) /\ (r_incr r = UB <-> current r = 0).
Proof.
  intros H. destruct r as [c]. cbn [current] in H. unfold r_incr, r_decr. cbn [current].
  destruct (c <=? 0) eqn:E0, (n <=? c) eqn:En; (split; [|split; [|split]]); try (intros X; try discriminate X; injection X as <-; cbn [current]);
    try (split; intros X; try discriminate X; try reflexivity; lia);
    match goal with |- context [if ?b then _ else _] => replace b with false by lia end; do 2 f_equal; lia.
Qed.
