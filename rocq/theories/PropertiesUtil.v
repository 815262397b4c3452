(** C33-C37: bitset, pair, string_view, reverse_iterator. *)
From stdpp Require Import gmap.
From Coq Require Import ZArith Lia.
From Verif Require Import Base BitsetModel BitsetSpec BitsetProofs OrderModel OrderSpec OrderProofs.

(** C33, full statement: for every size [n] and every history of set, clear and reset on
    positions below [n], test(p) returns the last value given to position p.
    False: half of the positions of every word cannot be used at all. *)
Theorem C33_bitset_refuted :
  exists n p, (p < n)%N /\ bs_set (bs_make n false) p = UB /\ bs_test (bs_make n false) p = UB.
Proof. exact bitset_bad. Qed.
Print Assumptions C33_bitset_refuted.

(** It fails for exactly the positions p with p mod 64 >= 32, whatever the operation ... *)
Theorem C33_bitset_high_half_refuted : forall n p, (p < n)%N -> (32 <= p mod 64)%N ->
  bs_set (bs_make n false) p = UB /\ bs_clear (bs_make n false) p = UB /\ bs_test (bs_make n false) p = UB.
Proof. exact bitset_bad_all. Qed.
Print Assumptions C33_bitset_high_half_refuted.
Example C33_high_half_example : (100 < 128)%N /\ (32 <= 100 mod 64)%N.
Proof. split; vm_compute; [reflexivity|discriminate]. Qed.

(** ... and holds for all the others (missing: p mod 64 >= 32). *)
Theorem C33_bitset_partial : forall n b os p,
  Forall (op_in (usable n)) os -> usable n p ->
  exists data, bs_run (bs_make n b) os = Ok data /\ bs_test data p = Ok (last_given b os p).
Proof. exact bitset_history. Qed.
Print Assumptions C33_bitset_partial.
Example C33_example :
  let os := [BSet 31; BSet 64; BReset true; BClear 31; BSet 30; BClear 95]%N in
  Forall (op_in (usable 96)) os /\ usable 96 30 /\
  (exists data, bs_run (bs_make 96 false) os = Ok data /\
    map (bs_test data) [30; 31; 64; 95; 94]%N = [Ok true; Ok false; Ok true; Ok false; Ok true]).
Proof.
  cbn zeta. split; [|split].
  - repeat constructor; vm_compute; reflexivity.
  - split; vm_compute; reflexivity.
  - eexists. split; vm_compute; reflexivity.
Qed.

(** C33: count() is the number of positions, not of set bits. *)
Theorem C33_count_refuted : exists n os data, bs_run (bs_make n false) os = Ok data /\
  (forall p, (p < n)%N -> exists b, bs_test data p = Ok b /\ (b = true <-> p = 3%N)) /\
  bs_count n <> 1%N.
Proof. exact bitset_count_bad. Qed.
Print Assumptions C33_count_refuted.

Local Open Scope Z_scope.

(** C34, full statement: [forall x y, pair_lt lt1 lt2 x y = true <-> lex lt1 lt2 x y] for all
    ordered component types; hence [strict_weak (pair_lt lt1 lt2)].  Both are false already for
    pairs of integers: two pairs can each be less than the other. *)
Theorem C34_pair_lex_refuted :
  exists x y : Z * Z, pair_lt Z.ltb Z.ltb x y = true /\ pair_lt Z.ltb Z.ltb y x = true /\
                      pair_le Z.ltb Z.eqb Z.ltb Z.eqb x y = true /\ pair_gt Z.ltb Z.ltb x y = true /\
                      ~ lex Z.ltb Z.ltb y x.
Proof. exact pair_lt_not_lex. Qed.
Print Assumptions C34_pair_lex_refuted.
Theorem C34_pair_swo_refuted : ~ strict_weak (pair_lt Z.ltb Z.ltb).
Proof. exact pair_lt_not_swo. Qed.
Print Assumptions C34_pair_swo_refuted.

(** Missing: pairs whose components are ordered in opposite directions. *)
Theorem C34_pair_lex_partial : forall {A B} (lt1 : A -> A -> bool) (lt2 : B -> B -> bool) x y,
  ~ (lt1 y.1 x.1 = true /\ lt2 x.2 y.2 = true) ->
  (pair_lt lt1 lt2 x y = true <-> lex lt1 lt2 x y).
Proof. exact @pair_lt_lex. Qed.
Print Assumptions C34_pair_lex_partial.
Example C34_example : ~ ((3 <? 3) = true /\ (4 <? 5) = true) /\ pair_lt Z.ltb Z.ltb (3, 4) (3, 5) = true.
Proof. split; [intros [H _]; discriminate|reflexivity]. Qed.

(** Those are all: for a first component that is ordered at all, operator< is wrong for every such pair. *)
Theorem C34_pair_lex_exact : forall {A B} (lt1 : A -> A -> bool) (lt2 : B -> B -> bool) x y,
  (forall a b, lt1 a b = true -> lt1 b a = false) ->
  ((pair_lt lt1 lt2 x y = true <-> lex lt1 lt2 x y) <-> ~ (lt1 y.1 x.1 = true /\ lt2 x.2 y.2 = true)).
Proof. exact @pair_lt_lex_exact. Qed.
Print Assumptions C34_pair_lex_exact.
Example C34_lex_exact_example : (forall a b, (a <? b) = true -> (b <? a) = false) /\ (1 <? 2) = true /\
  pair_lt Z.ltb Z.ltb (2, 1) (1, 2) = true.
Proof. split; [intros a b H; lia|split; reflexivity]. Qed.
(** So pairs can be used as keys only if all first components, or all second components, are equivalent. *)
Theorem C34_pair_swo_exact : forall {A B} (lt1 : A -> A -> bool) (lt2 : B -> B -> bool), strict_weak lt1 -> strict_weak lt2 ->
  (strict_weak (pair_lt lt1 lt2) <-> ~ exists a a' b b', lt1 a a' = true /\ lt2 b b' = true).
Proof. exact @pair_lt_swo_exact. Qed.
Print Assumptions C34_pair_swo_exact.
Example C34_swo_exact_example : strict_weak Z.ltb /\ strict_weak (fun _ _ : unit => false) /\
  (1 <? 2) = true /\ ~ exists (a a' : Z) (b b' : unit), (a <? a') = true /\ false = true.
Proof. split; [|split; [|split; [reflexivity|intros (?&?&?&?&_&[=])]]]; repeat split; intros; auto; try discriminate; lia. Qed.

(** The other five operators follow operator== and operator<. *)
Theorem C34_pair_consistent_partial : forall {A B} (lt1 eq1 : A -> A -> bool) (lt2 eq2 : B -> B -> bool) x y,
  (forall a b, eq1 a b = true <-> a = b) -> (forall a b, eq2 a b = true <-> a = b) ->
  (pair_eq eq1 eq2 x y = true <-> x = y) /\
  (pair_ne eq1 eq2 x y = true <-> x <> y) /\
  (pair_le lt1 eq1 lt2 eq2 x y = true <-> pair_lt lt1 lt2 x y = true \/ x = y) /\
  pair_gt lt1 lt2 x y = pair_lt lt1 lt2 y x /\
  (pair_ge lt1 lt2 x y = true <-> pair_lt lt1 lt2 x y <> true).
Proof. exact @pair_consistent. Qed.
Print Assumptions C34_pair_consistent_partial.
Example C34_consistent_example : forall a b, (a =? b) = true <-> a = b.
Proof. intros. apply Z.eqb_eq. Qed.

(** C35: compare decides equality and a total order ... *)
Theorem C35_compare_order_partial : forall m x y s t, views m x s -> views m y t ->
  (sv_compare m x y = Ok 0 <-> s = t) /\
  (sv_compare m x y = Ok (-1) <-> shortlex_less s t) /\
  (sv_compare m x y = Ok 1 <-> shortlex_less t s) /\
  exists r, sv_compare m x y = Ok r /\ (r = 0 \/ r = -1 \/ r = 1).
Proof. exact compare_exact. Qed.
Print Assumptions C35_compare_order_partial.
Example C35_example :
  views demo_chars {| sv_data := 100; sv_size := 1 |} [98] /\
  views demo_chars {| sv_data := 101; sv_size := 2 |} [97; 97].
Proof. split; [exact demo_b|exact demo_aa]. Qed.

(** ... (which is one) ... *)
Theorem C35_shortlex_order :
  (forall s, ~ shortlex_less s s) /\
  (forall s t u, shortlex_less s t -> shortlex_less t u -> shortlex_less s u) /\
  (forall s t, shortlex_less s t \/ s = t \/ shortlex_less t s).
Proof. split; [exact shortlex_irrefl|]. split; [exact shortlex_trans|exact shortlex_total]. Qed.
Print Assumptions C35_shortlex_order.
Example C35_shortlex_example : shortlex_less [98] [97; 97] /\ shortlex_less [97; 97] [97; 98].
Proof. split; [left; cbn; lia|right; split; [reflexivity|]]. apply LL_tail. apply LL_head. lia. Qed.

(** ... the six operators agree with it ... *)
Theorem C35_operators_partial : forall m x y s t, views m x s -> views m y t ->
  (sv_eq m x y = Ok true <-> s = t) /\ (sv_ne m x y = Ok true <-> s <> t) /\
  (sv_lt m x y = Ok true <-> shortlex_less s t) /\ (sv_gt m x y = Ok true <-> shortlex_less t s) /\
  (sv_le m x y = Ok true <-> ~ shortlex_less t s) /\ (sv_ge m x y = Ok true <-> ~ shortlex_less s t).
Proof. exact view_operators. Qed.
Print Assumptions C35_operators_partial.
Example C35_operators_example :
  sv_lt demo_chars {| sv_data := 100; sv_size := 1 |} {| sv_data := 101; sv_size := 2 |} = Ok true.
Proof. reflexivity. Qed.

(** ... but that order is not the lexicographic one (full statement:
    [sv_compare m x y = Ok (-1) <-> lex_less s t]). *)
Theorem C35_lexicographic_refuted :
  exists m x y s t, views m x s /\ views m y t /\ lex_less t s /\ sv_compare m x y = Ok (-1).
Proof. exact compare_not_lex. Qed.
Print Assumptions C35_lexicographic_refuted.

(** C36, full statement: without [pos <= sv_size v].  False (missing: pos beyond the end). *)
Theorem C36_substr_partial : forall m v s pos len,
  views m v s -> (N.of_nat (length s) < 2 ^ 64)%N -> (pos <= sv_size v)%N ->
  views m (sv_substr v pos len) (take (N.to_nat len) (drop (N.to_nat pos) s)).
Proof. exact substr_ok. Qed.
Print Assumptions C36_substr_partial.
Example C36_example :
  views demo_chars {| sv_data := 101; sv_size := 2 |} [97; 97] /\ (1 <= 2)%N /\
  sv_substr {| sv_data := 101; sv_size := 2 |} 1 9 = {| sv_data := 102; sv_size := 1 |}.
Proof. split; [exact demo_aa|]. split; [lia|reflexivity]. Qed.
(** With the default length the whole rest; no length is greater. *)
Theorem C36_rest_partial : forall m v s pos,
  views m v s -> (N.of_nat (length s) < 2 ^ 64)%N -> (pos <= sv_size v)%N ->
  views m (sv_substr v pos npos) (drop (N.to_nat pos) s) /\ (npos < 2 ^ 64)%N /\ (forall n, n < 2 ^ 64 -> n <= npos)%N.
Proof. exact substr_rest. Qed.
Print Assumptions C36_rest_partial.
(** For every position: which view it is, and that it lies in the old one exactly if the position does. *)
Theorem C36_substr_exact : forall v pos len, (sv_size v < 2 ^ 64)%N -> (pos < 2 ^ 64)%N ->
  sv_data (sv_substr v pos len) = (sv_data v + pos)%N /\
  sv_size (sv_substr v pos len) = N.min len (if (pos <=? sv_size v)%N then sv_size v - pos else 2 ^ 64 - (pos - sv_size v))%N /\
  ((sv_data (sv_substr v pos len) + sv_size (sv_substr v pos len) <= sv_data v + sv_size v)%N <-> (pos <= sv_size v)%N).
Proof. exact substr_exact. Qed.
Print Assumptions C36_substr_exact.
Example C36_exact_example : sv_substr {| sv_data := 100; sv_size := 3 |} 5 npos = {| sv_data := 105; sv_size := 18446744073709551614 |}.
Proof. vm_compute. reflexivity. Qed.
Theorem C36_substr_refuted : exists v pos len, (sv_size v < 2 ^ 64)%N /\
  (sv_data v + sv_size v < sv_data (sv_substr v pos len) + sv_size (sv_substr v pos len))%N.
Proof. exact substr_bad. Qed.
Print Assumptions C36_substr_refuted.

(** C37: a reverse walk visits the elements in reverse order, by ++ and by index. *)
Theorem C37_reverse_walk_partial : forall {A} (l : list A) fuel,
  (length l <= fuel)%nat -> r_walk fuel l (r_begin l) = Ok (rev l).
Proof. exact @r_walk_rev. Qed.
Print Assumptions C37_reverse_walk_partial.
Example C37_example : r_walk 5 [1; 2; 3] (r_begin [1; 2; 3]) = Ok [3; 2; 1].
Proof. reflexivity. Qed.
(** -- undoes ++ and ++ undoes -- *)
Theorem C37_back : forall n r r', 0 <= current r <= n ->
  (r_incr r = Ok r' -> r_decr n r' = Ok r) /\ (r_decr n r = Ok r' -> r_incr r' = Ok r) /\ (r_decr n r = UB <-> current r = n) /\ (r_incr r = UB <-> current r = 0).
Proof. exact back_and_forth. Qed.
Print Assumptions C37_back.
Example C37_back_example : r_decr 3 {| current := 1 |} = Ok {| current := 2 |} /\ r_incr {| current := 2 |} = Ok {| current := 1 |}.
Proof. split; reflexivity. Qed.
Theorem C37_reverse_index_partial : forall {A} (l : list A) (n : nat),
  r_index l (r_begin l) (Z.of_nat n) = match rev l !! n with Some x => Ok x | None => UB end.
Proof. exact @r_index_ok. Qed.
Print Assumptions C37_reverse_index_partial.
Example C37_index_example : r_index [1; 2; 3] (r_begin [1; 2; 3]) 2 = Ok 1.
Proof. reflexivity. Qed.

(** C37, full statement of the second half: [r_lt r1 r2 = true <-> later r1 r2], and so on.
    False: every ordering operator is the mirror image. *)
Theorem C37_reverse_compare_refuted : exists r1 r2, later r1 r2 /\ r_lt r1 r2 = false /\ r_lt r2 r1 = true.
Proof. exact r_lt_wrong. Qed.
Print Assumptions C37_reverse_compare_refuted.
Theorem C37_reverse_compare_partial : forall r1 r2, 0 <= current r1 -> 0 <= current r2 ->
  (r_eq r1 r2 = true <-> r1 = r2) /\ (r_ne r1 r2 = true <-> r1 <> r2) /\
  (r_gt r1 r2 = true <-> later r1 r2) /\ (r_lt r1 r2 = true <-> later r2 r1) /\
  (r_ge r1 r2 = true <-> r1 = r2 \/ later r1 r2) /\ (r_le r1 r2 = true <-> r1 = r2 \/ later r2 r1).
Proof. exact r_compare_mirrored. Qed.
Print Assumptions C37_reverse_compare_partial.
Example C37_compare_example : later {| current := 3 |} {| current := 1 |}.
Proof. apply later_spec. cbn. lia. Qed.

(** C37: r + n is what n times ++ gives, and - n leads back. *)
Theorem C37_jump_partial : forall n r r', r_steps n r = Ok r' -> r_plus r (Z.of_nat n) = r' /\ r_minus r' (Z.of_nat n) = r.
Proof. exact r_jump. Qed.
Print Assumptions C37_jump_partial.
Example C37_jump_example : r_steps 2 (r_begin [1; 2; 3]) = Ok {| current := 1 |}.
Proof. reflexivity. Qed.
