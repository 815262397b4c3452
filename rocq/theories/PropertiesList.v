(** estd::list (C19-C21). *)
From stdpp Require Import gmap list.
From Coq Require Import ZArith.
From Verif Require Import Base ListModel ListSpec ListFacts ListExamples.
Local Open Scope Z_scope.

(** C19. A history of constructions, copies, moves, pushes and pops at both ends, inserts, erases of one
    element or a range, clear, swaps of different lists, assignments (also to itself), destruction and
    iterator movements runs without touching a freed node; every list then shows its sequence: size,
    iteration in both directions (which ends after as many steps as there are elements), front and back;
    and exactly the nodes of these sequences exist.
    Missing from the full statement: calls of a member function through a null pointer that is not used
    are let pass ([true]); as the language has it, clear() is undefined, see C19_strict_refuted. *)
Theorem C19_history_partial : forall (A : Type) (cs : list (lcmd A)) w, srun world0 cs = Some w ->
  exists e s, lrun true (∅, heap0) cs = Ok (e, s) /\
  (forall x l, seqs w !! x = Some l -> shows true s x (snd <$> l)) /\
  (forall i, is_Some (cells s !! N i) <-> exists x l, seqs w !! x = Some l /\ i ∈ (fst <$> l)).
Proof. intros A. exact history. Qed.
Print Assumptions C19_history_partial.
Example C19_history_case : final demo = Some [(3%nat, [(11%nat, 2); (12%nat, 7)]); (2%nat, [(7%nat, 1); (8%nat, 2); (9%nat, 7)]); (4%nat, [(2%nat, 1); (6%nat, 2)])] /\
  fwd demo 2 = Ok [1; 2; 7] /\ bwd demo 2 = Ok [7; 2; 1] /\ fwd demo 3 = Ok [2; 7] /\ fwd demo 4 = Ok [1; 2] /\ bwd demo 4 = Ok [2; 1].
Proof. exact demo_runs. Qed.

(** C19, no leaks: when all lists have been destroyed nothing is left. *)
Theorem C19_no_leak : forall (A : Type) (cs : list (lcmd A)) w e s, reached cs w e s -> seqs w = ∅ -> cells s = ∅ /\ sizes s = ∅.
Proof. intros A. exact no_leak. Qed.
Print Assumptions C19_no_leak.
Example C19_no_leak_case : final (demo ++ [LDestroy 2; LDestroy 3; LClear 4; LDestroy 4]) = Some [] /\
  nodes (demo ++ [LDestroy 2; LDestroy 3; LClear 4; LDestroy 4]) = Ok [].
Proof. exact demo_ends. Qed.

(** C19: no node belongs to two lists or twice to one. *)
Theorem C19_apart : forall (A : Type) (cs : list (lcmd A)) w e s, reached cs w e s ->
  (forall x l, seqs w !! x = Some l -> NoDup (fst <$> l)) /\
  (forall x y l m i, seqs w !! x = Some l -> seqs w !! y = Some m -> i ∈ (fst <$> l) -> i ∈ (fst <$> m) -> x = y).
Proof. intros A. exact apart. Qed.
Print Assumptions C19_apart.
Example C19_apart_case : exists w e s, reached [LInit 1 [4; 5]; LCopy 2 1] w e s /\
  seqs w !! 1%nat = Some [(0%nat, 4); (1%nat, 5)] /\ seqs w !! 2%nat = Some [(2%nat, 4); (3%nat, 5)].
Proof. exact two_lists. Qed.

(** C19, operator==: decides equality of the sequences, for lists of fewer than 2^31 elements. *)
Theorem C19_equality_partial : forall (A : Type) (eqb : A -> A -> bool) cs w e s x y l m lax fuel,
  (forall a b, eqb a b = true <-> a = b) -> reached cs w e s -> seqs w !! x = Some l -> seqs w !! y = Some m ->
  Z.of_nat (length l) < 2 ^ 31 -> (length l < fuel)%nat ->
  exists r, list_eq lax eqb fuel x y s = Ok r /\ (r = true <-> snd <$> l = snd <$> m).
Proof. intros A. exact equality. Qed.
Print Assumptions C19_equality_partial.
Example C19_equality_case : exists w e s, reached [LInit 1 [4; 5]; LCopy 2 1] w e s /\
  seqs w !! 1%nat = Some [(0%nat, 4); (1%nat, 5)] /\ seqs w !! 2%nat = Some [(2%nat, 4); (3%nat, 5)].
Proof. exact two_lists. Qed.

(** C19, finding: clear() and the destructor of a non-empty list always end by calling a member function
    on the null pointer left in the last node. *)
Theorem C19_clear_calls_null : forall (A : Type) (cs : list (lcmd A)) w e s x l, reached cs w e s -> seqs w !! x = Some l -> l <> [] ->
  lstep false (e, s) (LClear x) = UB /\ lstep false (e, s) (LDestroy x) = UB.
Proof. intros A. exact clear_strict. Qed.
Print Assumptions C19_clear_calls_null.
Example C19_clear_calls_null_case : exists w e s, reached [LInit 1 [4; 5]] w e s /\ seqs w !! 1%nat = Some [(0%nat, 4); (1%nat, 5)].
Proof. exact some_list. Qed.
Theorem C19_strict_refuted : lrun false (∅, heap0) [LNew 1; LPushBack 1 (AVal 4)] <> UB /\
  final [LNew 1; LPushBack 1 (AVal 4); LClear 1] = Some [(1%nat, [])] /\
  lrun false (∅, heap0) [LNew 1; LPushBack 1 (AVal 4); LClear 1] = UB.
Proof. exact strict_clear_ub. Qed.
Print Assumptions C19_strict_refuted.

(** C20, finding: l.swap(l) on a list of two or more elements makes iteration endless, both ways. *)
Theorem C20_two_or_more : forall (A : Type) (cs : list (lcmd A)) w e s x l lax, reached cs w e s -> seqs w !! x = Some l -> (2 <= length l)%nat ->
  exists t, swap lax x x s = Ok t /\ forall fuel, forward lax fuel x t = Fuel /\ backward lax fuel x t = Fuel.
Proof. intros A. exact self_long. Qed.
Print Assumptions C20_two_or_more.
Example C20_two_or_more_case : exists w e s, reached [LInit 1 [4; 5]] w e s /\ seqs w !! 1%nat = Some [(0%nat, 4); (1%nat, 5)].
Proof. exact some_list. Qed.
Theorem C20_self_swap_refuted : match lrun true (∅, heap0) [LInit 1 [4; 5]; LSwap 1 1] with
    Ok (_, s) => forward true 100 1 s = Fuel /\ backward true 100 1 s = Fuel | _ => False end.
Proof. exact self_swap_bad. Qed.
Print Assumptions C20_self_swap_refuted.
(** C20, finding: with one element, removing it afterwards leaves begin() at the freed node. *)
Theorem C20_one : forall (A : Type) (cs : list (lcmd A)) w e s x d lax, reached cs w e s -> seqs w !! x = Some [d] ->
  exists t u, swap lax x x s = Ok t /\ pop_back lax x t = Ok u /\ size x u = Ok 0 /\ list_begin lax x u = Ok (N (fst d)) /\
    cells u !! N (fst d) = None /\ front lax x u = UB /\ forall fuel, forward lax (S fuel) x u = UB.
Proof. intros A. exact self_one. Qed.
Print Assumptions C20_one.
Example C20_one_case : exists w e s, reached [LInit 1 [4]] w e s /\ seqs w !! 1%nat = Some [(0%nat, 4)].
Proof. exact one_list. Qed.
(** C20 for the empty list only: nothing changes. *)
Theorem C20_empty_partial : forall (A : Type) (cs : list (lcmd A)) w e s x lax, reached cs w e s -> seqs w !! x = Some [] ->
  exists t, swap lax x x s = Ok t /\ forall y l, seqs w !! y = Some l -> shows lax t y (snd <$> l).
Proof. intros A. exact self_empty. Qed.
Print Assumptions C20_empty_partial.
Example C20_empty_case : exists w e s, reached [LInit 1 [4]; LPopBack 1] w e s /\ seqs w !! 1%nat = Some [].
Proof. exact no_list. Qed.

(** C21. Adding an element at either end or anywhere inside leaves every iterator to an element, of this
    or any other list, what it was, and it still designates the same value. *)
Theorem C21_add : forall (A : Type) (c : lcmd A) cs w e s w' i y d, reached cs w e s -> sstep w c = Some w' -> deref w i y = Some d ->
  match c with LPushBack _ _ | LPushFront _ _ => True | LInsert _ _ _ j => j <> i | _ => False end ->
  exists e' s', lstep true (e, s) c = Ok (e', s') /\ e' !! i = e !! i /\ deref w' i y = Some d /\
    read_arg e' (AIter i y) s' = Ok d.
Proof. intros A. exact iter_add. Qed.
Print Assumptions C21_add.
Example C21_add_case : exists w e s w', reached its w e s /\ sstep w (LInsert 1 0 (AVal 9) 3) = Some w' /\ deref w 1 1 = Some 6.
Proof. exact its_insert. Qed.
(** C21. Erasing an element leaves iterators to other elements valid. *)
Theorem C21_erase : forall (A : Type) (cs : list (lcmd A)) w e s w' i y d x p j,
  reached cs w e s -> sstep w (LErase x p j) = Some w' -> deref w i y = Some d -> marks w !! p <> marks w !! i -> j <> i ->
  exists e' s', lstep true (e, s) (LErase x p j) = Ok (e', s') /\ e' !! i = e !! i /\ deref w' i y = Some d /\
    read_arg e' (AIter i y) s' = Ok d.
Proof. intros A. exact iter_erase. Qed.
Print Assumptions C21_erase.
Example C21_erase_case : exists w e s w', reached its w e s /\ sstep w (LErase 1 0 3) = Some w' /\ deref w 1 1 = Some 6 /\ marks w !! 0%nat <> marks w !! 1%nat.
Proof. exact its_erase. Qed.
(** C21. Erasing a range leaves iterators outside it valid. *)
Theorem C21_erase_range : forall (A : Type) (cs : list (lcmd A)) w e s w' i y d x p q j,
  reached cs w e s -> sstep w (LEraseRange x p q j) = Some w' -> deref w i y = Some d ->
  (forall l m a b c m1 m2, x = y -> seqs w !! y = Some l -> marks w !! i = Some m -> pos y l m = Some c ->
     marks w !! p = Some m1 -> pos y l m1 = Some a -> marks w !! q = Some m2 -> pos y l m2 = Some b -> (c < a \/ b <= c)%nat) ->
  j <> i ->
  exists e' s', lstep true (e, s) (LEraseRange x p q j) = Ok (e', s') /\ e' !! i = e !! i /\ deref w' i y = Some d /\
    read_arg e' (AIter i y) s' = Ok d.
Proof. intros A. exact iter_erase_range. Qed.
Print Assumptions C21_erase_range.
Example C21_erase_range_case : exists w e s w' l, reached its w e s /\ sstep w (LEraseRange 1 1 2 3) = Some w' /\ deref w 0 1 = Some 5 /\
  seqs w !! 1%nat = Some l /\ marks w !! 0%nat = Some (At 1) /\ pos 1 l (At 1) = Some 1%nat /\
  marks w !! 1%nat = Some (At 2) /\ pos 1 l (At 2) = Some 2%nat /\ marks w !! 2%nat = Some (End 1) /\ pos 1 l (End 1) = Some 4%nat.
Proof. exact its_range. Qed.
(** C21. An iterator standing in a list, whatever happened since it was obtained, iterates over exactly
    the rest of the list. *)
Theorem C21_rest : forall (A : Type) (cs : list (lcmd A)) w e s i x l m p fuel,
  reached cs w e s -> seqs w !! x = Some l -> marks w !! i = Some m -> pos x l m = Some p -> (length l - p <= fuel)%nat ->
  exists q, e !! i = Some q /\ walk true fuel q (list_end x) s = Ok (snd <$> drop p l).
Proof. intros A. exact iter_rest. Qed.
Print Assumptions C21_rest.
Example C21_rest_case : exists w e s w' l, reached its w e s /\ sstep w (LEraseRange 1 1 2 3) = Some w' /\ deref w 0 1 = Some 5 /\
  seqs w !! 1%nat = Some l /\ marks w !! 0%nat = Some (At 1) /\ pos 1 l (At 1) = Some 1%nat /\
  marks w !! 1%nat = Some (At 2) /\ pos 1 l (At 2) = Some 2%nat /\ marks w !! 2%nat = Some (End 1) /\ pos 1 l (End 1) = Some 4%nat.
Proof. exact its_range. Qed.
