(** estd::vector (C09-C12). *)
From stdpp Require Import gmap list.
From Coq Require Import ZArith.
From Verif Require Import Base ObjModel ObjSpec VectorModel VectorSpec VectorFacts VectorExamples.
Local Open Scope Z_scope.

(** C09. Any history of constructions, copies, moves, insertions, removals, resizes, assignments and
    swaps, with indices in range and arguments that are not elements, runs without undefined behaviour
    and leaves every vector showing the sequence the same history gives on mathematical sequences;
    [==] decides equality of the sequences.
    Missing from the full statement: erase(p, p) with elements behind p for types that a self-move
    changes ([sstep] asks for [smk]), and [==] on 2^31 or more elements; both are refuted below. *)
Theorem C09_history_partial : forall (A : Type) (esz : Z) (dflt : A) (smk : bool) M cs s,
  1 <= esz -> 2 * M * esz < 2 ^ 63 -> srun dflt smk ∅ cs = Some s -> within dflt smk M ∅ cs ->
  exists e m, vrun esz dflt smk (∅, mem0) cs = Ok (e, m) /\ (forall x, s !! x = None <-> e !! x = None) /\
  forall x l v, s !! x = Some l -> e !! x = Some v -> shows v m l /\
    forall eqb y k w, (forall a b : A, eqb a b = true <-> a = b) -> s !! y = Some k -> e !! y = Some w -> zlen l < 2 ^ 31 ->
      exists r, vequal eqb v w m = Ok r /\ (r = true <-> l = k).
Proof. intros A esz dflt smk. exact (history esz dflt smk). Qed.
Print Assumptions C09_history_partial.
Example C09_history_case : srun 0 false ∅ demo = Some (list_to_map [(0%nat, [2; 3; 4]); (1%nat, [3; 8; 4]); (2%nat, [1; 3; 4; 0; 0])]) /\
  within 0 false 8 ∅ demo /\
  show (vrun 4 0 false (∅, mem0) demo) 0 = Ok [Some 2; Some 3; Some 4] /\
  show (vrun 4 0 false (∅, mem0) demo) 1 = Ok [Some 3; Some 8; Some 4] /\
  show (vrun 4 0 false (∅, mem0) demo) 2 = Ok [Some 1; Some 3; Some 4; Some 0; Some 0].
Proof. exact demo_runs. Qed.

(** C09, finding: erasing an empty range moves every later element onto itself; for a type whose
    self-move empties it the values are gone. *)
Theorem C09_empty_range_refuted : exists cs : list (vcmd Z), srun 0 true ∅ cs = Some (list_to_map [(0%nat, [1; 2; 3])]) /\
  show (vrun 4 0 false (∅, mem0) cs) 0 = Ok [Some 1; None; None].
Proof. exact (ex_intro _ [CInit 0 [1; 2; 3]; CEraseRange 0 1 1] empty_range). Qed.
Print Assumptions C09_empty_range_refuted.

(** C09, finding: [==] counts in an int, so comparing equal vectors of 2^31 or more elements
    overflows it. *)
Theorem C09_equal_int_refuted : forall n : Z, 2 ^ 31 <= n -> 2 * n < 2 ^ 63 ->
  exists cs s e m v w l, reached 1 0 true n cs s e m /\ s !! 0%nat = Some l /\ s !! 1%nat = Some l /\
    e !! 0%nat = Some v /\ e !! 1%nat = Some w /\ vequal Z.eqb v w m = UB.
Proof. exact equal_overflow. Qed.
Print Assumptions C09_equal_int_refuted.

(** C10. Whatever the history (also outside the preconditions), as long as it is defined: objects are
    constructed only in raw slots, destroyed and assigned only where one is alive, buffers returned
    only once and only when no object is alive in them. *)
Theorem C10_lifetimes : forall (A : Type) (esz : Z) (dflt : A) (smk : bool) cs e m,
  vrun esz dflt smk (∅, mem0) cs = Ok (e, m) -> legal_trace (trace m).
Proof. intros A esz dflt smk. exact (lifetimes esz dflt smk). Qed.
Print Assumptions C10_lifetimes.

(** C10. When all vectors have been destroyed, every object has been destroyed as often as constructed
    and every buffer of at least one element has been returned.
    Missing from the full statement: buffers of size zero are never returned, refuted below. *)
Theorem C10_all_gone_partial : forall (A : Type) (esz : Z) (dflt : A) (smk : bool) M cs e m,
  reached esz dflt smk M cs ∅ e m -> objects_gone (trace m) /\ nonempty_buffers_gone (trace m).
Proof. intros A esz dflt smk. exact (all_gone esz dflt smk). Qed.
Print Assumptions C10_all_gone_partial.
Example C10_case : srun 0 false ∅ life = Some ∅ /\ within 0 false 3 ∅ life /\
  match vrun 4 0 false (∅, mem0) life with Ok (e, m) => (length (trace m) = 28)%nat | _ => False end.
Proof. exact life_runs. Qed.

(** C10, finding: a vector made from an empty list, or of size zero, leaks its zero-sized buffer. *)
Theorem C10_empty_buffer_refuted : exists cs e (m : mem Z), reached 4 0 true 1 cs ∅ e m /\ ~ buffers_gone (trace m).
Proof. exact empty_leak. Qed.
Print Assumptions C10_empty_buffer_refuted.

(** C11. push_back(v[i]) works exactly when no reallocation is needed: with room it appends the
    element, at full capacity it reads the freed buffer. Missing: the reallocating case, refuted. *)
Theorem C11_push_back_partial : forall (A : Type) (esz : Z) (dflt : A) (smk : bool) M cs s e m x l v i a p,
  reached esz dflt smk M cs s e m -> s !! x = Some l -> e !! x = Some v -> l !! i = Some a ->
  padd (vstart v) (Z.of_nat i) = Ok p -> exists c, vcapacity v = Ok c /\
  (zlen l < c -> exists v' m', push_back esz (ARef p) v m = Ok (v', m') /\ shows v' m' (l ++ [a])) /\
  (c <= zlen l -> push_back esz (ARef p) v m = UB).
Proof. intros A esz dflt smk. exact (push_alias esz dflt smk). Qed.
Print Assumptions C11_push_back_partial.
Theorem C11_push_back_refuted : exists e (m : mem Z) v p, reached 4 0 true 5 full (list_to_map [(0%nat, [1; 2])]) e m /\ e !! 0%nat = Some v /\
  padd (vstart v) 0 = Ok p /\ push_back 4 (ARef p) v m = UB.
Proof. exact alias_push. Qed.
Print Assumptions C11_push_back_refuted.

(** C11. insert(begin() + i, v[j]): with room it inserts v[j] only for j < i; the slot itself gives a
    moved-from value and a later slot gives its predecessor. Without room it reads the freed buffer. *)
Theorem C11_insert_partial : forall (A : Type) (esz : Z) (dflt : A) (smk : bool) M cs s e m x l v (i j : nat) a p q,
  reached esz dflt smk M cs s e m -> s !! x = Some l -> e !! x = Some v ->
  (i <= length l)%nat -> l !! j = Some a -> padd (vstart v) (Z.of_nat i) = Ok p -> padd (vstart v) (Z.of_nat j) = Ok q ->
  exists c, vcapacity v = Ok c /\
  (zlen l < c -> exists v' m', insert_at esz dflt smk p (ARef q) v m = Ok (v', m') /\
     viter v' m' = Ok (take i (Some <$> l) ++ aliased l i j :: drop i (Some <$> l))) /\
  (c <= zlen l -> insert_at esz dflt smk p (ARef q) v m = UB).
Proof. intros A esz dflt smk. exact (insert_alias esz dflt smk). Qed.
Print Assumptions C11_insert_partial.
Theorem C11_insert_refuted : exists e (m : mem Z) v p q v' m', reached 4 0 true 5 room (list_to_map [(0%nat, [1; 2])]) e m /\ e !! 0%nat = Some v /\
  padd (vstart v) 0 = Ok p /\ padd (vstart v) 1 = Ok q /\ insert_at 4 0 true p (ARef q) v m = Ok (v', m') /\
  viter v' m' = Ok [Some 1; Some 1; Some 2].
Proof. exact alias_insert. Qed.
Print Assumptions C11_insert_refuted.
Example C11_case : within 0 false 5 ∅ room /\ within 0 false 5 ∅ full /\ show (vrun 4 0 false (∅, mem0) room) 0 = Ok [Some 1; Some 2].
Proof. exact room_runs. Qed.

(** C12. Starting from any empty vector, n push_backs move elements at most 2n times. *)
Theorem C12_push_cost : forall (A : Type) (esz : Z) (dflt : A) (smk : bool) M cs s e m x l,
  reached esz dflt smk M cs s e m -> s !! x = Some [] -> (2 * M + 2 * zlen l + 1) * esz < 2 ^ 63 ->
  exists e' m', vrun esz dflt smk (e, m) (map (CPushBack x) l) = Ok (e', m') /\
    (count is_move (trace m') <= count is_move (trace m) + 2 * length l)%nat.
Proof. intros A esz dflt smk. exact (push_cost esz dflt smk). Qed.
Print Assumptions C12_push_cost.
(** C12. The capacity never exceeds twice the largest size reached or reserved. *)
Theorem C12_capacity : forall (A : Type) (esz : Z) (dflt : A) (smk : bool) M cs s e m x v,
  reached esz dflt smk M cs s e m -> e !! x = Some v -> exists c, vcapacity v = Ok c /\ c <= 2 * M.
Proof. intros A esz dflt smk. exact (cap_bound esz dflt smk). Qed.
Print Assumptions C12_capacity.
Example C12_case : match vrun 4 0 true (∅, mem0) (CNew 0 :: map (CPushBack 0) [1; 2; 3; 4; 5]) with
  | Ok (e, m) => (count is_move (trace m) = 7)%nat | _ => False end.
Proof. exact growth. Qed.
