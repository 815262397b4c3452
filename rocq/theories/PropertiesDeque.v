(** estd::deque, estd::queue, estd::stack (C13-C18, C61, C62). *)
From stdpp Require Import gmap list list_numbers.
From Coq Require Import ZArith.
From Verif Require Import Base ObjModel ObjSpec DequeModel DequeSpec DequeFacts DequeStorage DequeExamples.
Local Open Scope Z_scope.

(** C13. A history of constructions, copies, moves, pushes at both ends, pops, clear, assignments and
    swaps runs without undefined behaviour and leaves every deque showing the sequence the same history
    gives on mathematical sequences ([lrun]), as long as [srun] has a result.
    Missing from the full statement: [srun] has none when an element is added at the front of a deque
    with two or more blocks and nothing free before its first element, when an empty deque is copied,
    or at 2^31 blocks; the first two are refuted below and in C15. *)
Theorem C13_history_partial : forall (A : Type) esz (cs : list (dcmd A)) s,
  16 * esz < 2 ^ 63 -> srun ∅ cs = Some s ->
  exists e m, drun esz (∅, mem0) cs = Ok (e, m) /\ lrun ∅ cs = Some (elems <$> s) /\ (forall x, s !! x = None <-> e !! x = None) /\
  forall x q d, s !! x = Some q -> e !! x = Some d -> shows d m (elems q).
Proof. intros A esz. exact (history esz). Qed.
Print Assumptions C13_history_partial.
Example C13_history_case : to_list (srun ∅ demo) = Some [(0%nat, {| elems := [9; 2; 3; 2]; room := 1; head := 0 |});
    (1%nat, {| elems := [7; 7]; room := 2; head := 15 |}); (2%nat, {| elems := [9; 2; 3; 2]; room := 1; head := 0 |})] /\
  show (drun 4 (∅, mem0) demo) 0 = Ok (value <$> [9; 2; 3; 2]) /\
  show (drun 4 (∅, mem0) demo) 1 = Ok (value <$> [7; 7]) /\
  show (drun 4 (∅, mem0) demo) 2 = Ok (value <$> [9; 2; 3; 2]).
Proof. exact demo_runs. Qed.

(** C13 without additions at the front: sequences are the whole story. *)
Theorem C13_no_front_partial : forall (A : Type) esz (cs : list (dcmd A)) ls,
  16 * esz < 2 ^ 63 -> lrun ∅ cs = Some ls -> forallb (fun c => negb (fronts c)) cs = true ->
  Z.of_nat (list_sum (map adds cs)) < 2 ^ 31 - 1 ->
  exists e m, drun esz (∅, mem0) cs = Ok (e, m) /\ (forall x, ls !! x = None <-> e !! x = None) /\
  forall x l d, ls !! x = Some l -> e !! x = Some d -> shows d m l.
Proof. intros A esz. exact (back_history esz). Qed.
Print Assumptions C13_no_front_partial.
Example C13_no_front_case : lrun ∅ back_demo = Some (list_to_map [(0%nat, [2; 3; 8; 8]); (1%nat, [])]) /\
  forallb (fun c => negb (fronts c)) back_demo = true /\ list_sum (map adds back_demo) = 5%nat /\
  show (drun 4 (∅, mem0) back_demo) 0 = Ok (value <$> [2; 3; 8; 8]).
Proof. exact back_runs. Qed.

(** C13, finding: whenever the first element is at the very start of two or more blocks, adding at the
    front writes outside the new block array. *)
Theorem C13_front_growth : forall (A : Type) esz (cs : list (dcmd A)) s e m x d a,
  reached esz cs s e m -> e !! x = Some d -> dfirst d = 0 -> 2 <= dbs d -> emplace_front esz a d m = UB.
Proof. intros A esz. exact (front_bad esz). Qed.
Print Assumptions C13_front_growth.
Example C13_front_growth_case : exists s e m d, reached 4 [DInit 0 (replicate 17 1)] s e m /\ e !! 0%nat = Some d /\ dfirst d = 0 /\ 2 <= dbs d.
Proof. exact front17_state. Qed.
Theorem C13_front_refuted : exists cs ls : list Z, exists s, lrun ∅ [DInit 0 cs; DPushFront 0 2] = Some s /\ s !! 0%nat = Some ls /\
  drun 4 (∅, mem0) [DInit 0 cs; DPushFront 0 2] = UB.
Proof. exact (ex_intro _ (replicate 17 1) (ex_intro _ (2 :: replicate 17 1) (ex_intro _ _ (conj (proj1 front17_ub) (conj eq_refl (proj2 front17_ub)))))). Qed.
Print Assumptions C13_front_refuted.
Theorem C13_33_fronts_refuted : lrun ∅ (DNew 0 :: replicate 33 (DPushFront 0 2)) = Some (list_to_map [(0%nat, replicate 33 2)]) /\
  drun 4 (∅, mem0) (DNew 0 :: replicate 33 (DPushFront 0 2)) = UB.
Proof. exact front33_ub. Qed.
Print Assumptions C13_33_fronts_refuted.

(** C14. What d[i] is: positions are counted from the start of the first block, not from the first
    element; every other index is undefined behaviour. *)
Theorem C14_index_exact : forall (A : Type) esz (cs : list (dcmd A)) s e m x q d,
  reached esz cs s e m -> s !! x = Some q -> e !! x = Some d ->
  (forall i a, elems q !! i = Some a -> dget (dfirst d + Z.of_nat i) d m = Ok (value a)) /\
  (forall i, 0 <= i < 2 ^ 64 -> i < dfirst d \/ dfirst d + Z.of_nat (length (elems q)) <= i -> dget i d m = UB).
Proof. intros A esz. exact (index_exact esz). Qed.
Print Assumptions C14_index_exact.
(** C14, finding. *)
Theorem C14_index_refuted : lrun ∅ [DInit 0 [1; 2; 3]; DPopFront 0] = Some (list_to_map [(0%nat, [2; 3])]) /\
  showi (drun 4 (∅, mem0) [DInit 0 [1; 2; 3]; DPopFront 0]) 0 0 = UB /\
  showi (drun 4 (∅, mem0) [DInit 0 [1; 2; 3]; DPopFront 0]) 0 1 = Ok (value 2).
Proof. exact index_popped. Qed.
Print Assumptions C14_index_refuted.
Theorem C14_pushed_front_refuted : lrun ∅ [DNew 0; DPushFront 0 5] = Some (list_to_map [(0%nat, [5])]) /\
  showi (drun 4 (∅, mem0) [DNew 0; DPushFront 0 5]) 0 0 = UB.
Proof. exact index_pushed. Qed.
Print Assumptions C14_pushed_front_refuted.
(** C14 for histories that only add at the back.
    Missing from the full statement: histories with removals or additions at the front. *)
Theorem C14_index_partial : forall (A : Type) esz (cs : list (dcmd A)) ls,
  16 * esz < 2 ^ 63 -> lrun ∅ cs = Some ls -> forallb (fun c => negb (fronts c) && negb (takes c)) cs = true ->
  Z.of_nat (list_sum (map adds cs)) < 2 ^ 31 - 1 ->
  exists e m, drun esz (∅, mem0) cs = Ok (e, m) /\
  forall x l d i a, ls !! x = Some l -> e !! x = Some d -> l !! i = Some a -> dget (Z.of_nat i) d m = Ok (value a).
Proof. intros A esz. exact (index_grown esz). Qed.
Print Assumptions C14_index_partial.
Example C14_index_case : lrun ∅ grown = Some (list_to_map [(0%nat, [1; 2; 3; 4]); (1%nat, [1; 2; 3; 4; 2])]) /\
  forallb (fun c => negb (fronts c) && negb (takes c)) grown = true /\ list_sum (map adds grown) = 5%nat /\
  showi (drun 4 (∅, mem0) grown) 1 4 = Ok (value 2).
Proof. exact grown_runs. Qed.

(** C15, finding: for every reachable empty deque begin() is not end(), and iterating or copying it
    reads an element that is not there. *)
Theorem C15_empty_refuted : forall (A : Type) esz (cs : list (dcmd A)) s e m x q d,
  reached esz cs s e m -> s !! x = Some q -> elems q = [] -> e !! x = Some d ->
  dbegin d <> dend d /\ diter d m = UB /\ dcopy esz d m = UB.
Proof. intros A esz. exact (empty_bad esz). Qed.
Print Assumptions C15_empty_refuted.
Example C15_empty_case : to_list (srun ∅ [DNew 0; DInit 1 [3]; DPopFront 1] : option (gmap nat (sq Z))) =
    Some [(0%nat, sq0); (1%nat, {| elems := []; room := 1; head := 0 |})] /\
  drun 4 (∅, mem0) ([DNew 0; DCopy 1 0] : list (dcmd Z)) = UB /\
  drun 4 (∅, mem0) ([DInit 1 [3]; DPopFront 1; DCopy 0 1] : list (dcmd Z)) = UB.
Proof. exact empty_reached. Qed.

(** C16. Queues are first-in first-out over any history of pushes, pops, copies, moves, assignments and
    swaps.
    Missing from the full statement: 2^31 - 1 or more pushes (storage of a queue that is never empty
    grows with every push until the int loop counters overflow, see C18), and copies of an empty queue
    (refuted below). *)
Theorem C16_queue_partial : forall (A : Type) esz (cs : list (qcmd A)) ls,
  16 * esz < 2 ^ 63 -> qspecs ∅ cs = Some ls -> Z.of_nat (qpushes cs) < 2 ^ 31 - 1 ->
  exists e m, qrun esz (∅, mem0) cs = Ok (e, m) /\ (forall x, ls !! x = None <-> e !! x = None) /\
  forall x l d, ls !! x = Some l -> e !! x = Some d -> shows d m l.
Proof. intros A esz. exact (queue_history esz). Qed.
Print Assumptions C16_queue_partial.
Example C16_queue_case : qspecs ∅ queue_demo = Some (list_to_map [(0%nat, [3; 4]); (1%nat, [3; 4]); (2%nat, [3])]) /\ qpushes queue_demo = 4%nat /\
  show (qrun 4 (∅, mem0) queue_demo) 0 = Ok (value <$> [3; 4]) /\ show (qrun 4 (∅, mem0) queue_demo) 2 = Ok (value <$> [3]).
Proof. exact queue_runs. Qed.
(** C16, finding. *)
Theorem C16_copy_empty_refuted : qrun 4 (∅, mem0) ([QNew 0; QCopy 1 0] : list (qcmd Z)) = UB.
Proof. exact queue_copy_empty. Qed.
Print Assumptions C16_copy_empty_refuted.

(** C17. Stacks are last-in first-out over any history of pushes, pops, copies of non-empty stacks,
    moves, assignments and swaps, however long, with at most [N] elements in a stack at once; storage
    is at most N / 8 + 1 blocks of 16. *)
Theorem C17_stack : forall (A : Type) esz N (cs : list (kcmd A)) ls,
  16 * esz < 2 ^ 63 -> kspecs ∅ cs = Some ls -> kwithin N ∅ cs -> Z.of_nat (N / 8 + 1) < 2 ^ 31 ->
  exists e m, krun esz (∅, mem0) cs = Ok (e, m) /\ (forall x, ls !! x = None <-> e !! x = None) /\
  forall x l d, ls !! x = Some l -> e !! x = Some d -> shows d m l /\ dbs d <= Z.of_nat (N / 8 + 1).
Proof. intros A esz. exact (stack_history esz). Qed.
Print Assumptions C17_stack.
Example C17_stack_case : kspecs ∅ stack_demo = Some (list_to_map [(0%nat, [1; 2; 4]); (1%nat, [1; 2; 4]); (2%nat, [])]) /\ kwithin 3 ∅ stack_demo /\
  show (krun 4 (∅, mem0) stack_demo) 0 = Ok (value <$> [1; 2; 4]) /\ show (krun 4 (∅, mem0) stack_demo) 1 = Ok (value <$> [1; 2; 4]).
Proof. exact stack_runs. Qed.
(** C17, finding (copies are outside the statement). *)
Theorem C17_copy_empty_refuted : krun 4 (∅, mem0) ([KNew 0; KCopy 1 0] : list (kcmd Z)) = UB.
Proof. exact stack_copy_empty. Qed.
Print Assumptions C17_copy_empty_refuted.

(** C18, finding: two elements at a time are enough to take any number of blocks. *)
Theorem C18_storage_refuted : forall (A : Type) esz (a : A) (B : nat), 16 * esz < 2 ^ 63 -> Z.of_nat B + 1 < 2 ^ 31 ->
  exists (l : list (option A)) ls e m d, qspecs ∅ (qops l) = Some ls /\ (held 0 l <= 2)%nat /\ qrun esz (∅, mem0) (qops l) = Ok (e, m) /\
    e !! 0%nat = Some d /\ Z.of_nat B < dbs d.
Proof. intros A esz. exact (storage_unbounded esz). Qed.
Print Assumptions C18_storage_refuted.
(** C18, what does hold: with at most P pushes between two moments at which the queue is empty, it has
    at most P / 8 + 1 blocks, however long the history (and stays first-in first-out).
    Missing from the full statement: a bound by the number of elements held at once. *)
Theorem C18_storage_partial : forall (A : Type) esz (l : list (option A)) ls,
  16 * esz < 2 ^ 63 -> qspecs ∅ (qops l) = Some ls -> Z.of_nat (longest 0 0 l / 8 + 1) < 2 ^ 31 ->
  exists e m d, qrun esz (∅, mem0) (qops l) = Ok (e, m) /\ e !! 0%nat = Some d /\ dbs d <= Z.of_nat (longest 0 0 l / 8 + 1) /\
    forall x, ls !! 0%nat = Some x -> shows d m x.
Proof. intros A esz. exact (storage_bound esz). Qed.
Print Assumptions C18_storage_partial.
Example C18_storage_case : to_list (qspecs ∅ (qops rounds)) = Some [(0%nat, [])] /\ longest 0 0 rounds = 3%nat /\
  match qrun 4 (∅, mem0) (qops rounds) with Ok (e, _) => match e !! 0%nat with Some d => dbs d = 1 | None => False end | _ => False end.
Proof. exact rounds_run. Qed.

(** C61. Whatever the history, as long as it is defined: objects are constructed only in raw slots and
    destroyed only where one is alive, buffers returned only once and only when nothing is alive in
    them; when all deques are gone so are all objects and buffers. *)
Theorem C61_lifetimes : forall (A : Type) esz (cs : list (dcmd A)) e m,
  drun esz (∅, mem0) cs = Ok (e, m) -> legal_trace (trace m).
Proof. intros A esz. exact (lifetimes esz). Qed.
Print Assumptions C61_lifetimes.
Theorem C61_all_gone : forall (A : Type) esz (cs : list (dcmd A)) e m,
  reached esz cs ∅ e m -> objects_gone (trace m) /\ nonempty_buffers_gone (trace m).
Proof. intros A esz. exact (all_gone esz). Qed.
Print Assumptions C61_all_gone.
Example C61_case : srun ∅ life = Some ∅ /\
  match drun 4 (∅, mem0) life with Ok (e, m) => (length (trace m) = 32)%nat | _ => False end.
Proof. exact life_runs. Qed.

(** C62. An element of the deque may itself be pushed: the reference stays good while the block array
    is replaced. *)
Theorem C62_push_own_back : forall (A : Type) esz (cs : list (dcmd A)) s e m x q d i a,
  reached esz cs s e m -> s !! x = Some q -> e !! x = Some d -> elems q !! i = Some a -> Z.of_nat (room q) + 1 < 2 ^ 31 ->
  exists p d' m', obj_ptr d (dbegin d + Z.of_nat i) m = Ok p /\ emplace_back esz (ARef p) d m = Ok (d', m') /\ shows d' m' (elems q ++ [a]).
Proof. intros A esz. exact (push_own_back esz). Qed.
Print Assumptions C62_push_own_back.
Theorem C62_push_own_front : forall (A : Type) esz (cs : list (dcmd A)) s e m x q d i a,
  reached esz cs s e m -> s !! x = Some q -> e !! x = Some d -> elems q !! i = Some a -> 0 < dfirst d \/ dbs d <= 1 ->
  exists p d' m', obj_ptr d (dbegin d + Z.of_nat i) m = Ok p /\ emplace_front esz (ARef p) d m = Ok (d', m') /\ shows d' m' (a :: elems q).
Proof. intros A esz. exact (push_own_front esz). Qed.
Print Assumptions C62_push_own_front.
Example C62_case : to_list (srun ∅ [DInit 0 (seqZ 1 16); DPushBackOf 0 3; DPopFront 0; DPushFrontOf 0 1]) =
    Some [(0%nat, {| elems := 3 :: seqZ 2 15 ++ [4]; room := 2; head := 0 |})] /\
  show (drun 4 (∅, mem0) [DInit 0 (seqZ 1 16); DPushBackOf 0 3; DPopFront 0; DPushFrontOf 0 1]) 0 = Ok (value <$> 3 :: seqZ 2 15 ++ [4]).
Proof. exact own_runs. Qed.
