(** C92: iterators move by positions; a deque iterator stays with its element. *)
From stdpp Require Import gmap list.
From Coq Require Import ZArith Lia.
From Verif Require Import Base ObjModel DequeModel DequeSpec DequeFacts IterModel IterSpec IterProofs IterExamples.
Local Open Scope Z_scope.

(** Every program of iterator operations ends where the positions say, and is undefined exactly when it leaves the range. *)
Theorem C92_normal : forall len cs p, acts (n_exec len) cs p = of_option (moves len cs p).
Proof. exact normal_acts. Qed.
Print Assumptions C92_normal.
Example C92_normal_example : moves 7 tour 0 = Some 6 /\ acts (n_exec 7) tour 0 = Ok 6 /\ moves 6 tour 0 = None /\ acts (n_exec 6) tour 0 = UB.
Proof. repeat split. Qed.
(** A reverse iterator is the same program on the mirrored position. *)
Theorem C92_reverse : forall len cs p, acts (r_exec len) cs (len - p) = of_option ((fun q => len - q) <$> moves len cs p).
Proof. exact reverse_acts. Qed.
Print Assumptions C92_reverse.
Example C92_reverse_example : acts (r_exec 7) tour 7 = Ok 1 /\ acts (r_exec 6) tour 6 = UB.
Proof. repeat split. Qed.
(** Reading and indexing. *)
Theorem C92_normal_read : forall A (l : list A) p n, 0 <= p <= Z.of_nat (length l) ->
  n_read l p = of_option (l !! Z.to_nat p) /\
  n_index l p n = if decide (0 <= p + n) then of_option (l !! Z.to_nat (p + n)) else UB.
Proof. exact @normal_read. Qed.
Print Assumptions C92_normal_read.
Theorem C92_reverse_read : forall A (l : list A) p n, 0 <= p <= Z.of_nat (length l) ->
  r_read l (Z.of_nat (length l) - p) = of_option (reverse l !! Z.to_nat p) /\
  r_index l (Z.of_nat (length l) - p) n = if decide (0 <= p + n) then of_option (reverse l !! Z.to_nat (p + n)) else UB.
Proof. exact @reverse_read. Qed.
Print Assumptions C92_reverse_read.
Example C92_read_example : 0 <= 1 <= Z.of_nat (length [10; 20; 30; 40]) /\ n_index [10; 20; 30; 40] 1 2 = Ok 40 /\
  r_read [10; 20; 30; 40] 3 = Ok 30 /\ r_index [10; 20; 30; 40] 3 2 = Ok 10 /\ r_index [10; 20; 30; 40] 3 3 = UB.
Proof. repeat split; cbn; lia. Qed.

(** Comparing and subtracting. *)
Theorem C92_normal_compare : forall len cs ds p q, moves len cs 0 = Some p -> moves len ds 0 = Some q ->
  exists i j, acts (n_exec len) cs 0 = Ok i /\ acts (n_exec len) ds 0 = Ok j /\
    (n_eq i j = true <-> p = q) /\ (n_ne i j = true <-> p <> q) /\ (n_lt i j = true <-> p < q) /\ (n_le i j = true <-> p <= q) /\
    (n_gt i j = true <-> q < p) /\ (n_ge i j = true <-> q <= p) /\ q + n_diff i j = p.
Proof. exact normal_compare. Qed.
Print Assumptions C92_normal_compare.
Example C92_normal_compare_example : moves 7 tour 0 = Some 6 /\ moves 7 [] 0 = Some 0.
Proof. split; reflexivity. Qed.

(** A deque iterator that starts at begin() and stays within the range reads the element where it ends, knows its distance from
    begin(), and equals end() exactly behind the last element of a deque that is not empty. *)
Theorem C92_deque_walk : forall A esz cs s e m x (q : sq A) d prog k, reached esz cs s e m -> s !! x = Some q -> e !! x = Some d ->
  moves (Z.of_nat (length (elems q))) prog 0 = Some k ->
  exists i, acts d_exec prog (d_begin d) = Ok i /\
    (forall a, elems q !! Z.to_nat k = Some a -> d_read i d m = Ok (value a)) /\
    (elems q !! Z.to_nat k = None -> d_read i d m = UB) /\
    d_diff i (d_begin d) = Ok k /\ (elems q <> [] -> d_eq i (d_end d) = (k =? Z.of_nat (length (elems q)))).
Proof. exact @deque_walk. Qed.
Print Assumptions C92_deque_walk.
Example C92_deque_walk_example : exists s e m q d, reached 4 hist s e m /\ s !! 0%nat = Some q /\ e !! 0%nat = Some d /\
  moves (Z.of_nat (length (elems q))) tour 0 = Some 6 /\ elems q !! Z.to_nat 6 = Some 8.
Proof. destruct hist_reached as (s & e & m & q & d & R & S & E & L & _). exists s, e, m, q, d. rewrite L. auto. Qed.

(** Across pushes and pops at both ends that leave its element, an iterator keeps reading that element, wherever it has moved in the
    sequence - as long as no block is added at the front. *)
Theorem C92_deque_stays_partial : forall A esz cs s e m x (q : sq A) d k a os k' s', reached esz cs s e m -> s !! x = Some q ->
  e !! x = Some d -> elems q !! k = Some a -> ends_at os (length (elems q)) k = Some k' -> room_in_front os (Z.to_nat (dfirst d)) ->
  srun s (command_of x <$> os) = Some s' ->
  exists e' m' q' d', drun esz (e, m) (command_of x <$> os) = Ok (e', m') /\ s' !! x = Some q' /\ e' !! x = Some d' /\
    elems q' !! k' = Some a /\ d_read (dfirst d + Z.of_nat k) d' m' = Ok (value a) /\ dfirst d' + Z.of_nat k' = dfirst d + Z.of_nat k.
Proof. exact @deque_stays. Qed.
Print Assumptions C92_deque_stays_partial.
Example C92_deque_stays_example : exists s e m q d s', reached 4 hist s e m /\ s !! 0%nat = Some q /\ e !! 0%nat = Some d /\
  elems q !! 2%nat = Some 4 /\ ends_at ends (length (elems q)) 2 = Some 2%nat /\ room_in_front ends (Z.to_nat (dfirst d)) /\
  srun s (command_of 0 <$> ends) = Some s'.
Proof. exact stays_case. Qed.
(** When a block is added at the front all elements get numbers 16 higher; the iterators do not. *)
Theorem C92_deque_renumbered : forall A esz cs s e m x (q : sq A) d k a b, reached esz cs s e m -> s !! x = Some q -> e !! x = Some d ->
  elems q !! k = Some a -> dfirst d = 0 -> dbs d = 1 ->
  exists e' m' d', drun esz (e, m) [DPushFront x b] = Ok (e', m') /\ e' !! x = Some d' /\ (k < 16)%nat /\
    d_read (Z.of_nat k) d' m' = (if (k =? 15)%nat then Ok (value b) else UB) /\ d_read (Z.of_nat k + 16) d' m' = Ok (value a).
Proof. exact @deque_renumbered. Qed.
Print Assumptions C92_deque_renumbered.
Theorem C92_deque_stays_refuted : exists (cs : list (dcmd Z)) s e m q d e' m' d', reached 4 cs s e m /\ s !! 0%nat = Some q /\
  e !! 0%nat = Some d /\ elems q !! 1%nat = Some 2 /\ d_read (dfirst d + 1) d m = Ok (value 2) /\
  drun 4 (e, m) [DPushFront 0%nat 9] = Ok (e', m') /\ e' !! 0%nat = Some d' /\ d_read (dfirst d + 1) d' m' = UB.
Proof. exact stays_refuted. Qed.
Print Assumptions C92_deque_stays_refuted.
