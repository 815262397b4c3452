(** C29 for schedules of any length in which every lock() counts once. *)
From stdpp Require Import list.
From Coq Require Import ZArith.
From Verif Require Import Base ThreadsModel ThreadsSpec LockSpec ThreadsLongSpec LockLong.

(** C29, full statement: without [honest], which is false ([C29_uncounted_refuted]). As [C29_counted_partial], however long the
    schedule is, as long as the count stays away from its limit. *)
Theorem C29_counted_any_length_partial : forall n l r, honest (fun _ => 0) l (fresh n) = true -> low_count n l ->
  sched l (fresh n) = Some r -> exists w, r = Ok w /\ fine w.
Proof. exact honest_long. Qed.
Print Assumptions C29_counted_any_length_partial.
Example C29_counted_any_length_example : forall n, let l := (0, CopyWS) :: (0, GiveW 1) :: meddles n in
  honest (fun _ => 0) l (fresh 1) = true /\ low_count 1 l /\ sched l (fresh 1) = Some (Ok watched) /\ length l = 2 + 6 * n.
Proof. exact meddles_ok. Qed.
