(** C29, C32 for schedules of any length. *)
From stdpp Require Import list.
From Coq Require Import ZArith.
From Verif Require Import Base ThreadsModel ThreadsSpec ThreadsLongSpec ThreadsLong.

(** C32. As [C32_interleavings], however long the schedule is, as long as the handles of one moment can be counted. *)
Theorem C32_any_length : forall n l r, lockless l = true -> countable n l ->
  sched l (fresh n) = Some r -> exists w, r = Ok w /\ fine w.
Proof. exact lockless_long. Qed.
Print Assumptions C32_any_length.
(** A handle is copied, handed over and dropped, [n] times. *)
Example C32_any_length_example : forall n, lockless (turns n) = true /\ countable 1 (turns n) /\
  sched (turns n) (fresh 1) = Some (Ok (fresh 1)) /\ length (turns n) = 3 * n.
Proof. exact turns_ok. Qed.

(** C29, full statement: without [undisturbed], which is false ([C29_dead_refuted]). While nobody disturbs it, lock()
    is right in schedules of any length. *)
Theorem C29_any_length_partial : forall n l r, undisturbed l (fresh n) = true -> countable n l ->
  sched l (fresh n) = Some r -> exists w, r = Ok w /\ fine w /\ forall i, lock_returns i w -> alive w = true.
Proof. exact threads_long. Qed.
Print Assumptions C29_any_length_partial.
Example C29_any_length_example : forall n, undisturbed ((0, CopyWS) :: locks n) (fresh 1) = true /\
  countable 1 ((0, CopyWS) :: locks n) /\ sched ((0, CopyWS) :: locks n) (fresh 1) = Some (Ok held_weak) /\ length (locks n) = 4 * n.
Proof. exact locks_ok. Qed.
