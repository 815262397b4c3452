(** Schedules of any length over handles that can be counted. *)
From stdpp Require Import list.
From Coq Require Import ZArith.
From Verif Require Import Base ThreadsModel ThreadsSpec.
Local Open Scope nat_scope.

(** At no moment of the schedule the threads have nearly 2^64 handles; each takes 16 of the 2^64 bytes that can be
    addressed, so there are never more than 2^60. *)
Definition countable (n : nat) (l : list (nat * action)) : Prop :=
  forall m w, sched (take m l) (fresh n) = Some (Ok w) -> (Z.of_nat (shared_handles w + weak_handles w) + 3 < 2 ^ 64)%Z.
(** At no moment of the schedule the shared count, with the weak handles, comes near 2^64. *)
Definition low_count (n : nat) (l : list (nat * action)) : Prop :=
  forall m w, sched (take m l) (fresh n) = Some (Ok w) -> (sc w + Z.of_nat (weak_handles w) + 3 < 2 ^ 64)%Z.
