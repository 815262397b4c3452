(** C29: lock() under any interleaving. *)
From stdpp Require Import list list_numbers.
From Coq Require Import ZArith.
From Verif Require Import Base ThreadsModel ThreadsSpec LockSpec LockProofs LockExamples.

(** C29: after any schedule the shared count is off by exactly the exchanges made inside lock() less the pointers lock() returned. *)
Theorem C29_ledger : forall n l w, sched l (fresh n) = Some (Ok w) ->
  sc w = wrap (Z.of_nat (shared_handles w) + drift l (fresh n)).
Proof. exact lock_ledger. Qed.
Print Assumptions C29_ledger.
Example C29_ledger_example : drift short (fresh 1) = (-1)%Z /\ drift long (fresh 1) = 1%Z /\
  match sched short (fresh 1) with Some (Ok w) => shared_handles w = 3 /\ sc w = 2%Z | _ => False end /\
  match sched long (fresh 1) with Some (Ok w) => shared_handles w = 2 /\ sc w = 3%Z | _ => False end.
Proof. exact short_long. Qed.

(** C29: as long as every lock() that returns a pointer has made exactly one exchange, all is well, whatever the other threads do
    meanwhile. *)
Theorem C29_counted_partial : forall n l r, honest (fun _ => 0) l (fresh n) = true -> (Z.of_nat (length l) + 4 < 2 ^ 64)%Z ->
  sched l (fresh n) = Some r -> exists w, r = Ok w /\ fine w.
Proof. exact honest_fine. Qed.
Print Assumptions C29_counted_partial.
Example C29_counted_example : honest (fun _ => 0) busy (fresh 1) = true /\ undisturbed busy (fresh 1) = false /\
  match sched busy (fresh 1) with Some (Ok w) => alive w = true /\ shared_handles w = 1 /\ sc w = 1%Z | _ => False end.
Proof. exact busy_runs. Qed.
