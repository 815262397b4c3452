(** The events of C94 with those of lock() (memory.hpp:348-358): the load, the exchange that succeeds (acq_rel), the one that fails (a relaxed load). *)
From stdpp Require Import list.
From Coq Require Import ZArith.
From Verif Require Import Base ThreadsModel RaceModel.

(** As [label_of]; [sc]: the shared counter before the step. lock() that has seen 0 returns without an access (352-353): no label. *)
Definition label_with (a : action) (p : pc) (sc : Z) : option (option label) :=
  match a, p with
  | LockW, _ => Some (Some Load)                                   (* 349 *)
  | Go, Locking c =>
      if (c =? 0)%Z then Some None
      else if (sc =? c)%Z then Some (Some (Rmw Shared true)) else Some (Some Load)   (* 355 *)
  | _, _ => option_map Some (label_of a p)
  end.
(** model only: the operations of a program in order *)
Fixpoint events_lock (l : list (nat * action)) (w : world) : option (list event) :=
  match l with
  | [] => Some []
  | (i, a) :: l =>
      t ← threads w !! i; b ← label_with a (at_ t) (sc w);
      match exec i a w with
      | Some (Ok w') => es ← events_lock l w'; Some (match b with Some b => Ev i b (sc w') :: es | None => es end)
      | _ => None
      end
  end.
(** model only: the operations of a program in order *)
Definition trace_lock (n : nat) (l : list (nat * action)) : option (list event) :=
  es ← events_lock l (fresh n); Some (Ev 0 Make 1 :: es).
