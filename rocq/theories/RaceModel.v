(** The events of threads that share one object, for the C++ memory model: what each step of ThreadsModel.v accesses, and with which
    memory order. The counters are only ever changed by read-modify-writes, so every change of a counter reads the one before it and
    the order of the steps of a schedule is a possible order of all changes. use_count() is a relaxed load and may see an older value.
    lock() is left out (C29). *)
From stdpp Require Import list.
From Coq Require Import ZArith.
From Verif Require Import Base ThreadsModel.

(** atomic.hpp:5-12 *)
Inductive order := Relaxed | Consume | Acquire | Release | AcqRel | SeqCst.
(** The orders of the changes in memory.hpp:341-346, 361-366; the load in 333-335 is relaxed and orders nothing. *)
Record orders := { inc_s : order; dec_s : order; inc_w : order; dec_w : order }.
(** ++ and -- of atomic.hpp:141-147, 157-163 are seq_cst. *)
Definition code_orders : orders := {| inc_s := SeqCst; dec_s := SeqCst; inc_w := SeqCst; dec_w := SeqCst |}.

(** the two counters of memory.hpp:326-372 *)
Inductive counter := Shared | Weak.
Inductive label :=
| Make                        (* the object and its block are built: 564-568 *)
| Rmw (c : counter) (up : bool)   (* a counter goes up or down *)
| Load                        (* use_count() *)
| Use                         (* the object is used *)
| Hand (j : nat)              (* a handle is handed to thread [j]; the means of doing so synchronises *)
| Destroy                     (* 388-392: ptr_ is read from the block, the object deleted *)
| FreeBlock.                  (* 394-396 *)

(** The event of one step of ThreadsModel.exec. *)
Definition label_of (a : action) (p : pc) : option label :=
  match a, p with
  | CopyS, _ => Some (Rmw Shared true)
  | (CopyWS | CopyW), _ => Some (Rmw Weak true)
  | DropS, _ => Some (Rmw Shared false)
  | DropW, _ => Some (Rmw Weak false)
  | Deref, _ => Some Use
  | Count, _ => Some Load
  | (GiveS j | GiveW j), _ => Some (Hand j)
  | Go, Dispose => Some Destroy
  | Go, WeakRel => Some (Rmw Weak false)
  | Go, Free => Some FreeBlock
  | LockW, _ | Go, _ => None
  end.
(** An event: the thread, what it does, and the value of the shared counter after it. *)
Record event := Ev { who : nat; what : label; now : Z }.
(** model only: the operations of a program in order *)
Fixpoint events (l : list (nat * action)) (w : world) : option (list event) :=
  match l with
  | [] => Some []
  | (i, a) :: l =>
      t ← threads w !! i; b ← label_of a (at_ t);
      match exec i a w with
      | Some (Ok w') => es ← events l w'; Some (Ev i b (sc w') :: es)
      | _ => None
      end
  end.
(** All events of a schedule from a fresh shared_ptr in thread 0, its making first. *)
Definition trace (n : nat) (l : list (nat * action)) : option (list event) :=
  es ← events l (fresh n); Some (Ev 0 Make 1 :: es).
