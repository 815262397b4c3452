(** How many blocks a queue in use has (C18): [Some a] pushes a, [None] pops. *)
From stdpp Require Import list.

(** The numbers of pushes between the moments at which the queue is empty, in order; [n] elements are in
    the queue and [k] pushes have been made since it was last empty. *)
Fixpoint stretches {A : Type} (n k : nat) (l : list (option A)) : list nat :=
  match l with
  | [] => [k]
  | Some _ :: l => stretches (S n) (S k) l
  | None :: l => if Nat.eqb n 1 then k :: stretches 0 0 l else stretches (n - 1) k l
  end.
(** A stretch of k pushes starts at the block in the middle and takes sixteen elements a block; blocks are
    only added. *)
Definition after (r k : nat) : nat := Nat.max r (r / 2 + (k + 15) / 16).
Definition blocks (ks : list nat) : nat := fold_left after ks 0.
