(** What lock() of memory.hpp:348-358 counts, under any interleaving. *)
From stdpp Require Import list list_numbers.
From Coq Require Import ZArith.
From Verif Require Import Base ThreadsModel ThreadsSpec.

(** The step is an exchange of line 355; does it succeed? A failing one ends lock() with a pointer. *)
Definition exchange (i : nat) (a : action) (w : world) : option bool :=
  match a, threads w !! i with
  | Go, Some t => match at_ t with Locking c => if (c =? 0)%Z then None else Some (sc w =? c)%Z | _ => None end
  | _, _ => None
  end.
(** Exchanges that succeeded less pointers returned by lock(). *)
Fixpoint drift (l : list (nat * action)) (w : world) : Z :=
  match l with
  | [] => 0
  | (i, a) :: l =>
      match exchange i a w with Some true => 1 | Some false => -1 | None => 0 end +
      match exec i a w with Some (Ok w) => drift l w | _ => 0 end
  end.
(** [g i]: the exchanges thread i has made in its present lock(). Every lock() that returns a pointer has made exactly one. *)
Definition set_at (g : nat -> nat) (i x : nat) : nat -> nat := fun j => if decide (j = i) then x else g j.
Definition tally (g : nat -> nat) (i : nat) (a : action) (w : world) : nat -> nat :=
  match exchange i a w with Some true => set_at g i (S (g i)) | Some false => set_at g i 0 | None => g end.
Definition honest_step (g : nat -> nat) (i : nat) (a : action) (w : world) : bool :=
  match exchange i a w with Some false => (g i =? 1)%nat | _ => true end.
Fixpoint honest (g : nat -> nat) (l : list (nat * action)) (w : world) : bool :=
  match l with
  | [] => true
  | (i, a) :: l =>
      honest_step g i a w &&
      match exec i a w with Some (Ok w') => honest (tally g i a w) l w' | _ => true end
  end.
