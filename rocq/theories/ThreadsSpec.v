(** What threads sharing one object may rely on. *)
From stdpp Require Import list list_numbers.
From Coq Require Import ZArith.
From Verif Require Import Base ThreadsModel.

Definition shared_handles (w : world) : nat := sum_list_with shn (threads w).
Definition weak_handles (w : world) : nat := sum_list_with wkn (threads w).
(** No thread is inside an operation. *)
Definition settled (w : world) : Prop := Forall (fun t => at_ t = Idle) (threads w).

(** The object is there as long as a shared handle is, and so is the block as long as any handle is.
    Nothing is destroyed or freed twice, or while it is in use.
    When every operation has ended, the object has been destroyed exactly if no shared handle is left
    and the block freed exactly if no handle is left. *)
Record fine (w : world) : Prop := {
  fine_object : shared_handles w > 0 -> alive w = true /\ ndes w = 0;
  fine_block : shared_handles w + weak_handles w > 0 -> there w = true /\ nfre w = 0;
  fine_once : ndes w = (if alive w then 0 else 1) /\ nfre w = (if there w then 0 else 1);
  fine_order : there w = false -> alive w = false;
  fine_end : settled w ->
    (alive w = false <-> shared_handles w = 0) /\ (there w = false <-> shared_handles w + weak_handles w = 0);
  (** an operation begun can go on *)
  fine_go i t : threads w !! i = Some t -> at_ t <> Idle -> exists w', exec i Go w = Some (Ok w')
}.

Definition is_lock (a : action) : bool := match a with LockW => true | _ => false end.
(** No lock() in the schedule. *)
Definition lockless (l : list (nat * action)) : bool := forallb (fun p => negb (is_lock p.2)) l.

Definition locking (t : thread) : bool := match at_ t with Locking _ => true | _ => false end.
(** No thread inside lock(). *)
Definition no_lock (w : world) : bool := forallb (fun t => negb (locking t)) (threads w).
(** No thread copies or drops a shared handle, or enters lock(), while another is inside lock(); everything
    else may go on. *)
Fixpoint undisturbed (l : list (nat * action)) (w : world) : bool :=
  match l with
  | [] => true
  | (i, a) :: l =>
      match a with CopyS | DropS | LockW => no_lock w | _ => true end &&
      match exec i a w with Some (Ok w) => undisturbed l w | _ => true end
  end.

(** Thread [i] is inside lock() and its next access makes lock() return a non-null pointer. *)
Definition lock_returns (i : nat) (w : world) : Prop :=
  exists t c w', threads w !! i = Some t /\ at_ t = Locking c /\ exec i Go w = Some (Ok w') /\
    exists t', threads w' !! i = Some t' /\ shn t' = S (shn t).
