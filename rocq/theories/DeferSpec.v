(** What the guards of defer.hpp:6-40 owe: counted per action. *)
From stdpp Require Import gmap.
From Coq Require Import ZArith.
From Verif Require Import Base OwnSpec OwnModel.

(** The guard will run action [a] when it dies. *)
Definition owes (a : N) (g : dguard) : bool := negb (dismissed g) && bool_decide (exit_scope g = Some a).
Definition owing (a : N) (w : dworld) : nat := size (filter (fun kv : N * dguard => owes a (snd kv) = true) (guards w)).
Definition runs (a : N) (w : dworld) : nat := length (filter (fun x => x = a) (ran w)).
Definition owes_at (a : N) (w : dworld) (s : N) : Z :=
  match guards w !! s with Some g => if owes a g then 1 else 0 | None => 0 end.
(** Debts made and cancelled: a new guard and a copy add one, dismissing takes one away; moving changes nothing. *)
Definition debt (a : N) (w : dworld) (o : dop) : Z :=
  match o with
  | DNew _ x => if bool_decide (x = a) then 1 else 0
  | DCopy _ src | DAssignCopy _ src => owes_at a w src
  | DDismiss s => - owes_at a w s
  | _ => 0
  end.
Fixpoint debts (a : N) (w : dworld) (os : list dop) : Z :=
  match os with
  | [] => 0
  | o :: os => debt a w o + match d_step w o with Ok w1 => debts a w1 os | _ => 0 end
  end.
(** The guard a command destroys, if any, is one that can be destroyed: dismissed or with an action. *)
Definition can_die (g : dguard) : Prop := dismissed g = true \/ exit_scope g <> None.
Definition names_ok (w : dworld) (o : dop) : Prop :=
  match o with
  | DNew s _ => guards w !! s = None
  | DDismiss s | DDtor s => guards w !! s <> None
  | DSwap a b => guards w !! a <> None /\ guards w !! b <> None
  | DMove s src | DCopy s src => guards w !! s = None /\ guards w !! src <> None
  | DAssignMove s src | DAssignCopy s src => guards w !! 0%N = None /\ s <> 0%N /\ src <> 0%N /\ guards w !! s <> None /\ guards w !! src <> None
  end.
Definition dies_well (w : dworld) (o : dop) : Prop :=
  match o with
  | DDtor s | DAssignMove s _ | DAssignCopy s _ => forall g, guards w !! s = Some g -> can_die g
  | _ => True
  end.
(** The history makes no copy; how many guards are built for [a]. *)
Definition no_copy (o : dop) : Prop := match o with DCopy _ _ | DAssignCopy _ _ => False | _ => True end.
Definition makes (a : N) (o : dop) : Prop := match o with DNew _ x => x = a | _ => False end.
Global Instance makes_dec a o : Decision (makes a o).
Proof. destruct o; cbn; apply _. Defined.
Definition made (a : N) (os : list dop) : nat := length (filter (makes a) os).
