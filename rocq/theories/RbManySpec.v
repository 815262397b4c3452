(** Programs over several sets: the commands and what they are to do (each set is a list). *)
From stdpp Require Import list list_numbers.
From Coq Require Import ZArith.
From Verif Require Import Base RbModel RbSpec.

Section spec.
Context {A : Type} (lt : A -> A -> bool).
Notation cmd := (cmd (A := A)).

(** the sets of the program by number, [None] after destruction *)
Inductive mcmd :=
  | MNew (vs : list A)            (* set(list), set(first, last), set() *)
  | MCopy (j : nat)               (* set(const set&) *)
  | MMove (j : nat)               (* set(set&&) *)
  | MAssign (i j : nat)           (* i = j *)
  | MMoveAssign (i j : nat)       (* i = move(j) *)
  | MAssignList (i : nat) (vs : list A)
  | MSwap (i j : nat)
  | MDrop (i : nat)
  | MOn (i : nat) (c : cmd).
Definition live {B} (hs : list (option B)) (i : nat) : option B := hs !! i ≫= id.

Definition meffect (unique : bool) (c : mcmd) (ls : list (option (list A))) : list (option (list A)) :=
  match c with
  | MNew vs => ls ++ [Some (effects lt unique (Add <$> vs) [])]
  | MCopy j => match live ls j with Some l => ls ++ [Some l] | None => ls end
  | MMove j => match live ls j with Some l => <[j := Some []]> ls ++ [Some l] | None => ls end
  | MAssign i j => match live ls i, live ls j with Some _, Some l => <[i := Some l]> ls | _, _ => ls end
  | MMoveAssign i j =>
      match live ls i, live ls j with Some _, Some l => <[i := Some l]> (<[j := Some []]> ls) | _, _ => ls end
  | MAssignList i vs => match live ls i with Some _ => <[i := Some (effects lt unique (Add <$> vs) [])]> ls | None => ls end
  | MSwap i j =>
      match live ls i, live ls j with Some l, Some m => <[j := Some l]> (<[i := Some m]> ls) | _, _ => ls end
  | MDrop i => match live ls i with Some _ => <[i := None]> ls | None => ls end
  | MOn i c => match live ls i with Some l => <[i := Some (effect lt unique c l)]> ls | None => ls end
  end.
Definition meffects (unique : bool) (cs : list mcmd) (ls : list (option (list A))) : list (option (list A)) :=
  fold_left (fun ls c => meffect unique c ls) cs ls.
Definition madd (c : mcmd) : nat :=
  match c with MNew vs | MAssignList _ vs => length vs | MOn _ (Add _) => 1 | _ => 0 end.
Definition madds (cs : list mcmd) : nat := sum_list (madd <$> cs).
(** erases elements one by one: the only commands that may not end *)
Definition erases (c : mcmd) : bool := match c with MOn _ (Add _) => false | MOn _ _ => true | _ => false end.
Definition nodes (ls : list (option (list A))) : nat :=
  sum_list ((fun o => match o with Some l => S (length l) | None => 0 end) <$> ls).

(** set [i] of the program holds [l] *)
Definition holds (fuel : nat) (hs : list (option tree)) (s : heap A) (i : nat) (l : list A) : Prop :=
  exists T p, live hs i = Some T /\ forward fuel (hd T) s = Ok p /\ p.*2 = l /\ ct T = Z.of_nat (length l).
End spec.
