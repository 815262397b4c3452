(** Programs that use one set or multiset (estl/set.hpp:8-145, 147-283). *)
From stdpp Require Import gmap list.
From Coq Require Import ZArith.
From Verif Require Import Base RbModel RbSpec.
Local Open Scope outcome_scope.

Section run.
Context {A : Type} (lt : A -> A -> bool).

(** begin() advanced [n] times *)
Fixpoint advance (fuel n : nat) (x : loc) (s : heap A) : outcome loc :=
  match n with O => Ok x | S n => x <~ increment fuel x s ; advance fuel n x s end.
Definition nth_it (fuel n : nat) (t : tree) (s : heap A) : outcome loc :=
  x <~ tbegin (hd t) s ; advance fuel n x s.

(** set.hpp:86-95 and 226-233 *)
Definition add (fuel : nat) (unique : bool) (t : tree) (v : A) (s : heap A) : outcome (tree * heap A) :=
  if unique then ' (_, _, t, s) <~ emplace_unique lt fuel t v s ; Ok (t, s)
  else ' (_, t, s) <~ emplace_multi lt fuel t v s ; Ok (t, s).
(** set.hpp:97-118 and 235-257; nothing is done where the arguments would not be iterators of the set *)
Definition step (fuel : nat) (unique : bool) (c : cmd (A := A)) (t : tree) (s : heap A) : outcome (tree * heap A) :=
  match c with
  | Add v => add fuel unique t v s
  | Del n =>
      if (Z.of_nat n <? ct t)%Z then x <~ nth_it fuel n t s ; ' (_, t, s) <~ erase fuel t x s ; Ok (t, s)
      else Ok (t, s)
  | DelKey k =>
      if unique then ' (_, t, s) <~ erase_unique lt fuel t k s ; Ok (t, s)
      else ' (_, t, s) <~ erase_multi lt fuel t k s ; Ok (t, s)
  | DelRange i j =>
      if (i <=? j) && (Z.of_nat j <=? ct t)%Z then
        x <~ nth_it fuel i t s ; y <~ nth_it fuel j t s ; erase_range fuel t x y s
      else Ok (t, s)
  | Clear => clear fuel t s
  end.
Fixpoint steps (fuel : nat) (unique : bool) (cs : list (cmd (A := A))) (t : tree) (s : heap A) : outcome (tree * heap A) :=
  match cs with
  | [] => Ok (t, s)
  | c :: cs => ' (t, s) <~ step fuel unique c t s ; steps fuel unique cs t s
  end.
Definition no_heap : heap A := {| cells := ∅; made := 0 |}.
(** a new set, then the commands *)
Definition run (fuel : nat) (unique : bool) (cs : list (cmd (A := A))) : outcome (tree * heap A) :=
  ' (t, s) <~ tree_new no_heap ; steps fuel unique cs t s.
End run.
