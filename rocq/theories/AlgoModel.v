(** Model of estl/algorithm.hpp (5-38), of estl/array.hpp (6-78) and of the assignment of estl/tuple.hpp (140-150).
    Objects live in numbered cells of a memory; iterators are cell numbers. Simplified: one cell per element; [fuel] bounds the loops. *)
From stdpp Require Import list.
From Coq Require Import NArith ZArith.
Local Open Scope N_scope.

(** model only: memory as a function *)
Definition mem := N -> Z.
(** model only: memory as a function *)
Definition write (m : mem) (a : N) (v : Z) : mem := fun b => if b =? a then v else m b.

(** algorithm.hpp:5-8 and 10-13: which of the two references is returned ([true]: lhs), for any [lt], [gt] *)
Definition min_ref {T} (lt : T -> T -> bool) (lhs rhs : T) : bool := if lt lhs rhs then true else false.
(** as above, algorithm.hpp:5-8; 10-13 *)
Definition max_ref {T} (gt : T -> T -> bool) (lhs rhs : T) : bool := if gt lhs rhs then true else false.
(** model only: the object a reference designates *)
Definition pick {T} (b : bool) (lhs rhs : T) : T := if b then lhs else rhs.

(** algorithm.hpp:22-29; the value is a reference to cell [va]. [None]: the loop has not ended. *)
Fixpoint fill (fuel : nat) (m : mem) (first last va : N) : option mem :=
  match fuel with
  | O => None
  | S fuel => if first =? last then Some m else fill fuel (write m first (m va)) (first + 1) last va
  end.
(** algorithm.hpp:31-38 *)
Fixpoint fill_n (fuel : nat) (m : mem) (first count va : N) : option mem :=
  match fuel with
  | O => None
  | S fuel => if 0 <? count then fill_n fuel (write m first (m va)) (first + 1) (count - 1) va else Some m
  end.
(** array.hpp:18-35, 25-27: an array of [n] elements from cell [base] *)
Definition array_fill (fuel : nat) (m : mem) (base n va : N) : option mem := fill fuel m base (base + n) va.
(** array.hpp:61-63: N - 1 in 64 bits *)
Definition back_index (n : N) : N := (n + 2 ^ 64 - 1) mod 2 ^ 64.

(** utility.hpp:36-41 on two cells; [tmp] is a local *)
Definition swap_cells (m : mem) (a b : N) : mem :=
  let tmp := m a in let m := write m a (m b) in write m b tmp.
(** tuple.hpp:187-190 on tuples of [n] elements starting at [a] and [b] *)
Fixpoint swap_impl (n : nat) (m : mem) (a b : N) : mem :=
  match n with O => m | S n => swap_impl n (swap_cells m a b) (a + 1) (b + 1) end.
(** tuple.hpp:122: member by member *)
Fixpoint copy_tuple (n : nat) (m : mem) (to from : N) : mem :=
  match n with O => m | S n => copy_tuple n (write m to (m from)) (to + 1) (from + 1) end.
(** tuple.hpp:140-143: a temporary at [tmp] is made from [t] and swapped with *this *)
Definition assign_tuple (n : nat) (m : mem) (tmp this t : N) : mem := swap_impl n (copy_tuple n m tmp t) tmp this.
