(** Models of kernel/include/core/memory_literals.hpp (lines 5-15), of integer_sequence
    (estl/utility.hpp:43-70) and of tuple::swap (estl/tuple.hpp:31-34, 187-190). *)
From stdpp Require Import list.
From Coq Require Import NArith.
Local Open Scope N_scope.

(** memory_literals.hpp:5-15: shifts of a 64-bit unsigned number *)
Definition lit_GB (n : N) : N := N.shiftl n 30 mod 2 ^ 64.
(** as above, memory_literals.hpp:5-15 *)
Definition lit_MB (n : N) : N := N.shiftl n 20 mod 2 ^ 64.
(** as above, memory_literals.hpp:5-15 *)
Definition lit_KB (n : N) : N := N.shiftl n 10 mod 2 ^ 64.

(** utility.hpp:54-61: make_integer_sequence_helper<T, N, I...> *)
Fixpoint make_seq_helper (n : nat) (idx : list nat) : list nat :=
  match n with
  | O => idx
  | S n' => make_seq_helper n' (n' :: idx)
  end.
(** utility.hpp:63-67 *)
Definition make_index_sequence (n : nat) : list nat := make_seq_helper n [].

(** tuple.hpp:187-190: for each index of the sequence, in order, swap the two components
    (utility.hpp:36-41).  Tuples are lists of components; get<I> of a missing index does not
    compile and leaves the pair alone here. *)
Definition swap_at {A} (st : list A * list A) (i : nat) : list A * list A :=
  match st.1 !! i, st.2 !! i with
  | Some a, Some b => (<[i := b]> st.1, <[i := a]> st.2)
  | _, _ => st
  end.
(** as above, tuple.hpp:187-190 *)
Definition tuple_swap {A} (lhs rhs : list A) : list A * list A :=
  fold_left swap_at (make_index_sequence (length lhs)) (lhs, rhs).
