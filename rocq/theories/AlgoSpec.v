(** Ranges of cells, for C80. *)
From Coq Require Import NArith.
Local Open Scope N_scope.
(** cell [c] is one of the [n] cells from [a] on *)
Definition inside (n : nat) (a c : N) : bool := ((a <=? c) && (c <? a + N.of_nat n))%bool.
