(** Orders the comparison operators are supposed to be. *)
From stdpp Require Import gmap.
From Coq Require Import ZArith.
From Verif Require Import Base OrderModel.
Local Open Scope Z_scope.

(** Strict weak order (as required of set keys). *)
Definition strict_weak {A} (lt : A -> A -> bool) : Prop :=
  (forall x, lt x x = false) /\
  (forall x y, lt x y = true -> lt y x = false) /\
  (forall x y z, lt x y = true -> lt y z = true -> lt x z = true) /\
  (forall x y z, lt x y = false -> lt y x = false -> lt y z = false -> lt z y = false ->
                 lt x z = false /\ lt z x = false).

(** Lexicographic order of pairs. *)
Definition lex {A B} (lt1 : A -> A -> bool) (lt2 : B -> B -> bool) (x y : A * B) : Prop :=
  lt1 x.1 y.1 = true \/ (lt1 y.1 x.1 = false /\ lt2 x.2 y.2 = true).

(** Lexicographic order of strings. *)
Inductive lex_less : list Z -> list Z -> Prop :=
| LL_nil c s : lex_less [] (c :: s)
| LL_head c d s t : c < d -> lex_less (c :: s) (d :: t)
| LL_tail c s t : lex_less s t -> lex_less (c :: s) (c :: t).

(** Shorter strings first, strings of one length lexicographically. *)
Definition shortlex_less (s t : list Z) : Prop :=
  (length s < length t)%nat \/ (length s = length t /\ lex_less s t).

(** [v] views the characters [s] in memory [m]. *)
Definition views (m : gmap N Z) (v : view) (s : list Z) : Prop :=
  sv_size v = N.of_nat (length s) /\
  forall i c, s !! i = Some c -> m !! (sv_data v + N.of_nat i)%N = Some c.

(** [r2] is reached from [r1] by incrementing once or more. *)
Inductive later (r1 : riter) : riter -> Prop :=
| later_one r2 : r_incr r1 = Base.Ok r2 -> later r1 r2
| later_more r2 r3 : later r1 r2 -> r_incr r2 = Base.Ok r3 -> later r1 r3.

(** n times ++ *)
Fixpoint r_steps (n : nat) (r : riter) : outcome riter :=
  match n with O => Ok r | S k => (r' <~ r_incr r; r_steps k r')%outcome end.
