(** Formats that end inside a conversion. *)
From stdpp Require Import list.
From Coq Require Import NArith.
From Verif Require Import PrintfSpec.
Local Open Scope N_scope.

(** The beginning of a conversion up to, but not with, its letter: % digits flags [. digits] *)
Definition cut_text (w f : list N) (fr : option (list N)) : list N :=
  37 :: w ++ f ++ match fr with Some ds => 46 :: ds | None => [] end.
Definition cut_ok (w f : list N) (fr : option (list N)) : Prop :=
  Forall is_digit w /\ Forall is_flag f /\ match fr with Some ds => Forall is_digit ds | None => True end.
