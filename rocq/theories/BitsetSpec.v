(** What a bitset is supposed to remember. *)
From stdpp Require Import list.
From Coq Require Import NArith.
From Verif Require Import BitsetModel.
Local Open Scope N_scope.

(** The value a position was last given. *)
Fixpoint last_given (v : bool) (os : list bs_op) (p : N) : bool :=
  match os with
  | [] => v
  | BSet q :: r => last_given (if q =? p then true else v) r p
  | BClear q :: r => last_given (if q =? p then false else v) r p
  | BReset f :: r => last_given f r p
  end.

(** Positions an operation names. *)
Definition op_in (P : N -> Prop) (o : bs_op) : Prop :=
  match o with BSet p | BClear p => P p | BReset _ => True end.

(** Positions for which the code is defined. *)
Definition usable (n p : N) : Prop := p < n /\ p mod 64 < 32.
