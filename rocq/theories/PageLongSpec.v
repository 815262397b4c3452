(** Histories of any length over the pages of memory. *)
From stdpp Require Import list.
From Coq Require Import NArith.
From Verif Require Import Base PageModel PageSpec PageLifeSpec.
Local Open Scope N_scope.

(** The sum over the lives of all pages. *)
Fixpoint all_pages (f : life -> N) (ls : list life) : N :=
  match ls with [] => 0 | l :: ls => f l + all_pages f ls end.
(** At no moment of the history the pages charged, or the links, come to 2^64 - 1: with [n] pages and no zero flags the
    charges never exceed [n]. *)
Definition accountable (r sh : N) (n : nat) (ops : list page_op) : Prop :=
  forall m, all_pages charged (lives r sh (firstn m ops) n) + 1 < 2 ^ 64 /\ all_pages linked (lives r sh (firstn m ops) n) + 1 < 2 ^ 64.
(** At no moment of the history the references to the pages of a zone come to 2^64 - 1. *)
Definition referable (r sh : N) (s : mm) (ops : list page_op) : Prop :=
  forall m s', page_run r sh s (firstn m ops) = Ok s' -> forall zi, pages_refs zi (pages s') + 1 < 2 ^ 64.
