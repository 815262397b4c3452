(** What the smaller pieces of the boot path are for. *)
From stdpp Require Import list.
From Coq Require Import NArith.
From Verif Require Import E820Model StageModel.
Local Open Scope N_scope.

(** A BIOS hands out its table entry by entry, starting at continuation value [k]; the last entry comes with the next
    value 0. *)
Inductive lists (b : bios) : N -> list e820_entry -> Prop :=
| lists_last k e : b k = (false, entry_bytes e, 0) -> lists b k [e]
| lists_more k e k' es : b k = (false, entry_bytes e, k') -> k' <> 0 -> lists b k' es -> lists b k (e :: es).
(** The other permitted end: a call after the last entry fails with carry. *)
Inductive lists_carry (b : bios) : N -> list e820_entry -> Prop :=
| carry_end k bs k' : b k = (true, bs, k') -> lists_carry b k []
| carry_more k e k' es : b k = (false, entry_bytes e, k') -> k' <> 0 -> lists_carry b k' es -> lists_carry b k (e :: es).

(** A string is shown by interrupt 0x10; the code comes back by a return. *)
Definition shows (is : list (N * list N)) : Prop := In (0xcd, [0x10]) is.
Definition returns (is : list (N * list N)) : Prop := In (0xc3, []) is.
