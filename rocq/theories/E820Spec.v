(** What the firmware means by its table. *)
From stdpp Require Import list.
From Coq Require Import NArith.
From Verif Require Import E820Model.
Local Open Scope N_scope.

Definition entry_ok (e : e820_entry) : Prop := e_addr e < 2 ^ 64 /\ e_len e < 2 ^ 64 /\ e_type e < 2 ^ 32.
(** Entries of the original four types with a non-zero length. *)
Definition entry_plain (e : e820_entry) : Prop := 1 <= e_type e <= 4 /\ e_len e <> 0.
Definition usable_total (es : list e820_entry) : N :=
  foldr (fun e s => if e_type e =? 1 then e_len e + s else s) 0 es.
