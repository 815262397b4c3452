(** Programs of any length over handles that fit into memory, for C82. *)
From stdpp Require Import gmap list.
From Coq Require Import ZArith.
From Verif Require Import GraphModel GraphSpec.
Local Open Scope nat_scope.

(** The handles that exist when a command starts, and those it brings into being, come at no time near 2^64; each
    takes 16 of the 2^64 bytes that can be addressed, so there are never more than 2^60. *)
Definition in_memory (cs : list cmd) : Prop :=
  forall n w c, srun (take n cs) spec0 w -> cs !! n = Some c ->
    (Z.of_nat (size (sg w) + size (wg w) + made_by c) + 16 < 2 ^ 64)%Z.
