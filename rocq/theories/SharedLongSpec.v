(** Histories of any length over handles that fit into memory. *)
From stdpp Require Import gmap list.
From Coq Require Import ZArith.
From Verif Require Import SharedModel SharedSpec.

(** The handles that exist at no time come near 2^64; each takes 16 of the 2^64 bytes that can be addressed, so there are never more than 2^60. *)
Definition in_memory (cs : list cmd) : Prop :=
  forall n w, srun (take n cs) spec0 = Some w -> (Z.of_nat (size (sg w)) + Z.of_nat (size (wg w)) + 9 < 2 ^ 64)%Z.
