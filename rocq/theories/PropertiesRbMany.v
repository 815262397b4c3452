(** C65, C66: several sets: construction, copy, move, assignment, swap, destruction. *)
From stdpp Require Import gmap list.
From Coq Require Import ZArith.
From Verif Require Import Base RbModel RbSpec RbRun RbManySpec RbMany RbManyProofs RbManyExamples.

(** C65. Every program that makes, fills, copies, moves, assigns, swaps and destroys any number of sets (or multisets) does to
    each of them what it should, and there are no other nodes than theirs. *)
Theorem C65_values : forall A (lt : A -> A -> bool), weak_order lt -> forall fuel u cs, madds cs < fuel ->
  existsb erases cs = false ->
  exists hs s, mrun lt fuel u cs = Ok (hs, s) /\
    (forall i, match live (meffects lt u cs []) i with Some l => holds fuel hs s i l | None => live hs i = None end) /\
    size (cells s) = nodes (meffects lt u cs []).
Proof. exact @many_values. Qed.
Print Assumptions C65_values.
(** With erasures the same, unless one of them does not end (C25). *)
Theorem C65_programs : forall A (lt : A -> A -> bool), weak_order lt -> forall fuel u cs, madds cs < fuel ->
  (exists hs s, mrun lt fuel u cs = Ok (hs, s) /\
     (forall i, match live (meffects lt u cs []) i with Some l => holds fuel hs s i l | None => live hs i = None end) /\
     size (cells s) = nodes (meffects lt u cs [])) \/
  (mrun lt fuel u cs = Fuel /\ existsb erases cs = true).
Proof. exact @many_programs. Qed.
Print Assumptions C65_programs.
Example C65_set_example : shown 12 true swapping = Ok ([Some [8]; Some [3; 5; 7; 9]; None]%Z, 7) /\
  meffects Z.ltb true swapping [] = [Some [8]; Some [3; 5; 7; 9]; None]%Z /\ madds swapping < 12 /\ existsb erases swapping = false.
Proof. exact swapping_set. Qed.
Example C65_multiset_example : shown 12 false swapping = Ok ([Some [8; 8]; Some [3; 5; 5; 7; 9]; None]%Z, 9) /\
  meffects Z.ltb false swapping [] = [Some [8; 8]; Some [3; 5; 5; 7; 9]; None]%Z.
Proof. exact swapping_multi. Qed.
Example C65_gone_example : shown 12 true all_gone = Ok ([None; None; None], 0).
Proof. exact all_gone_none. Qed.

(** C66. A copy obeys the red-black rules whatever the shape of the original, and holds the same elements. *)
Theorem C66_copy : forall A (lt : A -> A -> bool), weak_order lt -> forall fuel0 u cs hs s fuel j T,
  mrun lt fuel0 u cs = Ok (hs, s) -> madds cs < fuel0 -> madds cs < fuel -> live hs j = Some T ->
  exists T' s', tree_copy lt fuel T s = Ok (T', s') /\ balanced T' s' /\
    exists p p', forward fuel (hd T) s = Ok p /\ forward fuel (hd T') s' = Ok p' /\ p'.*2 = p.*2.
Proof. exact @copy_balanced. Qed.
Print Assumptions C66_copy.
Example C66_example : shown 12 true swapping = Ok ([Some [8]; Some [3; 5; 7; 9]; None]%Z, 7).
Proof. exact (proj1 swapping_set). Qed.
