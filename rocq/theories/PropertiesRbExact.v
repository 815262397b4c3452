(** C24, C25: exactly when an insertion breaks the rules and when an erasure does not end. *)
From stdpp Require Import gmap list.
From Coq Require Import ZArith.
From Verif Require Import Base RbModel RbSpec RbRun RbExamples RbExactSpec RbExact RbExactExamples.

(** C24. From a tree that meets the rules, inserting [v] leads to one that breaks them exactly when [v] is really added and
    the node it is hung below [breaks]. *)
Theorem C24_insert_exact : forall A (lt : A -> A -> bool), weak_order lt -> forall fuel0 u cs T s fuel v,
  run lt fuel0 u cs = Ok (T, s) -> adds cs < fuel0 -> adds cs < fuel -> balanced T s ->
  exists l T' s', forward fuel (hd T) s = Ok l /\ add lt fuel u T v s = Ok (T', s') /\
    (balanced T' s' <-> ~ (u && existsb (same lt v) l.*2 = false /\
       exists p, hung s l (place_of lt v l.*2) p /\ breaks s (hd T) p)).
Proof. exact @insert_exact. Qed.
Print Assumptions C24_insert_exact.
Example C24_insert_good_example : run Z.ltb 10 true (Add <$> [2; 3]%Z) = Ok ({| hd := 0; ct := 2 |}, after [2; 3]%Z) /\
  hung (after [2; 3]%Z) [(1, 2%Z); (2, 3%Z)] (place_of Z.ltb 1%Z [2; 3]%Z) 1 /\ ~ breaks (after [2; 3]%Z) 0 1.
Proof. exact one_below_root. Qed.
Example C24_insert_bad_example : run Z.ltb 10 true (Add <$> [3; 2]%Z) = Ok ({| hd := 0; ct := 2 |}, after [3; 2]%Z) /\
  hung (after [3; 2]%Z) [(2, 2%Z); (1, 3%Z)] (place_of Z.ltb 1%Z [2; 3]%Z) 2 /\ breaks (after [3; 2]%Z) 0 2.
Proof. exact one_below_red. Qed.

(** C25. Erasing the i-th element does not end exactly when the node that leaves its place is a [black_end]. *)
Theorem C25_hang_exact : forall A (lt : A -> A -> bool), weak_order lt -> forall fuel0 u cs T s fuel,
  run lt fuel0 u cs = Ok (T, s) -> adds cs < fuel0 -> adds cs < fuel ->
  exists l, forward fuel (hd T) s = Ok l /\
    forall i x a, l !! i = Some (x, a) -> (erase fuel T x s = Fuel <-> exists y, leaves s l i y /\ black_end s (hd T) y).
Proof. exact @hang_exact. Qed.
Print Assumptions C25_hang_exact.
Example C25_hang_example : leaves four_heap [(4, 0%Z); (3, 1%Z); (2, 2%Z); (1, 3%Z)] 3 1 /\ black_end four_heap 0 1.
Proof. exact three_starves. Qed.
