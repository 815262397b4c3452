(** C44 for histories of any length. *)
From stdpp Require Import list.
From Coq Require Import NArith.
From Verif Require Import Base PageModel PageSpec PageExamples PageLifeSpec PageLongSpec PageLong.
Local Open Scope N_scope.

(** As [C44_life], however long the history is, as long as what is charged and linked at one moment can be counted. *)
Theorem C44_any_length : forall r sh s ops, fresh s -> Forall (op_in (length (pages s))) ops -> accountable r sh (length (pages s)) ops ->
  exists s', page_run r sh s ops = Ok s' /\ length (pages s') = length (pages s) /\
    (forall i p, pages s' !! i = Some p -> let l := life_of r sh ops i in
       pg_refs p = refs l /\ bit (bits s') (N.of_nat i) = marked l /\
       (in_use p = true <-> how l <> Unheld) /\ (lends r sh (pg_attr p) = true <-> how l = Lent)) /\
    (forall b, N.of_nat (length (pages s)) <= b -> bit (bits s') b = bit (bits s) b) /\
    (forall zi z, zones s' !! zi = Some z -> let ls := lives r sh ops (length (pages s)) in
       z_using z = lsum charged zi (pages s') ls /\ z_links z = lsum linked zi (pages s') ls /\
       z_free z < 2 ^ 64 /\ (z_free z + lsum charged zi (pages s') ls) mod 2 ^ 64 = pages_free zi (pages s)).
Proof. exact life_long. Qed.
Print Assumptions C44_any_length.
(** A page is taken and given back [n] times. *)
Example C44_any_length_example : forall n, Forall (op_in (length (pages demo_mm))) (borrow n 5 4) /\
  accountable 1 2 (length (pages demo_mm)) (borrow n 5 4) /\ length (borrow n 5 4) = (2 * n)%nat.
Proof. exact borrow_ok. Qed.

(** C44 (part): as [C44_counts_partial], however long the history is, as long as the references of one moment can be counted.
    Missing, as there: zero flags; the bits of unused pages. *)
Theorem C44_counts_any_length_partial : forall r sh s ops, fresh s -> Forall (op_ok s) ops -> referable r sh s ops ->
  exists s', page_run r sh s ops = Ok s' /\ counts_ok s' /\ refs_ok r sh s' /\ bits_cover s'.
Proof. exact counts_long. Qed.
Print Assumptions C44_counts_any_length_partial.
Example C44_counts_any_length_example : forall n, referable 1 2 demo_mm (borrow n 5 4).
Proof. exact borrow_referable. Qed.

(** C44 (part): without the two reference flags nothing bounds the history, and the bitmap is exactly the set of pages in use. *)
Theorem C44_exact_any_length_partial : forall r sh s ops, fresh s -> N.of_nat (length (pages s)) + 1 < 2 ^ 64 ->
  Forall (op_ok s) ops -> Forall (op_plain r sh) ops ->
  exists s', page_run r sh s ops = Ok s' /\ counts_ok s' /\ refs_ok r sh s' /\ bits_exact s'.
Proof. exact exact_long. Qed.
Print Assumptions C44_exact_any_length_partial.
Example C44_exact_any_length_example : forall n, Forall (op_ok demo_mm) (borrow n 5 4) /\ Forall (op_plain 1 2) (borrow n 5 4).
Proof. exact borrow_plain. Qed.
