(** Concrete memory used by the examples beside the theorems. *)
From stdpp Require Import gmap.
From Verif Require Import Base StringModel StringSpec.
Local Open Scope N_scope.

(** Memory holding the bytes 1, 2, ... at addresses 100.., used by the examples. *)
Definition demo_mem : gmap N N :=
  list_to_map (imap (fun i b => (100 + N.of_nat i, b)) [1;2;3;4;5;6;7;8;9;10;11;0;12;13;14;15;16;17;18;19]).

Lemma demo_mapped a n : 100 <= a -> a + n <= 120 -> mapped demo_mem a n.
Proof.
  intros Ha Hn i Hi.
  assert (H : forallb (fun k => bool_decide (is_Some (demo_mem !! (100 + N.of_nat k)))) (seq 0 20) = true)
    by (vm_compute; reflexivity).
  rewrite forallb_forall in H. specialize (H (N.to_nat (a + i - 100))).
  rewrite bool_decide_eq_true in H.
  replace (100 + N.of_nat (N.to_nat (a + i - 100))) with (a + i) in H by lia.
  apply H. apply in_seq. lia.
Qed.
