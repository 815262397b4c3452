(** Concrete trees for the exact conditions. *)
From stdpp Require Import gmap list.
From Coq Require Import ZArith Lia.
From Verif Require Import Base RbModel RbSpec RbRun RbThms2 RbExamples RbExactSpec.
Local Open Scope outcome_scope.

Definition after (vs : list Z) : heap Z := match run Z.ltb 10 true (Add <$> vs) with Ok (_, s) => s | _ => no_heap end.
Ltac cell := vm_compute; reflexivity.
Ltac nored := intros X; vm_compute in X; first [contradiction | destruct X as (? & X & Y); (discriminate X || (injection X as <-; discriminate Y))].
(** 2, 3 and then 1: goes below 2, a root *)
Example one_below_root : run Z.ltb 10 true (Add <$> [2; 3]%Z) = Ok ({| hd := 0; ct := 2 |}, after [2; 3]%Z) /\
  hung (after [2; 3]%Z) [(1, 2%Z); (2, 3%Z)] (place_of Z.ltb 1%Z [2; 3]%Z) 1 /\ ~ breaks (after [2; 3]%Z) 0 1.
Proof.
  split; [cell|]. split; [done|]. intros B. inversion B as [p np g ng B1 B2|p np g ng o q B1 B2]; subst;
    vm_compute in B1; injection B1 as <-; discriminate B2.
Qed.
(** 3, 2 and then 1: below 2, a red left child without a sibling *)
Example one_below_red : run Z.ltb 10 true (Add <$> [3; 2]%Z) = Ok ({| hd := 0; ct := 2 |}, after [3; 2]%Z) /\
  hung (after [3; 2]%Z) [(2, 2%Z); (1, 3%Z)] (place_of Z.ltb 1%Z [2; 3]%Z) 2 /\ breaks (after [3; 2]%Z) 0 2.
Proof.
  split; [cell|]. split; [done|].
  eapply (breaks_here _ _ 2 _ 1); [cell|done|done|cell|done|]. nored.
Qed.
(** 3, 2, 1, 0: the node of 3 has no sibling *)
Example three_starves : leaves four_heap [(4, 0%Z); (3, 1%Z); (2, 2%Z); (1, 3%Z)] 3 1 /\ black_end four_heap 0 1.
Proof.
  split.
  - exists 1, 3%Z. eexists. split; [done|]. split; [cell|]. done.
  - eexists _, 2. split; [cell|]. split; [done|]. split; [by intros ?|]. split; [by intros ?|]. split; [done|]. split; [done|].
    eapply starves_here; [cell|]. right. done.
Qed.
