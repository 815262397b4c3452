(** C40: what every history of guards, with moves and copies, does. *)
From stdpp Require Import gmap.
From Coq Require Import ZArith.
From Verif Require Import Base OwnSpec OwnModel DeferSpec DeferProofs.

(** C40: the runs of an action and the guards that still owe it add up to the guards built for it, plus the copies taken, less the dismissals. *)
Theorem C40_ledger : forall (os : list dop) (w : dworld) (a : N),
  d_run d_empty os = Ok w -> (Z.of_nat (runs a w) + Z.of_nat (owing a w))%Z = debts a d_empty os.
Proof. exact ledger. Qed.
Print Assumptions C40_ledger.
Example C40_ledger_example : exists w, d_run d_empty defer_demo = Ok w /\ ran w = [9; 7]%N /\ owing 7 w = 2%nat /\
  debts 7 d_empty defer_demo = 3%Z /\ debts 9 d_empty defer_demo = 1%Z.
Proof. exact defer_demo_ok. Qed.

(** C40: without copies an action runs at most once for each guard built for it, however the guards are moved and assigned. *)
Theorem C40_at_most_once : forall (os : list dop) (w : dworld) (a : N),
  Forall no_copy os -> d_run d_empty os = Ok w -> (runs a w + owing a w <= made a os)%nat.
Proof. exact at_most_once. Qed.
Print Assumptions C40_at_most_once.
Example C40_at_most_once_example : Forall no_copy [DNew 1 7; DNew 2 7; DMove 3 1; DAssignMove 2 3; DDtor 1]%N /\
  exists w, d_run d_empty [DNew 1 7; DNew 2 7; DMove 3 1; DAssignMove 2 3; DDtor 1]%N = Ok w /\ ran w = [7; 7]%N.
Proof. exact defer_demo_moves. Qed.

(** C40: a command is defined exactly when the guard it destroys is dismissed or has an action; a moved-into guard has none. *)
Theorem C40_defined_exact : forall (w : dworld) (o : dop), names_ok w o -> (exists w', d_step w o = Ok w') <-> dies_well w o.
Proof. exact step_defined. Qed.
Print Assumptions C40_defined_exact.
Example C40_defined_exact_example : exists w, d_run d_empty [DNew 1 7; DMove 2 1]%N = Ok w /\ names_ok w (DDtor 2) /\
  names_ok w (DAssignMove 1 2) /\ ~ dies_well w (DDtor 2) /\ dies_well w (DAssignMove 1 2).
Proof. exact defer_demo_stuck. Qed.
