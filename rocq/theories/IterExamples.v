From stdpp Require Import gmap list.
From Coq Require Import ZArith Lia.
From Verif Require Import Base ObjModel DequeModel DequeSpec DequeFacts IterModel IterSpec IterProofs.
Local Open Scope Z_scope.

(** it = it++; it++; it += 3; it = it + 2; it - 4; it -= -1; --it *)
Definition tour : list command := [Set_ PostInc; Do PostInc; Do (AddEq 3); Set_ (Plus 2); Do (Minus 4); Do (SubEq (-1)); Do PreDec].
Definition hist : list (dcmd Z) := [DInit 0%nat [1; 2; 3; 4; 5; 6; 7]; DPopFront 0%nat; DPushBack 0%nat 8].
Lemma hist_reached : exists s e m q d, reached 4 hist s e m /\ s !! 0%nat = Some q /\ e !! 0%nat = Some d /\
  elems q = [2; 3; 4; 5; 6; 7; 8] /\ dfirst d = 1 /\ dbs d = 1.
Proof.
  destruct (srun ∅ hist) as [s|] eqn:S; [|exfalso; vm_compute in S; discriminate].
  destruct (history 4 hist s ltac:(lia) S) as (e & m & R & _ & D & _).
  destruct (s !! 0%nat) as [q|] eqn:Q; [|exfalso; vm_compute in S; injection S as <-; vm_compute in Q; discriminate].
  destruct (e !! 0%nat) as [d|] eqn:E; [|apply D in E; congruence].
  assert (elems q = [2; 3; 4; 5; 6; 7; 8]) by (vm_compute in S; injection S as <-; vm_compute in Q; injection Q as <-; reflexivity).
  assert (dfirst d = 1 /\ dbs d = 1) as [? ?].
  { vm_compute in R. injection R as <- <-. vm_compute in E. injection E as <-. split; reflexivity. }
  exists s, e, m, q, d. split; [split; [lia|split; assumption]|]. auto.
Qed.
Definition ends : list (end_op Z) := [PushFront 9; PopBack; PopFront; PopFront; PushBack 10; PushFront 11].
Lemma stays_case : exists s e m q d s', reached 4 hist s e m /\ s !! 0%nat = Some q /\ e !! 0%nat = Some d /\
  elems q !! 2%nat = Some 4 /\ ends_at ends (length (elems q)) 2 = Some 2%nat /\ room_in_front ends (Z.to_nat (dfirst d)) /\
  srun s (command_of 0 <$> ends) = Some s'.
Proof.
  destruct hist_reached as (s & e & m & q & d & R & S & E & L & F & _).
  destruct (srun s (command_of 0 <$> ends)) as [s'|] eqn:S'.
  - exists s, e, m, q, d, s'. rewrite L, F. split; [exact R|]. split; [exact S|]. split; [exact E|]. split; [reflexivity|]. split; [reflexivity|].
    split; [vm_compute; repeat split; lia|exact S'].
  - exfalso. destruct R as (_ & R & _). vm_compute in R. injection R as <-. vm_compute in S'. discriminate.
Qed.
Lemma stays_refuted : exists (cs : list (dcmd Z)) s e m q d e' m' d', reached 4 cs s e m /\ s !! 0%nat = Some q /\
  e !! 0%nat = Some d /\ elems q !! 1%nat = Some 2 /\ d_read (dfirst d + 1) d m = Ok (value 2) /\
  drun 4 (e, m) [DPushFront 0%nat 9] = Ok (e', m') /\ e' !! 0%nat = Some d' /\ d_read (dfirst d + 1) d' m' = UB.
Proof.
  set (cs := [DInit 0%nat [1; 2; 3]] : list (dcmd Z)).
  destruct (srun ∅ cs) as [s|] eqn:S; [|exfalso; vm_compute in S; discriminate].
  destruct (history 4 cs s ltac:(lia) S) as (e & m & R & _ & D & _).
  destruct (s !! 0%nat) as [q|] eqn:Q; [|exfalso; vm_compute in S; injection S as <-; vm_compute in Q; discriminate].
  destruct (e !! 0%nat) as [d|] eqn:E; [|apply D in E; congruence].
  assert (L : elems q = [1; 2; 3]) by (vm_compute in S; injection S as <-; vm_compute in Q; injection Q as <-; reflexivity).
  assert (dfirst d = 0 /\ dbs d = 1) as [F B].
  { vm_compute in R. injection R as <- <-. vm_compute in E. injection E as <-. split; reflexivity. }
  assert (X : reached 4 cs s e m) by (split; [lia|split; assumption]).
  assert (L1 : elems q !! 1%nat = Some 2) by (rewrite L; reflexivity).
  destruct (deque_renumbered 4 cs s e m 0 q d 1 2 9 X Q E L1 F B) as (e' & m' & d' & H1 & H2 & _ & H3 & _).
  exists cs, s, e, m, q, d, e', m', d'. rewrite F. split; [exact X|]. split; [exact Q|]. split; [exact E|]. split; [exact L1|].
  split; [|split; [exact H1|split; [exact H2|exact H3]]].
  unfold d_read. destruct (index_exact 4 _ _ _ _ _ _ _ X Q E) as [I _]. specialize (I 1%nat 2 L1). rewrite F in I. exact I.
Qed.
