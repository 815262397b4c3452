(** C18: the storage of a queue in use, exactly. *)
From stdpp Require Import gmap list.
From Coq Require Import ZArith.
From Verif Require Import Base ObjModel DequeModel DequeSpec DequeExamples QueueBlocksSpec QueueBlocks.
Local Open Scope Z_scope.

(** C18: after any pushes and pops the queue has exactly as many blocks as the lengths of the stretches
    between its empty moments tell: a stretch of k pushes needs k / 16 blocks, rounded up, from the middle
    block on, and no block is given back. *)
Theorem C18_exact : forall (A : Type) esz (l : list (option A)) ls,
  16 * esz < 2 ^ 63 -> qspecs ∅ (qops l) = Some ls -> Z.of_nat (blocks (stretches 0 0 l)) < 2 ^ 31 ->
  exists e m d, qrun esz (∅, mem0) (qops l) = Ok (e, m) /\ e !! 0%nat = Some d /\
    dbs d = Z.of_nat (blocks (stretches 0 0 l)).
Proof. intros A esz. exact (blocks_exact esz). Qed.
Print Assumptions C18_exact.
(** Three times forty pushes and forty pops: 3, then 4, then 5 blocks. *)
Example C18_exact_example :
  let l := concat (replicate 3 (replicate 40 (Some 1) ++ replicate 40 None)) in
  to_list (qspecs ∅ (qops l)) = Some [(0%nat, [])] /\ stretches 0 0 l = [40; 40; 40; 0]%nat /\ blocks (stretches 0 0 l) = 5%nat /\
  match qrun 4 (∅, mem0) (qops l) with Ok (e, _) => match e !! 0%nat with Some d => dbs d = 5 | None => False end | _ => False end.
Proof. vm_compute. auto. Qed.

(** C18: with at most K pushes a stretch the number of blocks stays below twice what one stretch needs,
    however many stretches there are, and enough stretches of K pushes reach that bound. *)
Theorem C18_limit : forall K, (1 <= K)%nat ->
  (forall ks, Forall (fun k => (k <= K)%nat) ks -> (blocks ks <= 2 * ((K + 15) / 16) - 1)%nat) /\
  (forall n, (2 * ((K + 15) / 16) <= 2 ^ n)%nat -> blocks (replicate n K) = (2 * ((K + 15) / 16) - 1)%nat).
Proof. intros K HK. exact (conj (fun ks => blocks_bound K ks HK) (fun n => blocks_limit K n HK)). Qed.
Print Assumptions C18_limit.
Example C18_limit_example : (2 * ((40 + 15) / 16) <= 2 ^ 3)%nat /\ blocks (replicate 3 40%nat) = 5%nat.
Proof. vm_compute. split; [repeat constructor|reflexivity]. Qed.
