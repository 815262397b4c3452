(** C13, C16, C18 for histories of any length. *)
From stdpp Require Import gmap list.
From Coq Require Import ZArith.
From Verif Require Import Base ObjModel ObjSpec DequeModel DequeSpec DequeLongSpec DequeLong.
Local Open Scope Z_scope.

(** C13. As [C13_exact], however long the history is, as long as no deque comes near 2^31 elements or blocks: it runs
    and shows what [srun] says, or [srun] has no result and it is undefined behaviour. *)
Theorem C13_any_length : forall (A : Type) esz (cs : list (dcmd A)), 16 * esz < 2 ^ 63 -> within cs ->
  match srun ∅ cs with
  | Some s => exists e m, drun esz (∅, mem0) cs = Ok (e, m) /\ (forall x, s !! x = None <-> e !! x = None) /\
      forall x q d, s !! x = Some q -> e !! x = Some d -> shows d m (elems q)
  | None => drun esz (∅, mem0) cs = UB
  end.
Proof. intros A esz cs H. exact (deque_long esz H cs). Qed.
Print Assumptions C13_any_length.
(** A deque filled at the back and emptied from both ends, [n] times. *)
Example C13_any_length_example : forall n, srun ∅ (DInit 0 [1] :: DPopBack 0 :: drounds n) = Some (dq [] 0) /\
  within (DInit 0 [1] :: DPopBack 0 :: drounds n) /\ length (drounds n) = (4 * n)%nat.
Proof. exact deque_rounds. Qed.

(** C13. As [C13_no_front_exact], for any length. *)
Theorem C13_no_front_any_length : forall (A : Type) esz (cs : list (dcmd A)), 16 * esz < 2 ^ 63 ->
  forallb (fun c => negb (fronts c)) cs = true -> within cs ->
  match lrun ∅ cs with
  | Some ls => exists e m, drun esz (∅, mem0) cs = Ok (e, m) /\ (forall x, ls !! x = None <-> e !! x = None) /\
      forall x l d, ls !! x = Some l -> e !! x = Some d -> shows d m l
  | None => drun esz (∅, mem0) cs = UB
  end.
Proof. intros A esz cs H. exact (back_long esz H cs). Qed.
Print Assumptions C13_no_front_any_length.
Example C13_no_front_any_length_example : forall n, forallb (fun c => negb (fronts c)) (DInit 0 [1] :: DPopBack 0 :: drounds n) = true /\
  within (DInit 0 [1] :: DPopBack 0 :: drounds n).
Proof. intros n. split; [induction n as [|n IH]; [reflexivity|exact IH]|exact (proj1 (proj2 (deque_rounds n)))]. Qed.

(** C16, C18. Queues are first-in first-out over every history of any length in which no queue gets more than [P]
    elements without being empty in between, and none has more than P / 8 + 1 blocks. Histories that pop an empty
    queue, copy an empty queue (which a full statement of C16 would have to allow, [C16_copy_empty_refuted]) or misuse
    a name are undefined. *)
Theorem C16_any_length_partial : forall (A : Type) esz P (cs : list (qcmd A)), 16 * esz < 2 ^ 63 ->
  qwithin P ∅ ∅ cs -> Z.of_nat P + 3 < 2 ^ 31 ->
  match qspecs ∅ cs with
  | Some ls => exists e m, qrun esz (∅, mem0) cs = Ok (e, m) /\ (forall x, ls !! x = None <-> e !! x = None) /\
      forall x l d, ls !! x = Some l -> e !! x = Some d -> shows d m l /\ dbs d <= Z.of_nat (P / 8 + 1)
  | None => qrun esz (∅, mem0) cs = UB
  end.
Proof. intros A esz P cs H. exact (queue_long esz H P cs). Qed.
Print Assumptions C16_any_length_partial.
Example C16_any_length_example : forall n, qspecs ∅ (QNew 0 :: qrounds n) = Some {[0%nat := []]} /\
  qwithin 2 ∅ ∅ (QNew 0 :: qrounds n) /\ length (qrounds n) = (4 * n)%nat.
Proof. exact queue_rounds. Qed.
