(** Exactly which histories of deques, queues and stacks are defined (C13, C16, C17). *)
From stdpp Require Import gmap list.
From Coq Require Import ZArith.
From Verif Require Import Base ObjModel ObjSpec DequeModel DequeSpec DequeFacts DequeExamples DequeExact.
Local Open Scope Z_scope.

(** C13. Of all programs that add fewer than 2^31 - 1 elements in all: those for which [srun] has a
    result run and show it, and every other one is undefined behaviour. So what [srun] leaves out (a
    pop of an empty deque, a reference outside the elements, a copy of an empty deque, an element added
    before the start of two or more blocks, a name used before or twice) is what the code leaves out. *)
Theorem C13_exact : forall (A : Type) esz (cs : list (dcmd A)), 16 * esz < 2 ^ 63 ->
  Z.of_nat (list_sum (map adds cs) + length (List.filter fronts cs)) < 2 ^ 31 - 1 ->
  match srun ∅ cs with
  | Some s => exists e m, drun esz (∅, mem0) cs = Ok (e, m) /\ (forall x, s !! x = None <-> e !! x = None) /\
      forall x q d, s !! x = Some q -> e !! x = Some d -> shows d m (elems q)
  | None => drun esz (∅, mem0) cs = UB
  end.
Proof. intros A esz cs H. exact (exact esz H cs). Qed.
Print Assumptions C13_exact.
Example C13_exact_case : Z.of_nat (list_sum (map adds demo) + length (List.filter fronts demo)) < 2 ^ 31 - 1 /\ is_Some (srun ∅ demo) /\
  srun ∅ ([DInit 0 [1; 2]; DPopBack 0; DPopFront 0; DPopBack 0] : list (dcmd Z)) = None /\
  drun 4 (∅, mem0) ([DInit 0 [1; 2]; DPopBack 0; DPopFront 0; DPopBack 0] : list (dcmd Z)) = UB /\
  srun ∅ ([DInit 0 [1; 2]; DPushBackOf 0 2] : list (dcmd Z)) = None /\
  drun 4 (∅, mem0) ([DInit 0 [1; 2]; DPushBackOf 0 2] : list (dcmd Z)) = UB.
Proof. split; [|split; [|repeat split]]; [vm_compute; reflexivity|eexists; vm_compute; reflexivity|vm_compute; reflexivity..]. Qed.

(** C13 for programs that add nothing at the front, by sequences alone: defined exactly when the same
    history makes sense on sequences and copies no empty one. *)
Theorem C13_no_front_exact : forall (A : Type) esz (cs : list (dcmd A)), 16 * esz < 2 ^ 63 ->
  forallb (fun c => negb (fronts c)) cs = true -> Z.of_nat (list_sum (map adds cs)) < 2 ^ 31 - 1 ->
  match lrun ∅ cs with
  | Some ls => exists e m, drun esz (∅, mem0) cs = Ok (e, m) /\ (forall x, ls !! x = None <-> e !! x = None) /\
      forall x l d, ls !! x = Some l -> e !! x = Some d -> shows d m l
  | None => drun esz (∅, mem0) cs = UB
  end.
Proof. intros A esz cs H. exact (back_exact esz H cs). Qed.
Print Assumptions C13_no_front_exact.
Example C13_no_front_exact_case : lrun ∅ back_demo = Some (list_to_map [(0%nat, [2; 3; 8; 8]); (1%nat, [])]) /\
  forallb (fun c => negb (fronts c)) back_demo = true /\
  lrun ∅ (back_demo ++ [DPopBack 1]) = None /\ drun 4 (∅, mem0) (back_demo ++ [DPopBack 1]) = UB.
Proof. split; [exact (proj1 back_runs)|]. split; [exact (proj1 (proj2 back_runs))|]. split; vm_compute; reflexivity. Qed.

(** C16. Of all histories of queues with fewer than 2^31 - 1 pushes: those that make sense on
    sequences, with no copy of an empty queue, run as they do on sequences; the others are undefined. *)
Theorem C16_exact : forall (A : Type) esz (cs : list (qcmd A)), 16 * esz < 2 ^ 63 -> Z.of_nat (qpushes cs) < 2 ^ 31 - 1 ->
  match qspecs ∅ cs with
  | Some ls => exists e m, qrun esz (∅, mem0) cs = Ok (e, m) /\ (forall x, ls !! x = None <-> e !! x = None) /\
      forall x l d, ls !! x = Some l -> e !! x = Some d -> shows d m l
  | None => qrun esz (∅, mem0) cs = UB
  end.
Proof. intros A esz cs H. exact (queue_exact esz H cs). Qed.
Print Assumptions C16_exact.
Example C16_exact_case : qspecs ∅ queue_demo = Some (list_to_map [(0%nat, [3; 4]); (1%nat, [3; 4]); (2%nat, [3])]) /\
  qspecs ∅ (queue_demo ++ [QPop 2; QPop 2]) = None /\ qrun 4 (∅, mem0) (queue_demo ++ [QPop 2; QPop 2]) = UB.
Proof. split; [exact (proj1 queue_runs)|]. split; vm_compute; reflexivity. Qed.

(** C17. Of all histories of stacks with at most [N] elements in a stack at once. *)
Theorem C17_exact : forall (A : Type) esz N (cs : list (kcmd A)), 16 * esz < 2 ^ 63 -> kwithin N ∅ cs -> Z.of_nat N + 3 < 2 ^ 31 ->
  match kspecs ∅ cs with
  | Some ls => exists e m, krun esz (∅, mem0) cs = Ok (e, m) /\ (forall x, ls !! x = None <-> e !! x = None) /\
      forall x l d, ls !! x = Some l -> e !! x = Some d -> shows d m l /\ dbs d <= Z.of_nat (N / 8 + 1)
  | None => krun esz (∅, mem0) cs = UB
  end.
Proof. intros A esz N cs H. exact (stack_exact esz H N cs). Qed.
Print Assumptions C17_exact.
Example C17_exact_case : kwithin 3 ∅ (stack_demo ++ [KPop 2]) /\ kspecs ∅ (stack_demo ++ [KPop 2]) = None /\
  krun 4 (∅, mem0) (stack_demo ++ [KPop 2]) = UB.
Proof. split; [apply kwithin_b_ok; vm_compute; reflexivity|]. split; vm_compute; reflexivity. Qed.
