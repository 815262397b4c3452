(** C28-C30, C32, C63: shared_ptr and weak_ptr. *)
From stdpp Require Import gmap list.
From Coq Require Import ZArith.
From Verif Require Import Base SharedModel SharedSpec SharedHist SharedExamples.
From Verif Require ThreadsModel ThreadsSpec ThreadsProofs.

(** C28. Every history of handles that are named properly runs, and then [accounts] holds: use counts, objects
    and blocks are as the handles say. As every beginning of a history is one, an object goes exactly with its
    last shared handle. Missing: managed objects that themselves hold shared handles, for which see C82. *)
Theorem C28_history_partial : forall cs w, srun cs spec0 = Some w -> (Z.of_nat (length cs) + 8 < 2 ^ 64)%Z ->
  exists s, run cs state0 = Ok s /\ accounts w s.
Proof. exact history_accounts. Qed.
Print Assumptions C28_history_partial.
Example C28_example : (srun prog spec0 = Some prog_spec /\ (Z.of_nat (length prog) + 8 < 2 ^ 64)%Z) /\
  match run prog state0 with
  | Ok s => destroyed s = [0] /\ freed s = [] /\ is_Some (objs s !! 1)
  | _ => False
  end.
Proof. split; [exact prog_runs|exact prog_destroys]. Qed.

(** C28. When every handle is gone nothing is left, and everything went once. *)
Theorem C28_nothing_left : forall cs w, srun cs spec0 = Some w -> (Z.of_nat (length cs) + 8 < 2 ^ 64)%Z ->
  sg w = ∅ -> wg w = ∅ ->
  exists s, run cs state0 = Ok s /\ objs s = ∅ /\ blocks s = ∅ /\
    forall g k, kinds w !! g = Some k -> times (freed s) g = 1 /\ times (destroyed s) g = if has_object k then 1 else 0.
Proof. exact history_gone. Qed.
Print Assumptions C28_nothing_left.
Example C28_nothing_left_example :
  srun prog_end spec0 = Some end_spec /\ size (sg end_spec) = 0 /\ size (wg end_spec) = 0 /\ length (kinds end_spec) = 3.
Proof. exact end_runs. Qed.

(** C30, full statement: as [C30_null_partial] with use_count 0. What is missing is false: the use_count is
    always 1, the null pointer having been given a control block. *)
Theorem C30_null_partial : forall cs w x y g, srun cs spec0 = Some w -> (Z.of_nat (length cs) + 8 < 2 ^ 64)%Z ->
  wg w !! y = Some (Some g) -> alive w g = false -> sg w !! x = None -> x <> 0 -> y <> 0 ->
  exists s s' h, run cs state0 = Ok s /\ step (SLock x y) s = Ok s' /\ sh x s' = Ok h /\
    hp h = None /\ use_count h s' = Ok 1%Z.
Proof. exact lock_expired. Qed.
Print Assumptions C30_null_partial.
Example C30_example : srun expired_prog spec0 = Some expired_spec /\ wg expired_spec !! 1 = Some (Some 0) /\
  alive expired_spec 0 = false /\ sg expired_spec !! 2 = None.
Proof. exact expired_runs. Qed.
Theorem C30_use_count_refuted : exists cs s h, run cs state0 = Ok s /\ sh 2 s = Ok h /\ destroyed s = [0] /\
  cs = expired_prog ++ [SLock 2 1] /\ hp h = None /\ use_count h s = Ok 1%Z.
Proof. exact lock_count_one. Qed.
Print Assumptions C30_use_count_refuted.

(** C63. shared_from_this() of an object taken over by a constructor of shared_ptr or make_shared joins its
    owners. *)
Theorem C63_constructed_partial : forall cs w x y g, srun cs spec0 = Some w -> (Z.of_nat (length cs) + 9 < 2 ^ 64)%Z ->
  sg w !! y = Some (Some g) -> kinds w !! g = Some (KSelf true) -> sg w !! x = None -> x <> 0 -> y <> 0 ->
  exists s s' h, run cs state0 = Ok s /\ step (SFromThis x y) s = Ok s' /\ sh x s' = Ok h /\ hp h = Some g /\
    use_count h s' = Ok (Z.of_nat (S (members (sg w) g))).
Proof. exact from_this_shares. Qed.
Print Assumptions C63_constructed_partial.
Example C63_example : srun [SMake 1 RSelf] spec0 = Some self_spec /\ sg self_spec !! 1 = Some (Some 0) /\
  kinds self_spec !! 0 = Some (KSelf true).
Proof. exact self_runs. Qed.
(** One taken over by reset(p) gives a null pointer. *)
Theorem C63_reset_refuted : exists s h h', run [SDefault 1; SResetTo 1 RSelf; SFromThis 2 1] state0 = Ok s /\
  sh 1 s = Ok h /\ sh 2 s = Ok h' /\ hp h = Some 0 /\ use_count h s = Ok 1%Z /\ hp h' = None.
Proof. exact reset_forgets. Qed.
Print Assumptions C63_reset_refuted.

Import ThreadsModel ThreadsSpec.
(** C32. Any number of threads, any schedule of copies, hand-overs, uses and drops. *)
Theorem C32_interleavings : forall n l r, lockless l = true -> (Z.of_nat (length l) + 4 < 2 ^ 64)%Z ->
  sched l (fresh n) = Some r -> exists w, r = Ok w /\ fine w.
Proof. exact ThreadsProofs.lockless_fine. Qed.
Print Assumptions C32_interleavings.
Example C32_example : lockless mixed = true /\
  match sched mixed (fresh 2) with
  | Some (Ok w) => ndes w = 1 /\ nfre w = 1 /\ ThreadsModel.alive w = false /\ there w = false
  | _ => False
  end.
Proof. exact mixed_runs. Qed.

(** C29, full statement: as [C29_undisturbed_partial] without [undisturbed]. False, in three ways: *)
(** the pointer returned is to a destroyed object; *)
Theorem C29_dead_refuted : exists l w w', sched l (fresh 1) = Some (Ok w) /\ lock_returns 1 w /\ ThreadsModel.alive w = false /\
  exec 1 Go w = Some (Ok w') /\ exec 1 Deref w' = Some UB.
Proof. exact lock_dead. Qed.
Print Assumptions C29_dead_refuted.
(** the object is destroyed while the pointer exists; *)
Theorem C29_uncounted_refuted : exists l l' w w', sched l (fresh 1) = Some (Ok w) /\ lock_returns 1 w /\ ThreadsModel.alive w = true /\
  sched l' w = Some (Ok w') /\ Forall (fun p => p.1 = 0 \/ p = (1, Go)) l' /\
  (exists t, threads w' !! 1 = Some t /\ shn t = 1) /\ ThreadsModel.alive w' = false.
Proof. exact lock_uncounted. Qed.
Print Assumptions C29_uncounted_refuted.
(** the object outlives every handle. *)
Theorem C29_leak_refuted : exists l w, sched l (fresh 1) = Some (Ok w) /\ settled w /\ shared_handles w + weak_handles w = 0 /\
  ThreadsModel.alive w = true /\ there w = true.
Proof. exact lock_twice. Qed.
Print Assumptions C29_leak_refuted.
(** While no thread copies or drops a shared handle or enters lock() with another inside lock(), all is well. *)
Theorem C29_undisturbed_partial : forall n l r, undisturbed l (fresh n) = true -> (Z.of_nat (length l) + 4 < 2 ^ 64)%Z ->
  sched l (fresh n) = Some r -> exists w, r = Ok w /\ fine w /\ forall i, lock_returns i w -> ThreadsModel.alive w = true.
Proof. exact ThreadsProofs.threads_fine. Qed.
Print Assumptions C29_undisturbed_partial.
Example C29_example : undisturbed (calm ++ [(1, Go); (0, DropS); (1, Deref)]) (fresh 1) = true /\
  match sched calm (fresh 1) with Some (Ok w) => lock_returns 1 w | _ => False end /\
  match sched (calm ++ [(1, Go); (0, DropS); (1, Deref)]) (fresh 1) with
  | Some (Ok w) => ThreadsModel.alive w = true /\ shared_handles w = 1
  | _ => False
  end.
Proof. exact calm_runs. Qed.
