(** Concrete runs of handles and threads. *)
From stdpp Require Import gmap list list_numbers.
From Coq Require Import ZArith.
From Verif Require Import Base SharedModel SharedSpec.
From Verif Require ThreadsModel ThreadsSpec.

(** Two groups, handles copied, moved, assigned over each other, locked alive and expired. *)
Definition prog : list cmd :=
  [SMake 1 RPlain; SCopy 2 1; WFrom 1 1; SMake 3 RSelf; SFromThis 4 3; SAssign 1 3; SLock 5 1; SMove 6 5;
   SSwap 6 3; SReset 3; SAssignMove 4 2; SDrop 4; SDrop 2; SLock 7 1].
Definition looks (cs : list cmd) : option (list nat * list nat * list (nat * (option nat * option nat)) * list nat) :=
  match run cs state0 with
  | Ok s => Some (destroyed s, freed s, map (fun p => (p.1, (hp p.2, hc p.2))) (map_to_list (shs s)),
      map fst (map_to_list (objs s)))
  | _ => None
  end.
Definition prog_spec : spec := match srun prog spec0 with Some w => w | None => spec0 end.
Example prog_runs : srun prog spec0 = Some prog_spec /\ (Z.of_nat (length prog) + 8 < 2 ^ 64)%Z.
Proof. split; [vm_compute; reflexivity|reflexivity]. Qed.
Example prog_destroys :
  match run prog state0 with
  | Ok s => destroyed s = [0] /\ freed s = [] /\ is_Some (objs s !! 1)
  | _ => False
  end.
Proof. vm_compute. eauto. Qed.
(** The same, everything dropped. *)
Definition prog_end : list cmd := prog ++ [SDrop 1; SDrop 3; SDrop 5; SDrop 6; SDrop 7; WDrop 1].
Definition end_spec : spec := match srun prog_end spec0 with Some w => w | None => spec0 end.
Example end_runs : srun prog_end spec0 = Some end_spec /\ size (sg end_spec) = 0 /\ size (wg end_spec) = 0 /\ length (kinds end_spec) = 3.
Proof. vm_compute. repeat split. Qed.

(** A weak handle that outlives the object, then lock(). *)
Definition expired_prog : list cmd := [SMake 1 RPlain; WFrom 1 1; SDrop 1].
Definition expired_spec : spec := match srun expired_prog spec0 with Some w => w | None => spec0 end.
Example expired_runs : srun expired_prog spec0 = Some expired_spec /\ wg expired_spec !! 1 = Some (Some 0) /\
  alive expired_spec 0 = false /\ sg expired_spec !! 2 = None.
Proof. vm_compute. repeat split. Qed.
Lemma lock_count_one : exists cs s h, run cs state0 = Ok s /\ sh 2 s = Ok h /\ destroyed s = [0] /\
  cs = expired_prog ++ [SLock 2 1] /\ hp h = None /\ use_count h s = Ok 1%Z.
Proof.
  exists (expired_prog ++ [SLock 2 1]). eexists _, _.
  split; [vm_compute; reflexivity|]. split; [vm_compute; reflexivity|]. repeat split.
Qed.

(** reset(p) does not tell p's object which group it is in. *)
Lemma reset_forgets : exists s h h', run [SDefault 1; SResetTo 1 RSelf; SFromThis 2 1] state0 = Ok s /\
  sh 1 s = Ok h /\ sh 2 s = Ok h' /\ hp h = Some 0 /\ use_count h s = Ok 1%Z /\ hp h' = None.
Proof.
  eexists _, _, _. split; [vm_compute; reflexivity|]. split; [vm_compute; reflexivity|]. split; [vm_compute; reflexivity|].
  repeat split.
Qed.
Definition self_spec : spec := match srun [SMake 1 RSelf] spec0 with Some w => w | None => spec0 end.
Example self_runs : srun [SMake 1 RSelf] spec0 = Some self_spec /\ sg self_spec !! 1 = Some (Some 0) /\
  kinds self_spec !! 0 = Some (KSelf true).
Proof. vm_compute. repeat split. Qed.

Import ThreadsModel ThreadsSpec.
(** Three threads, handles copied, handed over and dropped in a mixed order. *)
Definition mixed : list (nat * action) :=
  [(0, CopyS); (0, GiveS 1); (1, CopyS); (0, CopyWS); (1, GiveS 2); (0, GiveW 2); (0, DropS); (2, DropS); (1, DropS);
   (2, CopyW); (2, DropW); (1, Go); (2, DropW); (1, Go); (1, Go)].
Example mixed_runs : lockless mixed = true /\
  match sched mixed (fresh 2) with
  | Some (Ok w) => ndes w = 1 /\ nfre w = 1 /\ alive w = false /\ there w = false
  | _ => False
  end.
Proof. vm_compute. repeat split. Qed.

(** A lock with weak handles coming and going and the object in use meanwhile. *)
Definition calm : list (nat * action) :=
  [(0, CopyWS); (0, GiveW 1); (1, LockW); (0, Deref); (0, CopyWS); (1, Go); (0, DropW); (0, Count)].
Example calm_runs : undisturbed (calm ++ [(1, Go); (0, DropS); (1, Deref)]) (fresh 1) = true /\
  match sched calm (fresh 1) with Some (Ok w) => lock_returns 1 w | _ => False end /\
  match sched (calm ++ [(1, Go); (0, DropS); (1, Deref)]) (fresh 1) with
  | Some (Ok w) => alive w = true /\ shared_handles w = 1
  | _ => False
  end.
Proof.
  split; [vm_compute; reflexivity|]. split.
  - vm_compute. eexists _, _, _. split; [reflexivity|]. split; [reflexivity|]. split; [reflexivity|]. eexists. split; reflexivity.
  - vm_compute. repeat split.
Qed.

(** lock() reads 1; the other thread drops the last handle and the object is destroyed; the exchange fails and
    lock() returns a pointer to it. *)
Lemma lock_dead : exists l w w', sched l (fresh 1) = Some (Ok w) /\ lock_returns 1 w /\ alive w = false /\
  exec 1 Go w = Some (Ok w') /\ exec 1 Deref w' = Some UB.
Proof.
  exists [(0, CopyWS); (0, GiveW 1); (1, LockW); (0, DropS); (0, Go); (0, Go)]. eexists _, _.
  split; [vm_compute; reflexivity|]. split.
  - eexists _, _, _. split; [vm_compute; reflexivity|]. split; [reflexivity|]. split; [vm_compute; reflexivity|].
    eexists. split; [vm_compute; reflexivity|reflexivity].
  - split; [reflexivity|]. split; vm_compute; reflexivity.
Qed.
(** lock() reads 1; the other thread copies its handle; the exchange fails and lock() returns a pointer that is
    not counted. The object is alive then, and is destroyed while the pointer exists. *)
Lemma lock_uncounted : exists l l' w w', sched l (fresh 1) = Some (Ok w) /\ lock_returns 1 w /\ alive w = true /\
  sched l' w = Some (Ok w') /\ Forall (fun p => p.1 = 0 \/ p = (1, Go)) l' /\
  (exists t, threads w' !! 1 = Some t /\ shn t = 1) /\ alive w' = false.
Proof.
  exists [(0, CopyWS); (0, GiveW 1); (1, LockW); (0, CopyS)], [(1, Go); (0, DropS); (0, DropS); (0, Go); (0, Go)]. eexists _, _.
  split; [vm_compute; reflexivity|]. split.
  - eexists _, _, _. split; [vm_compute; reflexivity|]. split; [reflexivity|]. split; [vm_compute; reflexivity|].
    eexists. split; [vm_compute; reflexivity|reflexivity].
  - split; [reflexivity|]. split; [vm_compute; reflexivity|]. split.
    + repeat (apply Forall_cons; split; [cbn; auto|]). constructor.
    + split; [eexists; split; reflexivity|reflexivity].
Qed.
(** The counter goes up, down again in the other thread, and up a second time: the object is never destroyed. *)
Lemma lock_twice : exists l w, sched l (fresh 1) = Some (Ok w) /\ settled w /\ shared_handles w + weak_handles w = 0 /\
  alive w = true /\ there w = true.
Proof.
  exists [(0, CopyWS); (0, GiveW 1); (1, LockW); (1, Go); (0, DropS); (1, Go); (1, Go); (1, DropS); (1, DropW)]. eexists.
  split; [vm_compute; reflexivity|]. split; [repeat constructor|]. split; reflexivity || (split; reflexivity).
Qed.
