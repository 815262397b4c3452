(** Programs that go round the ring and programs that are wrong. *)
From stdpp Require Import gmap list.
From Coq Require Import ZArith.
From Verif Require Import Base ListModel ListSpec ListExactSpec.
Local Open Scope Z_scope.

(** ++ of the end and -- of the beginning; an iterator outlives an erased neighbour. *)
Definition ring : list (lcmd Z) :=
  [LInit 1 [10; 20; 30]; LEnd 0 1; LNext 0 1; LWrite 0 1 11; LBegin 1 1; LPrev 1 1; LPrev 1 1; LInsert 1 1 (AIter 0 1) 2;
   LNext 0 1; LErase 1 0 3; LSwap 1 2].
Definition ring_ok : list (lcmd Z) := LNew 2 :: ring.
Definition seen (o : outcome (gmap nat loc * heap Z)) (x : nat) : outcome (list Z) :=
  match o with Ok (_, s) => forward true 10 x s | UB => UB | Fuel => Fuel end.
Lemma ring_runs : formed_run world0 ring_ok = true /\
  match xrun world0 ring_ok with Some w => option_map (map snd) (seqs w !! 2%nat) | None => None end = Some [11; 11; 30] /\
  srun world0 ring_ok = None /\ seen (lrun true (∅, heap0) ring_ok) 2 = Ok [11; 11; 30].
Proof. vm_compute. repeat split; reflexivity. Qed.

(** An erased element, the end erased, the value at the end, a range the wrong way round, a list that is gone. *)
Definition wrongs : list (list (lcmd Z)) :=
  [[LInit 1 [10; 20]; LBegin 0 1; LErase 1 0 1; LNext 0 1];
   [LInit 1 [10; 20]; LEnd 0 1; LErase 1 0 1];
   [LInit 1 [10; 20]; LEnd 0 1; LPushBack 1 (AIter 0 1)];
   [LInit 1 [10; 20]; LBegin 0 1; LEnd 1 1; LEraseRange 1 1 0 2];
   [LInit 1 [10; 20]; LBegin 0 1; LClear 1; LWrite 0 1 5];
   [LInit 1 [10; 20]; LDestroy 1; LPopBack 1]].
Lemma wrongs_undefined : forallb (formed_run world0) wrongs = true /\
  Forall (fun cs => xrun world0 cs = None /\ seen (lrun true (∅, heap0) cs) 1 = UB) wrongs.
Proof. split; [vm_compute; reflexivity|]. repeat constructor. Qed.

(** An iterator of another list: the sizes no longer agree with the chains. *)
Definition alien : list (lcmd Z) := [LInit 1 [10]; LInit 2 [20]; LBegin 0 1; LInsert 2 0 (AVal 5) 1].
Lemma alien_runs : formed_run world0 alien = false /\ xrun world0 alien = None /\
  exists e s, lrun true (∅, heap0) alien = Ok (e, s) /\ forward true 10 1 s = Ok [5; 10] /\ size 1 s = Ok 1 /\
    forward true 10 2 s = Ok [20] /\ size 2 s = Ok 2.
Proof.
  split; [vm_compute; reflexivity|]. split; [vm_compute; reflexivity|].
  destruct (lrun true (∅, heap0) alien) as [[e s]| |] eqn:E; [|vm_compute in E; discriminate E..].
  exists e, s. split; [done|]. revert E. vm_compute. intros E. injection E as <- <-. vm_compute. repeat split; reflexivity.
Qed.
