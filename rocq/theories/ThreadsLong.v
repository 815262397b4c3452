(** The results of ThreadsProofs.v without a bound on the length of the schedule. *)
From stdpp Require Import list list_numbers.
From Coq Require Import ZArith Lia.
From Verif Require Import Base ThreadsModel ThreadsSpec ThreadsProofs ThreadsLongSpec.
Local Open Scope nat_scope.

Lemma inv_tight k w : inv k w -> inv (shared_handles w + weak_handles w) w.
Proof.
  intros [[e N] L]. split; [|exact L]. exists e. destruct N. split; try assumption. unfold shared_handles, weak_handles. lia.
Qed.
Lemma sched_long l w r : inv (shared_handles w + weak_handles w) w ->
  (forall m v, sched (take m l) w = Some (Ok v) -> (Z.of_nat (shared_handles v + weak_handles v) + 3 < 2 ^ 64)%Z) ->
  undisturbed l w = true -> sched l w = Some r ->
  exists w', r = Ok w' /\ inv (shared_handles w' + weak_handles w') w' /\ (Z.of_nat (shared_handles w' + weak_handles w') + 3 < 2 ^ 64)%Z.
Proof.
  revert w. induction l as [|[i a] l IH]; intros w I Hk U X; cbn [sched undisturbed] in *.
  - simplify_eq. exists w. split; [done|]. split; [done|]. by apply (Hk 0).
  - apply andb_prop in U as [Q U]. destruct (exec i a w) as [r0|] eqn:E; [|done].
    destruct (exec_ok _ i a w r0 I (Hk 0 w eq_refl) Q E) as (w'&->&I').
    apply (IH w'); [by eapply inv_tight| |done|done].
    intros m v Hv. apply (Hk (S m) v). cbn [take sched]. by rewrite E.
Qed.
Theorem threads_long n l r : undisturbed l (fresh n) = true -> countable n l ->
  sched l (fresh n) = Some r -> exists w, r = Ok w /\ fine w /\ forall i, lock_returns i w -> alive w = true.
Proof.
  intros U Hl X. destruct (sched_long l (fresh n) r) as (w&->&I&B); [eapply inv_tight, inv_fresh|exact Hl|done|done|].
  exists w. split; [done|]. split; [eapply inv_fine; [exact I|done]|]. intros i. by eapply inv_lock_returns.
Qed.
Theorem lockless_long n l r : lockless l = true -> countable n l ->
  sched l (fresh n) = Some r -> exists w, r = Ok w /\ fine w.
Proof.
  intros L Hl X. destruct (threads_long n l r) as (w&?&?&_); [|done|done|eauto].
  apply lockless_undisturbed; [done|apply fresh_no_lock].
Qed.

(** ** Schedules of every length *)
(** Thread 0 copies its handle and gives the copy to thread 1, which drops it. *)
Fixpoint turns (n : nat) : list (nat * action) :=
  match n with O => [] | S n => (0, CopyS) :: (0, GiveS 1) :: (1, DropS) :: turns n end.
Definition two : world := fresh 1.
Definition two_copied : world := Build_world 2 1 true true 0 0 [Build_thread 2 0 Idle; Build_thread 0 0 Idle].
Definition two_given : world := Build_world 2 1 true true 0 0 [Build_thread 1 0 Idle; Build_thread 1 0 Idle].
Lemma turn_steps : exec 0 CopyS two = Some (Ok two_copied) /\ exec 0 (GiveS 1) two_copied = Some (Ok two_given) /\
  exec 1 DropS two_given = Some (Ok two).
Proof. done. Qed.
Lemma turns_run n : sched (turns n) two = Some (Ok two).
Proof. destruct turn_steps as (E1 & E2 & E3). induction n as [|n IH]; [done|]. cbn [turns sched]. by rewrite E1, E2, E3. Qed.
Lemma turns_few n : forall m w, sched (take m (turns n)) two = Some (Ok w) -> shared_handles w + weak_handles w <= 2.
Proof.
  destruct turn_steps as (E1 & E2 & E3). induction n as [|n IH]; intros m w H; cbn [turns] in H.
  { rewrite take_nil in H. cbn [sched] in H. simplify_eq. cbn. lia. }
  destruct m as [|[|[|m]]]; cbn [take sched] in H; rewrite ?E1, ?E2, ?E3 in H; [simplify_eq; cbn; lia..|by apply (IH m)].
Qed.
Lemma turns_ok n : lockless (turns n) = true /\ countable 1 (turns n) /\ sched (turns n) (fresh 1) = Some (Ok (fresh 1)) /\ length (turns n) = 3 * n.
Proof.
  split; [induction n as [|n IH]; [done|exact IH]|]. split; [|split; [apply turns_run|induction n as [|n IH]; cbn [turns length]; lia]].
  intros m w H. apply turns_few in H. lia.
Qed.
(** Thread 0 keeps a weak handle as well, locks it and drops what it gets. *)
Fixpoint locks (n : nat) : list (nat * action) :=
  match n with O => [] | S n => (0, LockW) :: (0, Go) :: (0, Go) :: (0, DropS) :: locks n end.
Definition held_weak : world := Build_world 1 2 true true 0 0 [Build_thread 1 1 Idle; Build_thread 0 0 Idle].
Definition lock1 : world := Build_world 1 2 true true 0 0 [Build_thread 1 1 (Locking 1); Build_thread 0 0 Idle].
Definition lock2 : world := Build_world 2 2 true true 0 0 [Build_thread 1 1 (Locking 1); Build_thread 0 0 Idle].
Definition lock3 : world := Build_world 2 2 true true 0 0 [Build_thread 2 1 Idle; Build_thread 0 0 Idle].
Lemma lock_steps : exec 0 LockW held_weak = Some (Ok lock1) /\ exec 0 Go lock1 = Some (Ok lock2) /\
  exec 0 Go lock2 = Some (Ok lock3) /\ exec 0 DropS lock3 = Some (Ok held_weak).
Proof. done. Qed.
Lemma locks_ok n : undisturbed ((0, CopyWS) :: locks n) (fresh 1) = true /\ countable 1 ((0, CopyWS) :: locks n) /\
  sched ((0, CopyWS) :: locks n) (fresh 1) = Some (Ok held_weak) /\ length (locks n) = 4 * n.
Proof.
  destruct lock_steps as (E1 & E2 & E3 & E4). assert (E0 : exec 0 CopyWS (fresh 1) = Some (Ok held_weak)) by done.
  split; [|split; [|split]].
  - cbn [undisturbed]. rewrite E0. cbn [andb]. induction n as [|n IH]; [done|]. cbn [locks undisturbed]. rewrite E1, E2, E3, E4. cbn [andb]. exact IH.
  - assert (T : forall m w, sched (take m (locks n)) held_weak = Some (Ok w) -> shared_handles w + weak_handles w <= 3).
    { induction n as [|n IH]; intros m w H; cbn [locks] in H.
      { rewrite take_nil in H. cbn [sched] in H. simplify_eq. cbn. lia. }
      destruct m as [|[|[|[|m]]]]; cbn [take sched] in H; rewrite ?E1, ?E2, ?E3, ?E4 in H; [simplify_eq; cbn; lia..|by apply (IH m)]. }
    intros [|m] w H; cbn [take sched] in H; [simplify_eq; cbn; lia|]. rewrite E0 in H. apply T in H. lia.
  - cbn [sched]. rewrite E0. induction n as [|n IH]; [done|]. cbn [locks sched]. by rewrite E1, E2, E3, E4.
  - induction n as [|n IH]; cbn [locks length]; lia.
Qed.
