(** The results of LockProofs.v without a bound on the length of the schedule. *)
From stdpp Require Import list list_numbers.
From Coq Require Import ZArith Lia.
From Verif Require Import Base ThreadsModel ThreadsSpec ThreadsProofs LockSpec LockProofs ThreadsLongSpec.
Local Open Scope nat_scope.

Lemma inv2_tight k g w : inv2 k g w -> inv2 (Z.to_nat (sc w) + weak_handles w) g w.
Proof.
  intros [N L I]. split; [|exact L|exact I]. destruct N as [Nsc Nown Nwc Nal Nth NF NF0 Nde Nfr Nk]. split; try assumption.
  unfold weak_handles. rewrite Nsc. lia.
Qed.
Lemma inv2_count k g w : inv2 k g w -> (0 <= sc w)%Z.
Proof. intros [N _ _]. destruct N as [Nsc Nown Nwc Nal Nth NF NF0 Nde Nfr Nk]. rewrite Nsc. lia. Qed.
Lemma sched2_long l : forall k g w r, inv2 k g w -> honest g l w = true ->
  (forall m v, sched (take m l) w = Some (Ok v) -> (sc v + Z.of_nat (weak_handles v) + 3 < 2 ^ 64)%Z) ->
  sched l w = Some r -> exists w' g' k', r = Ok w' /\ inv2 k' g' w' /\ (Z.of_nat k' + 3 < 2 ^ 64)%Z.
Proof.
  induction l as [|[i a] l IH]; intros k g w r I U B X; cbn [sched honest] in *.
  - simplify_eq. eexists w, g, _. split; [done|]. split; [by eapply inv2_tight|].
    pose proof (B 0 w eq_refl). pose proof (inv2_count _ _ _ I). lia.
  - apply andb_prop in U as [Q U]. destruct (exec i a w) as [r0|] eqn:E; [|done].
    pose proof (B 0 w eq_refl) as B0. pose proof (inv2_count _ _ _ I) as C0.
    destruct (exec2 _ g i a w r0 (inv2_tight _ _ _ I) ltac:(lia) E) as (w'&->&I').
    eapply (IH _ _ w' r (I' Q) U); [|exact X]. intros m v Hv. apply (B (S m) v). cbn [take sched]. by rewrite E.
Qed.
Theorem honest_long n l r : honest (fun _ => 0) l (fresh n) = true -> low_count n l ->
  sched l (fresh n) = Some r -> exists w, r = Ok w /\ fine w.
Proof.
  intros U B X. destruct (sched2_long l 1 _ (fresh n) r (inv2_fresh n) U B X) as (w&g&k&->&I&Hk).
  exists w. split; [done|]. eapply inv2_fine; [exact I|exact Hk].
Qed.

(** ** Schedules of every length *)
(** Thread 1 locks its weak handle; after its exchange thread 0 copies a handle, which ends the loop, and drops it later. *)
Definition meddled : list (nat * action) := [(1, LockW); (1, Go); (0, CopyS); (1, Go); (0, DropS); (1, DropS)].
Fixpoint meddles (n : nat) : list (nat * action) := match n with O => [] | S n => meddled ++ meddles n end.
Definition watched : world := Build_world 1 2 true true 0 0 [Build_thread 1 0 Idle; Build_thread 0 1 Idle].
Lemma meddled_steps : sched [(0, CopyWS); (0, GiveW 1)] (fresh 1) = Some (Ok watched) /\ sched meddled watched = Some (Ok watched).
Proof. done. Qed.
Lemma sched_app l1 l2 w w' : sched l1 w = Some (Ok w') -> sched (l1 ++ l2) w = sched l2 w'.
Proof.
  revert w. induction l1 as [|[i a] l1 IH]; intros w X; cbn [sched app] in *; [by simplify_eq|].
  destruct (exec i a w) as [[w1| |]|]; try done. by apply IH.
Qed.
Lemma meddles_honest n : forall g, g 1 = 0 -> honest g (meddles n) watched = true.
Proof.
  induction n as [|n IH]; intros g G; [done|]. cbn [meddles]. unfold meddled. cbn [app honest]. cbn.
  rewrite G. cbn. apply IH. done.
Qed.
Lemma meddles_run n : sched (meddles n) watched = Some (Ok watched).
Proof. destruct meddled_steps as [_ E]. induction n as [|n IH]; [done|]. cbn [meddles]. by rewrite (sched_app _ _ _ _ E). Qed.
Lemma meddles_low n : forall m w, sched (take m (meddles n)) watched = Some (Ok w) -> (sc w + Z.of_nat (weak_handles w) <= 4)%Z.
Proof.
  destruct meddled_steps as [_ E]. induction n as [|n IH]; intros m w H; cbn [meddles] in H.
  { rewrite take_nil in H. cbn [sched] in H. simplify_eq. cbn. lia. }
  destruct (decide (m < 6)) as [L|L].
  - rewrite take_app_le in H by (cbn; lia). do 6 (destruct m as [|m]; [vm_compute in H; injection H as <-; vm_compute; discriminate|]). lia.
  - rewrite take_app_ge in H by (cbn; lia). rewrite (sched_app _ _ _ _ E) in H. by apply (IH _ _ H).
Qed.
Lemma meddles_ok n : let l := (0, CopyWS) :: (0, GiveW 1) :: meddles n in honest (fun _ => 0) l (fresh 1) = true /\ low_count 1 l /\
  sched l (fresh 1) = Some (Ok watched) /\ length l = 2 + 6 * n.
Proof.
  destruct meddled_steps as [E0 _]. cbv zeta. split; [|split; [|split]].
  - cbn [honest]. cbn. apply (meddles_honest n). done.
  - intros [|[|m]] w H; [cbn in H; simplify_eq; cbn; lia..|]. change (take (S (S m)) ((0, CopyWS) :: (0, GiveW 1) :: meddles n))
      with ([(0, CopyWS); (0, GiveW 1)] ++ take m (meddles n)) in H. rewrite (sched_app _ _ _ _ E0) in H. apply meddles_low in H. lia.
  - change ((0, CopyWS) :: (0, GiveW 1) :: meddles n) with ([(0, CopyWS); (0, GiveW 1)] ++ meddles n). rewrite (sched_app _ _ _ _ E0). apply meddles_run.
  - assert (L : length (meddles n) = 6 * n); [|cbn [length]; lia]. clear. induction n as [|n IH]; [done|]. cbn [meddles]. rewrite app_length, IH. cbn [meddled length]. lia.
Qed.
