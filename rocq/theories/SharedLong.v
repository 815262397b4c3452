(** The results of SharedHist.v without a bound on the number of commands. *)
From stdpp Require Import gmap list.
From Coq Require Import ZArith Lia.
From Verif Require Import Base SharedModel SharedSpec SharedProofs SharedRun SharedHist SharedLongSpec.

Lemma long_history cs w w' s : srun cs w = Some w' -> rep w s ->
  (forall n v, srun (take n cs) w = Some v -> room v) -> exists s', run cs s = Ok s' /\ rep w' s'.
Proof.
  revert w s. induction cs as [|c cs IH]; intros w s E R F; cbn [srun run] in *.
  - simplify_eq. eauto.
  - destruct (proper c) eqn:P; [|done]. destruct (sstep c w) as [w1|] eqn:E1; [|done]. cbn in E.
    destruct (step_ok c w w1 s E1 P) as (s1&->&R1); [exact (F 0 w eq_refl)|done|]. cbn [obind].
    apply (IH w1); [done|done|]. intros n v H. apply (F (S n) v). cbn [take srun]. by rewrite P, E1.
Qed.
Lemma long_rep cs w : srun cs spec0 = Some w -> in_memory cs -> exists s, run cs state0 = Ok s /\ rep w s.
Proof. intros E M. apply (long_history cs spec0 w state0 E rep0). intros n v H. specialize (M n v H). unfold room. lia. Qed.
Theorem long_accounts cs w : srun cs spec0 = Some w -> in_memory cs -> exists s, run cs state0 = Ok s /\ accounts w s.
Proof. intros E M. destruct (long_rep cs w E M) as (s&H&R). eauto using accounts_ok. Qed.
Lemma long_room cs w : srun cs spec0 = Some w -> in_memory cs -> room w.
Proof. intros E M. specialize (M (length cs) w). rewrite firstn_all in M. specialize (M E). unfold room. lia. Qed.
(** When every handle is gone nothing is left. *)
Theorem long_gone cs w : srun cs spec0 = Some w -> in_memory cs ->
  sg w = ∅ -> wg w = ∅ ->
  exists s, run cs state0 = Ok s /\ objs s = ∅ /\ blocks s = ∅ /\
    forall g k, kinds w !! g = Some k -> times (freed s) g = 1 /\ times (destroyed s) g = if has_object k then 1 else 0.
Proof.
  intros E L Hs Hw. destruct (long_accounts cs w E L) as (s&H&A). exists s. split; [done|].
  assert (forall g, alive w g = false) as Al by (intros g; unfold alive; by rewrite Hs, members_empty).
  assert (forall g, held w g = false) as He by (intros g; unfold held; by rewrite Hs, Hw, !members_empty).
  split; [|split].
  - apply map_eq. intros g. rewrite lookup_empty. destruct (kinds w !! g) as [k|] eqn:Hk.
    + destruct (has_object k) eqn:Ho.
      * destruct (acc_object _ _ A g k Hk Ho) as [[I _] _]. destruct (objs s !! g); [|done].
        rewrite Al in I. discriminate I. eauto.
      * by apply (acc_only_object _ _ A g k Hk Ho).
    + by apply (acc_only _ _ A g Hk).
  - apply map_eq. intros g. rewrite lookup_empty. destruct (kinds w !! g) as [k|] eqn:Hk.
    + destruct (acc_block _ _ A g k Hk) as [[I _] _]. destruct (blocks s !! g); [|done].
      rewrite He in I. discriminate I. eauto.
    + by apply (acc_only _ _ A g Hk).
  - intros g k Hk. destruct (acc_block _ _ A g k Hk) as [_ T]. rewrite He in T. split; [done|].
    destruct (has_object k) eqn:Ho.
    + destruct (acc_object _ _ A g k Hk Ho) as [_ T']. by rewrite Al in T'.
    + by apply (acc_only_object _ _ A g k Hk Ho).
Qed.
(** lock() on a weak handle whose object is gone. *)
Theorem long_lock cs w x y g : srun cs spec0 = Some w -> in_memory cs ->
  wg w !! y = Some (Some g) -> alive w g = false -> sg w !! x = None -> x <> 0 -> y <> 0 ->
  exists s s' h, run cs state0 = Ok s /\ step (SLock x y) s = Ok s' /\ sh x s' = Ok h /\
    hp h = None /\ use_count h s' = Ok 1%Z.
Proof.
  intros E L Hy Hg Hx X0 Y0. destruct (long_rep cs w E L) as (s&H&R).
  assert (sstep (SLock x y) w = Some (add_kind KNull (set_s (<[x := Some (length (kinds w))]> (sg w)) w))) as E2.
  { cbn. rewrite Hy. cbn. rewrite Hg. unfold alone, new_s. by rewrite Hx. }
  pose proof (long_room cs w E L) as F.
  destruct (step_ok (SLock x y) w _ s E2) as (s'&Hs'&R').
  { cbn. destruct (Nat.eqb_spec x 0), (Nat.eqb_spec y 0); done. }
  { done. }
  { done. }
  pose proof (accounts_ok _ _ R') as A.
  destruct (acc_shared _ _ A x (Some (length (kinds w)))) as (h&Hh&Hp&Hu).
  { cbn. apply lookup_insert. }
  exists s, s', h. split; [done|]. split; [done|]. split; [done|]. split.
  - rewrite Hp. cbn. by rewrite lookup_app_r, Nat.sub_diag by lia.
  - rewrite Hu. do 2 f_equal. cbn [sg add_kind set_s]. rewrite members_insert_new by done.
    destruct R as [R _]. rewrite (no_members _ _ _ _ (repr_core _ _ _ _ R)). unfold bump. by rewrite decide_True.
Qed.
(** shared_from_this() of an object that a constructor of shared_ptr took over. *)
Theorem long_from_this cs w x y g : srun cs spec0 = Some w -> in_memory cs ->
  sg w !! y = Some (Some g) -> kinds w !! g = Some (KSelf true) -> sg w !! x = None -> x <> 0 -> y <> 0 ->
  exists s s' h, run cs state0 = Ok s /\ step (SFromThis x y) s = Ok s' /\ sh x s' = Ok h /\ hp h = Some g /\
    use_count h s' = Ok (Z.of_nat (S (members (sg w) g))).
Proof.
  intros E L Hy Hg Hx X0 Y0. destruct (long_rep cs w E L) as (s&H&R).
  assert (sstep (SFromThis x y) w = Some (set_s (<[x := Some g]> (sg w)) w)) as E2.
  { cbn. rewrite Hy. cbn. rewrite Hg. cbn. unfold new_s. by rewrite Hx. }
  destruct (step_ok (SFromThis x y) w _ s E2) as (s'&Es&R').
  { cbn. destruct (Nat.eqb_spec x 0), (Nat.eqb_spec y 0); done. }
  { exact (long_room cs w E L). }
  { done. }
  destruct (acc_shared _ _ (accounts_ok _ _ R') x (Some g)) as (h&Hh&Hp&Hu).
  { cbn. apply lookup_insert. }
  exists s, s', h. split; [done|]. split; [done|]. split; [done|]. split.
  - rewrite Hp. cbn. by rewrite Hg.
  - rewrite Hu. do 2 f_equal. cbn [sg set_s]. rewrite members_insert_new by done.
    unfold bump. rewrite decide_True by done. lia.
Qed.

(** ** A history of any length: a handle is copied and dropped again and again. *)
Fixpoint rounds (n : nat) : list cmd := match n with O => [] | S n => SCopy 2 1 :: SDrop 2 :: rounds n end.
Definition one_spec : spec := {| sg := {[1 := Some 0]}; wg := ∅; kinds := [KSelf true] |}.
Lemma rounds_step cs : srun (SCopy 2 1 :: SDrop 2 :: cs) one_spec = srun cs one_spec.
Proof.
  assert (sstep (SCopy 2 1) one_spec = Some (set_s (<[2 := Some 0]> (sg one_spec)) one_spec)) as E1 by done.
  assert (sstep (SDrop 2) (set_s (<[2 := Some 0]> (sg one_spec)) one_spec) = Some one_spec) as E2.
  { cbn [sstep set_s sg]. rewrite lookup_insert. cbn [mbind option_bind set_s sg wg kinds]. rewrite delete_insert by done. done. }
  cbn [srun]. cbn [proper Nat.eqb negb andb]. rewrite E1. cbn [mbind option_bind srun]. by rewrite E2.
Qed.
Lemma rounds_take n : forall m w, srun (take m (rounds n)) one_spec = Some w -> size (sg w) <= 2 /\ wg w = ∅.
Proof.
  induction n as [|n IH]; intros m w H.
  - cbn [rounds] in H. rewrite take_nil in H. injection H as <-. split; [cbn; rewrite map_size_singleton; lia|done].
  - cbn [rounds] in H. destruct m as [|[|m]].
    + injection H as <-. split; [cbn; rewrite map_size_singleton; lia|done].
    + change (Some (set_s (<[2 := Some 0]> (sg one_spec)) one_spec) = Some w) in H. injection H as <-. split; [|done].
      change (size (<[2 := Some 0]> ({[1 := Some 0]} : gmap nat (option nat))) <= 2).
      rewrite map_size_insert, map_size_singleton. change (2 <= 2). lia.
    + cbn [take] in H. rewrite rounds_step in H. eauto.
Qed.
Lemma rounds_run n : srun (SMake 1 RSelf :: rounds n) spec0 = Some one_spec.
Proof.
  change (srun (rounds n) one_spec = Some one_spec). induction n as [|n IH]; [done|].
  cbn [rounds]. by rewrite rounds_step.
Qed.
Lemma rounds_memory n : in_memory (SMake 1 RSelf :: rounds n).
Proof.
  intros m w H. destruct m as [|m].
  - injection H as <-. cbn. rewrite map_size_empty. lia.
  - cbn [take] in H. change (srun (take m (rounds n)) one_spec = Some w) in H.
    apply rounds_take in H as [H1 H2]. rewrite H2, map_size_empty. lia.
Qed.
Lemma rounds_length n : length (rounds n) = 2 * n.
Proof. induction n as [|n IH]; cbn [rounds length]; lia. Qed.
Definition none_spec : spec := {| sg := delete 1 {[1 := Some 0]}; wg := ∅; kinds := [KSelf true] |}.
(** [rounds] with more commands behind them: at every moment a moment of the rounds or of the rest. *)
Lemma rounds_app n tail : srun (rounds n ++ tail) one_spec = srun tail one_spec.
Proof. induction n as [|n IH]; [done|]. cbn [rounds app]. by rewrite rounds_step. Qed.
Lemma rounds_app_memory n tail :
  (forall m w, srun (take m tail) one_spec = Some w -> size (sg w) <= 2 /\ size (wg w) <= 1) ->
  in_memory (SMake 1 RSelf :: rounds n ++ tail).
Proof.
  intros T m w H. destruct m as [|m].
  { injection H as <-. cbn. rewrite map_size_empty. lia. }
  cbn [take] in H. change (srun (take m (rounds n ++ tail)) one_spec = Some w) in H.
  assert (size (sg w) <= 2 /\ size (wg w) <= 1) as [? ?]; [|lia].
  destruct (decide (m <= length (rounds n))) as [L|L].
  - rewrite take_app_le in H by done. apply rounds_take in H as [H1 H2]. rewrite H2, map_size_empty. lia.
  - rewrite take_app_ge, rounds_app in H by lia. eauto.
Qed.
Lemma rounds_gone n : srun (SMake 1 RSelf :: rounds n ++ [SDrop 1]) spec0 = Some none_spec /\
  in_memory (SMake 1 RSelf :: rounds n ++ [SDrop 1]) /\ sg none_spec = ∅ /\ wg none_spec = ∅.
Proof.
  split; [|split; [|split; [apply delete_singleton|done]]].
  - change (srun (rounds n ++ [SDrop 1]) one_spec = Some none_spec). by rewrite rounds_app.
  - apply rounds_app_memory. intros m w H. destruct m as [|m].
    + injection H as <-. cbn. rewrite map_size_singleton, map_size_empty. lia.
    + cbn [take] in H. rewrite take_nil in H. change (Some none_spec = Some w) in H. injection H as <-.
      unfold none_spec. cbn [sg wg]. rewrite delete_singleton. rewrite !map_size_empty. lia.
Qed.
Definition weak_spec : spec := {| sg := {[1 := Some 0]}; wg := {[1 := Some 0]}; kinds := [KSelf true] |}.
Definition late_spec : spec := {| sg := delete 1 {[1 := Some 0]}; wg := {[1 := Some 0]}; kinds := [KSelf true] |}.
Lemma rounds_expired n : exists w,
  srun (SMake 1 RSelf :: rounds n ++ [WFrom 1 1; SDrop 1]) spec0 = Some w /\
  in_memory (SMake 1 RSelf :: rounds n ++ [WFrom 1 1; SDrop 1]) /\
  wg w !! 1 = Some (Some 0) /\ alive w 0 = false /\ sg w !! 2 = None.
Proof.
  exists late_spec. split; [|split; [|split; [done|split; done]]].
  - change (srun (rounds n ++ [WFrom 1 1; SDrop 1]) one_spec = Some late_spec). by rewrite rounds_app.
  - apply rounds_app_memory. intros m w H. destruct m as [|[|m]].
    + injection H as <-. cbn. rewrite map_size_singleton, map_size_empty. lia.
    + change (Some weak_spec = Some w) in H. injection H as <-. cbn. rewrite !map_size_singleton. lia.
    + cbn [take] in H. rewrite take_nil in H. change (Some late_spec = Some w) in H. injection H as <-.
      unfold late_spec. cbn [sg wg]. rewrite delete_singleton. rewrite map_size_empty, map_size_singleton. lia.
Qed.
