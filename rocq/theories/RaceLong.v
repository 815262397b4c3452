(** The results of RaceProofs.v and RaceLockProofs.v without a bound on the length of the schedule. *)
From stdpp Require Import list list_numbers.
From Coq Require Import ZArith Lia.
From Verif Require Import Base ThreadsModel ThreadsSpec ThreadsProofs ThreadsLongSpec ThreadsLong RaceModel RaceSpec RaceProofs RaceLockModel RaceLockProofs.
Local Open Scope nat_scope.

(** Room for the handles at every moment of a schedule that starts in [w]. *)
Definition roomy (l : list (nat * action)) (w : world) : Prop :=
  forall m v, sched (take m l) w = Some (Ok v) -> (Z.of_nat (shared_handles v + weak_handles v) + 3 < 2 ^ 64)%Z.
Lemma roomy_tail i a l w w' : exec i a w = Some (Ok w') -> roomy ((i, a) :: l) w -> roomy l w'.
Proof. intros E H m v Hv. apply (H (S m) v). cbn [take sched]. by rewrite E. Qed.

Lemma events_safe_long os l : good os -> forall w tr es, inv (shared_handles w + weak_handles w) w -> no_lock w = true -> roomy l w ->
  safe os tr w -> events l w = Some es -> exists w', safe os (tr ++ es) w' /\ sched l w = Some (Ok w') /\
    inv (shared_handles w' + weak_handles w') w' /\ no_lock w' = true.
Proof.
  intros G. induction l as [|[i a] l IH]; intros w tr es I NL Hk Sf E; cbn [events sched] in *.
  - simplify_eq. exists w. by rewrite app_nil_r.
  - destruct (threads w !! i) as [t|] eqn:Ht; [|done]. cbn [mbind option_bind] in E.
    destruct (label_of a (at_ t)) as [b|] eqn:Hb; [|done]. cbn [mbind option_bind] in E.
    destruct (exec i a w) as [[w'| |]|] eqn:X; try done.
    destruct (events l w') as [es'|] eqn:E'; [|done]. cbn [mbind option_bind] in E. injection E as <-.
    assert (is_lock a = false) as La by (by eapply label_unlocked).
    destruct (exec_ok _ i a w (Ok w') I (Hk 0 w eq_refl)) as (w2&Q&I'); [by destruct a|done|]. simplify_eq.
    assert (no_lock w2 = true) as NL' by (by eapply exec_no_lock).
    assert (safe os (tr ++ [Ev i b (sc w2)]) w2) as Sf'
      by (eapply (safe_step os _ i a w w2 t b tr); [exact G|exact I|by destruct a|exact (Hk 0 w eq_refl)|exact Sf|exact Ht|exact Hb|exact X]).
    destruct (IH w2 _ es' (inv_tight _ _ I') NL' (roomy_tail i a l w w2 X Hk) Sf' E') as (w3&S3&C3&I3&N3).
    exists w3. rewrite <- app_assoc in S3. done.
Qed.
Theorem no_race_long os n l tr : good os -> countable n l -> trace n l = Some tr -> race_free os tr.
Proof.
  intros G Hl E. unfold trace in E. destruct (events l (fresh n)) as [es|] eqn:Ee; [|done]. cbn in E. injection E as <-.
  destruct (events_safe_long os l G (fresh n) [Ev 0 Make 1] es (inv_tight _ _ (inv_fresh n)) (fresh_no_lock n) Hl (fresh_safe os n) Ee)
    as (w&S&_). by apply f_race in S.
Qed.
Theorem code_race_free_long n l w : lockless l = true -> countable n l -> sched l (fresh n) = Some (Ok w) ->
  exists tr, trace n l = Some tr /\ race_free code_orders tr.
Proof.
  intros L Hl X. destruct (trace_total n l w L X) as (tr&E). exists tr. split; [exact E|]. eapply no_race_long; [|exact Hl|exact E]. repeat split.
Qed.

(** ** With lock() *)
Lemma events_safe_lock_long os l : good os -> forall w tr w', inv (shared_handles w + weak_handles w) w -> undisturbed l w = true -> roomy l w ->
  safe os tr w -> sched l w = Some (Ok w') -> exists es, events_lock l w = Some es /\ safe os (tr ++ es) w'.
Proof.
  intros G. induction l as [|[i a] l IH]; intros w tr w' I U Hk Sf E; cbn [events_lock sched undisturbed] in *.
  - simplify_eq. exists []. by rewrite app_nil_r.
  - apply andb_prop in U as [Q U]. destruct (exec i a w) as [[w2| |]|] eqn:X; try done.
    destruct (exec_ok _ i a w (Ok w2) I (Hk 0 w eq_refl) Q X) as (w3&Q3&I'). injection Q3 as <-.
    assert (exists t, threads w !! i = Some t) as [t Ht] by (unfold exec in X; destruct (threads w !! i); [eauto|done]).
    rewrite Ht. cbn [mbind option_bind].
    assert (exists b, label_with a (at_ t) (sc w) = Some b) as [b Hb].
    { unfold exec in X. rewrite Ht in X. cbn [mbind option_bind] in X. unfold label_with.
      destruct a, (at_ t); try discriminate X; cbn; try (by eexists). destruct (count =? 0)%Z; [by eexists|]. destruct (sc w =? count)%Z; by eexists. }
    rewrite Hb. cbn [mbind option_bind].
    destruct (IH w2 (tr ++ more i b (sc w2)) w' (inv_tight _ _ I') U (roomy_tail i a l w w2 X Hk)) as (es&He&Se); [|done|].
    { eapply (safe_step_lock os _ i a w w2 t b tr); [exact G|exact I|exact Q|exact (Hk 0 w eq_refl)|exact Sf|exact Ht|exact Hb|exact X]. }
    rewrite He. cbn [mbind option_bind]. eexists. split; [reflexivity|]. rewrite <- app_assoc in Se. by destruct b.
Qed.
Theorem lock_race_free_long n l w : undisturbed l (fresh n) = true -> countable n l -> sched l (fresh n) = Some (Ok w) ->
  exists tr, trace_lock n l = Some tr /\ race_free code_orders tr.
Proof.
  intros U Hl E.
  destruct (events_safe_lock_long code_orders l ltac:(done) (fresh n) [Ev 0 Make 1] w (inv_tight _ _ (inv_fresh n)) U Hl (fresh_safe _ n) E) as (es&He&Se).
  exists (Ev 0 Make 1 :: es). unfold trace_lock. rewrite He. split; [reflexivity|]. exact (f_race _ _ _ Se).
Qed.

(** ** Values of use_count() *)
Lemma events_counts_long l : forall w tr es, inv (shared_handles w + weak_handles w) w -> no_lock w = true -> roomy l w ->
  counts tr w -> events l w = Some es -> exists w', counts (tr ++ es) w' /\ sched l w = Some (Ok w').
Proof.
  induction l as [|[i a] l IH]; intros w tr es I NL Hk C E; cbn [events sched] in *.
  - simplify_eq. exists w. rewrite app_nil_r. done.
  - destruct (threads w !! i) as [t|] eqn:Ht; [|done]. cbn [mbind option_bind] in E.
    destruct (label_of a (at_ t)) as [b|] eqn:Hb; [|done]. cbn [mbind option_bind] in E.
    destruct (exec i a w) as [[w'| |]|] eqn:X; try done.
    destruct (events l w') as [es'|] eqn:E'; [|done]. cbn [mbind option_bind] in E. injection E as <-.
    assert (is_lock a = false) as La by (by eapply label_unlocked).
    destruct (exec_ok _ i a w (Ok w') I (Hk 0 w eq_refl)) as (w2&Q&I'); [by destruct a|done|]. simplify_eq.
    assert (no_lock w2 = true) as NL' by (by eapply exec_no_lock).
    pose proof (roomy_tail i a l w w2 X Hk) as Hk2. apply inv_tight in I'.
    destruct (nums _ w2 I' (Hk2 0 w2 eq_refl)) as (N2&_). destruct (nums _ w I (Hk 0 w eq_refl)) as (N1&_). specialize (N2 NL'). specialize (N1 NL).
    assert (tot shn w = 0 -> tot shn w2 = 0) as Z.
    { intros Z0. assert (sc w2 = sc w) as Q; [|lia]. pose proof (sum_le shn _ i t Ht) as Ls. rewrite no_lock_spec, Forall_forall in NL.
      specialize (NL t (elem_of_list_lookup_2 _ _ _ Ht)). unfold exec in X. rewrite Ht in X. cbn [mbind option_bind] in X.
      unfold touch, locking in *. destruct a, (at_ t); try discriminate X; try discriminate NL; repeat (case_match; try discriminate X); try lia;
        try (by simplify_eq).
      all: destruct (threads w !! j) as [u|] eqn:Hu; [|done]; cbn [mbind option_bind] in X; destruct (at_ u); try discriminate X; by simplify_eq. }
    destruct (IH w2 (tr ++ [Ev i b (sc w2)]) es' I' NL' Hk2) as (w3&C3&X3); [|done|].
    + destruct C as [P0 Z1]. split.
      * intros a0 x Ha. apply snoc_inv in Ha as [Ha|[-> ->]]; [by eapply P0|]. cbn. lia.
      * intros a0 x Ha Hx. apply snoc_inv in Ha as [Ha|[-> ->]]; [by eapply Z, Z1|]. cbn in Hx. lia.
    + exists w3. rewrite <- app_assoc in C3. done.
Qed.
Theorem count_positive_long os n l1 l2 w tr v : countable n l1 -> trace n (l1 ++ l2) = Some tr ->
  sched l1 (fresh n) = Some (Ok w) -> 0 < shared_handles w -> may_read os tr (S (length l1)) v -> (1 <= v)%Z.
Proof.
  intros Hl E X Sh (a&x&Ha&La&_&Hv&_). unfold trace in E. destruct (events (l1 ++ l2) (fresh n)) as [es|] eqn:Ee; [|done]. cbn in E. injection E as <-.
  destruct (events_split l1 l2 _ w es X Ee) as (e1&e2&H1&_&->&L).
  destruct (events_counts_long l1 (fresh n) [Ev 0 Make 1] e1 (inv_tight _ _ (inv_fresh n)) (fresh_no_lock n) Hl) as (w'&[P Z]&X'); [|done|].
  - split; intros [|[]] y Hy; cbn in Hy; try done; simplify_eq; done.
  - rewrite X in X'. injection X' as <-.
    change ([Ev 0 Make 1] ++ e1) with (Ev 0 Make 1 :: e1) in *.
    change (Ev 0 Make 1 :: e1 ++ e2) with ((Ev 0 Make 1 :: e1) ++ e2) in Ha. rewrite lookup_app_l in Ha by (cbn; lia).
    pose proof (P a x Ha). pose proof (Z a x Ha). unfold shared_handles in Sh. lia.
Qed.

(** ** Schedules of every length *)
(** Thread 1 gets a copy, uses the object and drops the copy, [n] times. *)
Fixpoint visits (n : nat) : list (nat * action) :=
  match n with O => [] | S n => (0, CopyS) :: (0, GiveS 1) :: (1, Deref) :: (1, DropS) :: visits n end.
Fixpoint visits_tr (n : nat) : list event :=
  match n with O => [] | S n => Ev 0 (Rmw Shared true) 2 :: Ev 0 (Hand 1) 2 :: Ev 1 Use 2 :: Ev 1 (Rmw Shared false) 1 :: visits_tr n end.
Lemma visit_steps : exec 0 CopyS two = Some (Ok two_copied) /\ exec 0 (GiveS 1) two_copied = Some (Ok two_given) /\
  exec 1 Deref two_given = Some (Ok two_given) /\ exec 1 DropS two_given = Some (Ok two).
Proof. done. Qed.
Lemma visits_ok n : lockless (visits n) = true /\ countable 1 (visits n) /\ sched (visits n) (fresh 1) = Some (Ok (fresh 1)) /\
  trace 1 (visits n) = Some (Ev 0 Make 1 :: visits_tr n) /\ length (visits n) = 4 * n.
Proof.
  destruct visit_steps as (E1 & E2 & E3 & E4). change (fresh 1) with two.
  split; [induction n as [|n IH]; [done|exact IH]|]. split; [|split; [|split]].
  - assert (T : forall m w, sched (take m (visits n)) two = Some (Ok w) -> shared_handles w + weak_handles w <= 2).
    { induction n as [|n IH]; intros m w H; cbn [visits] in H.
      { rewrite take_nil in H. cbn [sched] in H. simplify_eq. cbn. lia. }
      destruct m as [|[|[|[|m]]]]; cbn [take sched] in H; rewrite ?E1, ?E2, ?E3, ?E4 in H; [simplify_eq; cbn; lia..|by apply (IH m)]. }
    intros m w H. apply T in H. lia.
  - induction n as [|n IH]; [done|]. cbn [visits sched]. by rewrite E1, E2, E3, E4.
  - unfold trace. change (fresh 1) with two. assert (T : events (visits n) two = Some (visits_tr n)); [|by rewrite T].
    induction n as [|n IH]; [done|]. cbn [visits visits_tr events]. rewrite E1, E2, E3, E4, IH. reflexivity.
  - induction n as [|n IH]; cbn [visits length]; lia.
Qed.
Theorem orders_long os :
  (forall n l tr, countable n l -> trace n l = Some tr -> race_free os tr) <->
  acquires (dec_s os) && releases (dec_s os) && acquires (dec_w os) && releases (dec_w os) = true.
Proof.
  split.
  - intros H.
    assert (C1 : countable 1 two_users).
    { intros m w Hw. assert (shared_handles w + weak_handles w <= 2); [|lia].
      do 7 (destruct m as [|m]; [vm_compute in Hw; injection Hw as <-; apply Nat.leb_le; vm_compute; reflexivity|]).
      change (take (S (S (S (S (S (S (S m))))))) two_users) with two_users in Hw. vm_compute in Hw. injection Hw as <-. apply Nat.leb_le. reflexivity. }
    assert (C2 : countable 1 one_watcher).
    { intros m w Hw. assert (shared_handles w + weak_handles w <= 3); [|lia].
      assert (sched (take m one_watcher) (fresh 1) = sched (take (Nat.min m (length one_watcher)) one_watcher) (fresh 1)) as Q.
      { by rewrite <- take_take, firstn_all. }
      rewrite Q in Hw. assert (L : Nat.min m (length one_watcher) <= length one_watcher) by apply Nat.le_min_r. revert L Hw. clear. generalize (Nat.min m (length one_watcher)).
      intros k. cbn [one_watcher length]. intros L Hw.
      do 9 (destruct k as [|k]; [vm_compute in Hw; injection Hw as <-; apply Nat.leb_le; vm_compute; reflexivity|]). exfalso. lia. }
    pose proof (H 1 two_users two_tr C1 two_trace) as H1. pose proof (H 1 one_watcher watch_tr C2 watch_trace) as H2.
    destruct (acquires (dec_s os) && releases (dec_s os)) eqn:E1; [|by destruct (needs_s os E1)].
    destruct (acquires (dec_w os) && releases (dec_w os)) eqn:E2; [|by destruct (needs_w os E2)]. cbn. exact E2.
  - intros H n l tr Hl E. eapply no_race_long; [|exact Hl|exact E]. unfold good. rewrite !andb_true_iff in H. tauto.
Qed.
