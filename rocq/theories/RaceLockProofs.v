(** C94 with lock(): proofs. *)
From stdpp Require Import list sets.
From Coq Require Import ZArith.
From Verif Require Import Base ThreadsModel ThreadsSpec ThreadsProofs RaceModel RaceSpec RaceProofs RaceLockModel.
From Coq Require Import Lia ZifyBool ZifyNat.

(** Without lock() the events are those of [trace]. *)
Lemma events_same l w : lockless l = true -> forall es, events l w = Some es -> events_lock l w = Some es.
Proof.
  revert w. induction l as [|[i a] l IH]; intros w L es H; [exact H|].
  cbn in L. apply andb_true_iff in L as [L1 L2].
  cbn [events events_lock] in *.
  destruct (threads w !! i) as [t|]; [|discriminate H]. cbn in *.
  destruct (label_of a (at_ t)) as [b|] eqn:E; [|discriminate H]. cbn in H.
  assert (label_with a (at_ t) (sc w) = Some (Some b)) as ->.
  { destruct a; try discriminate L1; destruct (at_ t); cbn in *; try discriminate E; exact (f_equal (option_map Some) E). }
  cbn. destruct (exec i a w) as [[w'| |]|]; try discriminate H.
  destruct (events l w') as [es'|] eqn:E'; [|discriminate H]. cbn in H. injection H as <-.
  rewrite (IH w' L2 es' E'). reflexivity.
Qed.
Lemma trace_same n l tr : lockless l = true -> trace n l = Some tr -> trace_lock n l = Some tr.
Proof.
  intros L H. unfold trace, trace_lock in *. destruct (events l (fresh n)) as [es|] eqn:E; [|discriminate H].
  rewrite (events_same l _ L es E). exact H.
Qed.

(** Thread 1 locks while thread 0 copies: the exchange fails, lock() returns a handle that is not counted. *)
Definition racing : list (nat * action) :=
  [(0, CopyWS); (0, GiveW 1); (1, LockW); (0, CopyS); (1, Go); (1, Deref); (0, DropS); (0, DropS); (0, Go)].
Definition racing_tr : list event :=
  [Ev 0 Make 1; Ev 0 (Rmw Weak true) 1; Ev 0 (Hand 1) 1; Ev 1 Load 1; Ev 0 (Rmw Shared true) 2; Ev 1 Load 2; Ev 1 Use 2;
   Ev 0 (Rmw Shared false) 1; Ev 0 (Rmw Shared false) 0; Ev 0 Destroy 0].
Lemma racing_trace : trace_lock 1 racing = Some racing_tr. Proof. reflexivity. Qed.
Lemma racing_races os : ~ race_free os racing_tr.
Proof.
  intros R. destruct (R 6 9 (Ev 1 Use 2) (Ev 0 Destroy 0) ltac:(done) eq_refl eq_refl) as (_&B&_). specialize (B eq_refl eq_refl).
  assert (closed os racing_tr [6] = true) as C by done.
  pose proof (closed_before os racing_tr _ _ _ C B ltac:(set_solver)) as Q. set_solver.
Qed.
Theorem lock_refuted os : exists n l w tr, sched l (fresh n) = Some (Ok w) /\ trace_lock n l = Some tr /\ ~ race_free os tr.
Proof.
  exists 1, racing. eexists. exists racing_tr. split; [reflexivity|]. split; [exact racing_trace|apply racing_races].
Qed.

(** ** Schedules in which nothing disturbs a lock() *)

(** A step without an access: lock() leaves with a null pointer. *)
Lemma safe_quiet os tr w w' i t t' : safe os tr w -> threads w !! i = Some t -> threads w' = <[i := t']> (threads w) ->
  shn t' = shn t -> wkn t' = wkn t -> (exists c, at_ t = Locking c) -> at_ t' = Idle -> alive w' = alive w -> there w' = there w ->
  safe os tr w'.
Proof.
  intros S Ht E Es Ew [c It] It' Al Th.
  assert (tot shn w' = tot shn w) as T1 by (pose proof (sum_insert shn _ i t t' Ht) as I1; rewrite <- E in I1; lia).
  assert (tot (ind isF) w' = tot (ind isF) w) as T2.
  { pose proof (sum_insert (ind isF) _ i t t' Ht) as I1. rewrite <- E in I1. unfold ind in I1 at 2 4. rewrite It, It' in I1. cbn [isF] in I1. lia. }
  assert (forall k u, threads w' !! k = Some u -> k = i /\ u = t' \/ k <> i /\ threads w !! k = Some u) as Back.
  { intros k u Hk. rewrite E in Hk. destruct (decide (i = k)) as [<-|D].
    - rewrite list_lookup_insert in Hk by (by eapply lookup_lt_Some). left. split; congruence.
    - rewrite list_lookup_insert_ne in Hk by done. right. split; [congruence|done]. }
  assert (forall p : thread -> bool, (p t = true -> p t' = true) -> forall a, by_ os tr (threads w) p a -> by_ os tr (threads w') p a) as MB.
  { intros p Hp a (k&u&Hk&Pu&Sn). destruct (decide (i = k)) as [<-|D].
    - exists i, t'. rewrite E, list_lookup_insert by (by eapply lookup_lt_Some). split; [done|]. split; [|done]. apply Hp. congruence.
    - exists k, u. rewrite E, list_lookup_insert_ne by done. done. }
  assert (has_s t' = has_s t) as Hs by (unfold has_s; congruence).
  assert (has_w t' = has_w t) as Hw by (unfold has_w; congruence).
  destruct S as [Mk One First Obj Disp Blk Fr Dead Gone Race]. split; rewrite ?Al, ?Th, ?T1, ?T2; try done.
  - intros k u Hk Hu. destruct (Back k u Hk) as [[-> ->]|[_ Hk']]; [|by eapply First].
    eapply First; [exact Ht|]. unfold any_handle. rewrite It. apply orb_true_r.
  - intros a x Ha Hx L. destruct (Obj a x Ha Hx L) as [F|B]; [by left|right]. eapply MB; [|exact B]. by rewrite Hs.
  - intros a x k u Ha Hx Hk Hu. destruct (Back k u Hk) as [[-> ->]|[_ Hk']]; [congruence|by eapply Disp].
  - intros a x Ha Hx T F. destruct (Blk a x Ha Hx T F) as [O|[O|[[L O]|O]]]; [by left|..].
    + right. left. eapply MB; [|exact O]. by rewrite Hw.
    + right. right. left. split; [done|]. destruct O as [O|O]; [by left|right]. eapply MB; [|exact O]. by rewrite Hs.
    + right. right. right. eapply MB; [|exact O]. unfold ends. by rewrite It.
  - intros a x k u Ha Hx Hk Hu. destruct (Back k u Hk) as [[-> ->]|[_ Hk']]; [congruence|by eapply Fr].
Qed.
Definition more (i : nat) (b : option label) (z : Z) : list event := match b with Some b => [Ev i b z] | None => [] end.
Lemma safe_step_lock os k i a w w' t b tr : good os -> inv k w -> match a with CopyS | DropS | LockW => no_lock w | _ => true end = true ->
  (Z.of_nat k + 3 < 2 ^ 64)%Z -> safe os tr w -> threads w !! i = Some t -> label_with a (at_ t) (sc w) = Some b -> exec i a w = Some (Ok w') ->
  safe os (tr ++ more i b (sc w')) w'.
Proof.
  intros G I Q Hk Sf Ht Hb X.
  assert (label_of a (at_ t) = None \/ exists b', label_of a (at_ t) = Some b' /\ b = Some b') as [N|(b'&Hb'&->)].
  { unfold label_with in Hb. destruct a, (at_ t); cbn in Hb |- *; try (left; reflexivity); injection Hb as <-; right; eauto. }
  2:{ cbn [more]. eapply (safe_step os k i a w w' t b' tr); try done. by destruct a. }
  pose proof (i_lock k w I i t) as Lk.
  destruct (nums k w I Hk) as (Nsc&Nwc&Nown&Nal&Nth&NF&NF0&Nk).
  pose proof (sum_le shn _ i t Ht) as Ls. pose proof (sum_le wkn _ i t Ht) as Lw.
  unfold exec in X. rewrite Ht in X. cbn [mbind option_bind] in X. unfold touch in X.
  destruct t as [sh wk p]. cbn [shn wkn at_] in *.
  assert (0 < wk -> there w = true) as TH by (intros; rewrite Nth; slia).
  assert (0 < wk -> tot (ind isF) w = 0) as F0 by (intros; slia).
  assert (0 < tot shn w -> tot (ind isD) w = 0) as D0 by (intros; destruct (Nat.ltb_spec 0 (tot shn w)); slia).
  clear Nwc Nown Nal Nth NF NF0 Nk.
  destruct a; try discriminate N; destruct p eqn:Ep; try discriminate X; cbn in N; try discriminate N; cbn in Hb.
  - (* LockW *)
    injection Hb as <-. destruct (Nat.ltb_spec 0 wk); [|discriminate X]. rewrite TH in X by done. injection X as <-. cbn [more].
    eapply safe_gain; [exact Sf|exact Ht|reflexivity|reflexivity|..]; cbn; auto; done || slia.
  - (* Go *)
    destruct (Lk _ Ht eq_refl) as [Hc Hw]. cbn in Hw.
    destruct (Z.eqb_spec count 0) as [C|C].
    + injection Hb as <-. injection X as <-. cbn [more]. rewrite app_nil_r.
      eapply safe_quiet; [exact Sf|exact Ht|reflexivity|reflexivity|reflexivity|by eexists|reflexivity|reflexivity|reflexivity].
    + assert (0 < tot shn w) as L by (clear - Hc C; lia). rewrite TH in X by done. destruct (Z.eqb_spec (sc w) count) as [E|E].
      * injection Hb as <-. injection X as <-. cbn [more].
        eapply safe_gain; [exact Sf|exact Ht|reflexivity|reflexivity|..]; cbn; auto; done || slia.
      * injection Hb as <-. injection X as <-. cbn [more].
        eapply safe_gain; [exact Sf|exact Ht|reflexivity|reflexivity|..]; cbn; auto; done || slia.
Qed.
Lemma events_safe_lock os l : good os -> forall k w tr w', inv k w -> undisturbed l w = true -> (Z.of_nat (k + length l) + 3 < 2 ^ 64)%Z ->
  safe os tr w -> sched l w = Some (Ok w') -> exists es, events_lock l w = Some es /\ safe os (tr ++ es) w'.
Proof.
  intros G. induction l as [|[i a] l IH]; intros k w tr w' I U Hk Sf E; cbn [events_lock sched undisturbed length] in *.
  - simplify_eq. exists []. by rewrite app_nil_r.
  - apply andb_prop in U as [Q U]. destruct (exec i a w) as [[w2| |]|] eqn:X; try done.
    destruct (exec_ok k i a w (Ok w2) I ltac:(lia) Q X) as (w3&Q3&I'). injection Q3 as <-.
    assert (exists t, threads w !! i = Some t) as [t Ht] by (unfold exec in X; destruct (threads w !! i); [eauto|done]).
    rewrite Ht. cbn [mbind option_bind].
    assert (exists b, label_with a (at_ t) (sc w) = Some b) as [b Hb].
    { unfold exec in X. rewrite Ht in X. cbn [mbind option_bind] in X. unfold label_with.
      destruct a, (at_ t); try discriminate X; cbn; try (by eexists). destruct (count =? 0)%Z; [by eexists|]. destruct (sc w =? count)%Z; by eexists. }
    rewrite Hb. cbn [mbind option_bind].
    destruct (IH (S k) w2 (tr ++ more i b (sc w2)) w' I' U ltac:(lia)) as (es&He&Se); [|done|].
    { eapply (safe_step_lock os k i a w w2 t b tr); [exact G|exact I|exact Q|lia|exact Sf|exact Ht|exact Hb|exact X]. }
    rewrite He. cbn [mbind option_bind]. eexists. split; [reflexivity|]. rewrite <- app_assoc in Se. by destruct b.
Qed.
Theorem lock_race_free n l w : undisturbed l (fresh n) = true -> (Z.of_nat (length l) + 4 < 2 ^ 64)%Z -> sched l (fresh n) = Some (Ok w) ->
  exists tr, trace_lock n l = Some tr /\ race_free code_orders tr.
Proof.
  intros U Hl E.
  destruct (events_safe_lock code_orders l ltac:(done) 1 (fresh n) [Ev 0 Make 1] w (inv_fresh n) U ltac:(lia) (fresh_safe _ n) E) as (es&He&Se).
  exists (Ev 0 Make 1 :: es). unfold trace_lock. rewrite He. split; [reflexivity|]. exact (f_race _ _ _ Se).
Qed.
(** The same orders as without lock() are needed, and they are enough. *)
Theorem lock_orders os :
  (forall n l w tr, undisturbed l (fresh n) = true -> (Z.of_nat (length l) + 4 < 2 ^ 64)%Z -> sched l (fresh n) = Some (Ok w) ->
     trace_lock n l = Some tr -> race_free os tr) <->
  acquires (dec_s os) && releases (dec_s os) && acquires (dec_w os) && releases (dec_w os) = true.
Proof.
  split.
  - intros H. pose proof (H 1 two_users _ two_tr eq_refl eq_refl eq_refl eq_refl) as H1. pose proof (H 1 one_watcher _ watch_tr eq_refl eq_refl eq_refl eq_refl) as H2.
    destruct (acquires (dec_s os) && releases (dec_s os)) eqn:E1; [|by destruct (needs_s os E1)].
    destruct (acquires (dec_w os) && releases (dec_w os)) eqn:E2; [|by destruct (needs_w os E2)]. cbn. exact E2.
  - intros H n l w tr U Hl E T.
    assert (good os) as G by (unfold good; rewrite !andb_true_iff in H; tauto).
    destruct (events_safe_lock os l G 1 (fresh n) [Ev 0 Make 1] w (inv_fresh n) U ltac:(lia) (fresh_safe _ n) E) as (es&He&Se).
    unfold trace_lock in T. rewrite He in T. cbn in T. injection T as <-. exact (f_race _ _ _ Se).
Qed.
(** A lock() that succeeds while nobody copies or drops; the use through it is ordered before the destruction. *)
Definition calm : list (nat * action) :=
  [(0, CopyWS); (0, GiveW 1); (1, LockW); (0, Deref); (1, Go); (0, CopyWS); (1, Go); (1, Deref); (0, DropS); (1, DropS); (1, Go); (1, Go); (1, DropW); (0, DropW); (0, Go)].
Definition calm_tr : list event :=
  [Ev 0 Make 1; Ev 0 (Rmw Weak true) 1; Ev 0 (Hand 1) 1; Ev 1 Load 1; Ev 0 Use 1; Ev 1 (Rmw Shared true) 2; Ev 0 (Rmw Weak true) 2; Ev 1 Load 2; Ev 1 Use 2;
   Ev 0 (Rmw Shared false) 1; Ev 1 (Rmw Shared false) 0; Ev 1 Destroy 0; Ev 1 (Rmw Weak false) 0; Ev 1 (Rmw Weak false) 0; Ev 0 (Rmw Weak false) 0; Ev 0 FreeBlock 0].
Lemma calm_trace : undisturbed calm (fresh 1) = true /\ trace_lock 1 calm = Some calm_tr.
Proof. split; reflexivity. Qed.
(** Even then the load in lock() may see an older value: the exchange fails at once and lock() returns a handle that is not counted. *)
Definition stale : list (nat * action) := [(0, CopyWS); (0, GiveW 1); (0, CopyS); (0, DropS); (1, LockW)].
Definition stale_tr : list event :=
  [Ev 0 Make 1; Ev 0 (Rmw Weak true) 1; Ev 0 (Hand 1) 1; Ev 0 (Rmw Shared true) 2; Ev 0 (Rmw Shared false) 1; Ev 1 Load 1].
(** lock() of thread [i] having seen [c]. *)
Definition saw (i : nat) (c : Z) (w : world) : world :=
  match threads w !! i with Some t => upd i {| shn := shn t; wkn := wkn t; at_ := Locking c |} (sc w) (wc w) w | None => w end.
Theorem stale_refuted os : exists w, undisturbed stale (fresh 1) = true /\ sched stale (fresh 1) = Some (Ok w) /\ trace_lock 1 stale = Some stale_tr /\
  saw 1 1 w = w /\ may_read os stale_tr 5 2 /\
  exists w', exec 1 Go (saw 1 2 w) = Some (Ok w') /\ shared_handles w' = 2 /\ sc w' = 1%Z.
Proof.
  eexists. split; [reflexivity|]. split; [reflexivity|]. split; [reflexivity|]. split; [reflexivity|]. split.
  - assert (closed os stale_tr [3; 4] = true) as C by done.
    exists 3. eexists. split; [reflexivity|]. split; [lia|]. split; [done|]. split; [done|]. intros (m&y&Hm&L&W&B).
    destruct m as [|[|[|[|[|[|m]]]]]]; cbn in Hm; try lia; simplify_eq; try done.
    pose proof (closed_before os stale_tr _ _ _ C B ltac:(set_solver)) as Q. set_solver.
  - eexists. split; [reflexivity|]. split; reflexivity.
Qed.
