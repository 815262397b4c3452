(** C94: the orders of the counters are strong enough, and use_count() is only a hint. *)
From stdpp Require Import list.
From Coq Require Import ZArith.
From Verif Require Import Base ThreadsModel ThreadsSpec RaceModel RaceSpec RaceProofs RaceLockModel RaceLockProofs.

(** C94: whatever the threads do with their handles (without lock()), the object and the block are made before every access
    to them, the object is destroyed after every access to it and the block freed after every access to it, in the happens-before
    of the memory model. *)
Theorem C94_no_race : forall n l w, lockless l = true -> (Z.of_nat (length l) + 4 < 2 ^ 64)%Z -> sched l (fresh n) = Some (Ok w) ->
  exists tr, trace n l = Some tr /\ race_free code_orders tr.
Proof. exact code_race_free. Qed.
Print Assumptions C94_no_race.
Example C94_no_race_example : lockless two_users = true /\ trace 1 two_users = Some two_tr /\ lockless one_watcher = true /\
  trace 1 one_watcher = Some watch_tr.
Proof. split; [reflexivity|]. split; [exact two_trace|]. split; [reflexivity|exact watch_trace]. Qed.

(** C94: the decrements need exactly acquire and release; the increments need nothing. *)
Theorem C94_orders : forall os,
  (forall n l tr, (Z.of_nat (length l) + 4 < 2 ^ 64)%Z -> trace n l = Some tr -> race_free os tr) <->
  acquires (dec_s os) && releases (dec_s os) && acquires (dec_w os) && releases (dec_w os) = true.
Proof. exact orders_exact. Qed.
Print Assumptions C94_orders.
Example C94_orders_example : ~ race_free {| inc_s := SeqCst; dec_s := Release; inc_w := SeqCst; dec_w := SeqCst |} two_tr.
Proof. apply needs_s. reflexivity. Qed.

(** C94: whatever value a relaxed load sees, use_count() is not 0 while a shared handle is left. *)
Theorem C94_use_count : forall os n l1 l2 w tr v, (Z.of_nat (length (l1 ++ l2)) + 4 < 2 ^ 64)%Z -> trace n (l1 ++ l2) = Some tr ->
  sched l1 (fresh n) = Some (Ok w) -> shared_handles w > 0 -> may_read os tr (S (length l1)) v -> (1 <= v)%Z.
Proof. exact count_positive. Qed.
Print Assumptions C94_use_count.
Example C94_use_count_example : trace 1 (firstn 4 alone ++ [(0, Count)]) = Some alone_tr /\
  (exists w, sched (firstn 4 alone) (fresh 1) = Some (Ok w) /\ shared_handles w = 1) /\ may_read code_orders alone_tr 5 1.
Proof. split; [reflexivity|]. split; [eexists; split; reflexivity|apply alone_races]. Qed.

(** C94, full statement: when use_count() gives 1 to the holder of a shared handle, the uses by former holders have happened before. False
    with any orders of the increments and decrements, the load being relaxed; and 2 can be seen as well. *)
Theorem C94_alone_refuted : forall os, trace 1 alone = Some alone_tr /\
  may_read os alone_tr 5 1 /\ may_read os alone_tr 5 2 /\ ~ before os alone_tr 3 5.
Proof. exact alone_refuted. Qed.
Print Assumptions C94_alone_refuted.

(** C94: the same with lock(), when no thread copies or drops a shared handle or enters lock() while another is inside lock() and the
    load in lock() sees the last value. *)
Theorem C94_lock : forall n l w, undisturbed l (fresh n) = true -> (Z.of_nat (length l) + 4 < 2 ^ 64)%Z -> sched l (fresh n) = Some (Ok w) ->
  exists tr, trace_lock n l = Some tr /\ race_free code_orders tr.
Proof. exact lock_race_free. Qed.
Print Assumptions C94_lock.
Example C94_lock_example : undisturbed calm (fresh 1) = true /\ trace_lock 1 calm = Some calm_tr.
Proof. exact calm_trace. Qed.

(** C94: the events with lock() are those without it when nobody calls it. *)
Theorem C94_lock_same : forall n l tr, lockless l = true -> trace n l = Some tr -> trace_lock n l = Some tr.
Proof. exact trace_same. Qed.
Print Assumptions C94_lock_same.
Example C94_lock_same_example : lockless two_users = true /\ trace 1 two_users = Some two_tr.
Proof. split; [reflexivity|exact two_trace]. Qed.

(** C94: lock() needs no order of its own; the decrements need the same as before. *)
Theorem C94_lock_orders : forall os,
  (forall n l w tr, undisturbed l (fresh n) = true -> (Z.of_nat (length l) + 4 < 2 ^ 64)%Z -> sched l (fresh n) = Some (Ok w) ->
     trace_lock n l = Some tr -> race_free os tr) <->
  acquires (dec_s os) && releases (dec_s os) && acquires (dec_w os) && releases (dec_w os) = true.
Proof. exact lock_orders. Qed.
Print Assumptions C94_lock_orders.
Example C94_lock_orders_example : trace_lock 1 two_users = Some two_tr /\
  ~ race_free {| inc_s := SeqCst; dec_s := Release; inc_w := SeqCst; dec_w := SeqCst |} two_tr.
Proof. split; [reflexivity|]. apply needs_s. reflexivity. Qed.

(** C94, full statement: no data race whatever the threads do, lock() included. False with any orders: a copy made during lock() is enough. *)
Theorem C94_lock_refuted : forall os, exists n l w tr, sched l (fresh n) = Some (Ok w) /\ trace_lock n l = Some tr /\ ~ race_free os tr.
Proof. exact lock_refuted. Qed.
Print Assumptions C94_lock_refuted.

(** C94, full statement: lock() that nobody disturbs returns a counted handle. False: its load is relaxed and may see an older value, the
    exchange then fails at once. *)
Theorem C94_stale_refuted : forall os, exists w, undisturbed stale (fresh 1) = true /\ sched stale (fresh 1) = Some (Ok w) /\
  trace_lock 1 stale = Some stale_tr /\ saw 1 1 w = w /\ may_read os stale_tr 5 2 /\
  exists w', exec 1 Go (saw 1 2 w) = Some (Ok w') /\ shared_handles w' = 2 /\ sc w' = 1%Z.
Proof. exact stale_refuted. Qed.
Print Assumptions C94_stale_refuted.
