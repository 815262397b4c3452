(** C94 for schedules of any length. *)
From stdpp Require Import list.
From Coq Require Import ZArith.
From Verif Require Import Base ThreadsModel ThreadsSpec ThreadsLongSpec ThreadsLong RaceModel RaceSpec RaceProofs RaceLockModel RaceLong.

(** C94. As [C94_no_race], however long the schedule is, as long as the handles of one moment can be counted. *)
Theorem C94_any_length : forall n l w, lockless l = true -> countable n l -> sched l (fresh n) = Some (Ok w) ->
  exists tr, trace n l = Some tr /\ race_free code_orders tr.
Proof. exact code_race_free_long. Qed.
Print Assumptions C94_any_length.
Example C94_any_length_example : forall n, lockless (visits n) = true /\ countable 1 (visits n) /\ sched (visits n) (fresh 1) = Some (Ok (fresh 1)) /\
  trace 1 (visits n) = Some (Ev 0 Make 1 :: visits_tr n) /\ length (visits n) = 4 * n.
Proof. exact visits_ok. Qed.

(** C94. As [C94_lock], for any length. *)
Theorem C94_lock_any_length : forall n l w, undisturbed l (fresh n) = true -> countable n l -> sched l (fresh n) = Some (Ok w) ->
  exists tr, trace_lock n l = Some tr /\ race_free code_orders tr.
Proof. exact lock_race_free_long. Qed.
Print Assumptions C94_lock_any_length.
Example C94_lock_any_length_example : forall n, undisturbed ((0, CopyWS) :: locks n) (fresh 1) = true /\
  countable 1 ((0, CopyWS) :: locks n) /\ sched ((0, CopyWS) :: locks n) (fresh 1) = Some (Ok held_weak) /\ length (locks n) = 4 * n.
Proof. exact locks_ok. Qed.

(** C94. As [C94_use_count], for any length; what comes after the load does not matter. *)
Theorem C94_use_count_any_length : forall os n l1 l2 w tr v, countable n l1 -> trace n (l1 ++ l2) = Some tr ->
  sched l1 (fresh n) = Some (Ok w) -> shared_handles w > 0 -> may_read os tr (S (length l1)) v -> (1 <= v)%Z.
Proof. exact count_positive_long. Qed.
Print Assumptions C94_use_count_any_length.
Example C94_use_count_any_length_example : forall n, countable 1 (visits n) /\ sched (visits n) (fresh 1) = Some (Ok (fresh 1)) /\
  shared_handles (fresh 1) = 1 /\ trace 1 (visits n) = Some (Ev 0 Make 1 :: visits_tr n).
Proof. intros n. destruct (visits_ok n) as (_ & C & X & T & _). done. Qed.

(** C94. As [C94_orders], for any length. *)
Theorem C94_orders_any_length : forall os,
  (forall n l tr, countable n l -> trace n l = Some tr -> race_free os tr) <->
  acquires (dec_s os) && releases (dec_s os) && acquires (dec_w os) && releases (dec_w os) = true.
Proof. exact orders_long. Qed.
Print Assumptions C94_orders_any_length.
Example C94_orders_any_length_example : ~ race_free {| inc_s := SeqCst; dec_s := SeqCst; inc_w := SeqCst; dec_w := Acquire |} watch_tr.
Proof. apply needs_w. reflexivity. Qed.
