(** C28, C30, C63 for histories of any length. *)
From stdpp Require Import gmap list.
From Coq Require Import ZArith.
From Verif Require Import Base SharedModel SharedSpec SharedLongSpec SharedLong.

(** C28. As [C28_history_partial], however many commands are given, as long as the handles that exist at one time
    can be counted. Missing: managed objects that themselves hold shared handles, for which see C82. *)
Theorem C28_any_length_partial : forall cs w, srun cs spec0 = Some w -> in_memory cs ->
  exists s, run cs state0 = Ok s /\ accounts w s.
Proof. exact long_accounts. Qed.
Print Assumptions C28_any_length_partial.
(** Handle 1 is copied and the copy dropped, [n] times. *)
Example C28_any_length_example : forall n, srun (SMake 1 RSelf :: rounds n) spec0 = Some one_spec /\
  in_memory (SMake 1 RSelf :: rounds n) /\ length (rounds n) = 2 * n.
Proof. exact (fun n => conj (rounds_run n) (conj (rounds_memory n) (rounds_length n))). Qed.

(** C28. When every handle is gone nothing is left, and everything went once. *)
Theorem C28_any_length_gone : forall cs w, srun cs spec0 = Some w -> in_memory cs -> sg w = ∅ -> wg w = ∅ ->
  exists s, run cs state0 = Ok s /\ objs s = ∅ /\ blocks s = ∅ /\
    forall g k, kinds w !! g = Some k -> times (freed s) g = 1 /\ times (destroyed s) g = if has_object k then 1 else 0.
Proof. exact long_gone. Qed.
Print Assumptions C28_any_length_gone.
Example C28_any_length_gone_example : forall n, srun (SMake 1 RSelf :: rounds n ++ [SDrop 1]) spec0 = Some none_spec /\
  in_memory (SMake 1 RSelf :: rounds n ++ [SDrop 1]) /\ sg none_spec = ∅ /\ wg none_spec = ∅.
Proof. exact rounds_gone. Qed.

(** C30. lock() of an expired handle after a history of any length. *)
Theorem C30_any_length_partial : forall cs w x y g, srun cs spec0 = Some w -> in_memory cs ->
  wg w !! y = Some (Some g) -> alive w g = false -> sg w !! x = None -> x <> 0 -> y <> 0 ->
  exists s s' h, run cs state0 = Ok s /\ step (SLock x y) s = Ok s' /\ sh x s' = Ok h /\
    hp h = None /\ use_count h s' = Ok 1%Z.
Proof. exact long_lock. Qed.
Print Assumptions C30_any_length_partial.
Example C30_any_length_example : forall n, exists w,
  srun (SMake 1 RSelf :: rounds n ++ [WFrom 1 1; SDrop 1]) spec0 = Some w /\
  in_memory (SMake 1 RSelf :: rounds n ++ [WFrom 1 1; SDrop 1]) /\
  wg w !! 1 = Some (Some 0) /\ alive w 0 = false /\ sg w !! 2 = None.
Proof. exact rounds_expired. Qed.

(** C63. shared_from_this() of an object that a constructor took over, after a history of any length. *)
Theorem C63_any_length_partial : forall cs w x y g, srun cs spec0 = Some w -> in_memory cs ->
  sg w !! y = Some (Some g) -> kinds w !! g = Some (KSelf true) -> sg w !! x = None -> x <> 0 -> y <> 0 ->
  exists s s' h, run cs state0 = Ok s /\ step (SFromThis x y) s = Ok s' /\ sh x s' = Ok h /\ hp h = Some g /\
    use_count h s' = Ok (Z.of_nat (S (members (sg w) g))).
Proof. exact long_from_this. Qed.
Print Assumptions C63_any_length_partial.
Example C63_any_length_example : forall n, srun (SMake 1 RSelf :: rounds n) spec0 = Some one_spec /\
  in_memory (SMake 1 RSelf :: rounds n) /\ sg one_spec !! 1 = Some (Some 0) /\
  kinds one_spec !! 0 = Some (KSelf true) /\ sg one_spec !! 2 = None.
Proof. exact (fun n => conj (rounds_run n) (conj (rounds_memory n) (conj eq_refl (conj eq_refl eq_refl)))). Qed.
