(** The results of SharedCopyProofs.v without a bound on the number of commands. *)
From stdpp Require Import gmap list.
From Coq Require Import ZArith Lia.
From Verif Require Import Base SharedModel SharedSpec SharedProofs SharedRun SharedHist SharedLongSpec SharedLong SharedCopyModel SharedCopyProofs.
Local Open Scope nat_scope.

Lemma long_reached cs w : srun cs spec0 = Some w -> in_memory cs -> reached cs w.
Proof. intros E M. destruct (long_rep cs w E M) as (s&H&R). exists s. eauto using long_room. Qed.
Theorem long_assigned_joins : forall cs w x y z g h, srun cs spec0 = Some w -> in_memory cs ->
  sg w !! x = Some (Some g) -> sg w !! y = Some (Some h) -> g <> h ->
  kinds w !! g = Some (KSelf true) -> kinds w !! h = Some (KSelf true) -> sg w !! z = None ->
  exists s s1 s2 p q, run cs state0 = Ok s /\ obj_assign x y s = Ok s1 /\ s_from_this z x s1 = Ok s2 /\
    sh x s2 = Ok p /\ hp p = Some g /\ sh z s2 = Ok q /\ hp q = Some h /\
    use_count q s2 = Ok (Z.of_nat (S (members (sg w) h))) /\ use_count p s2 = Ok (Z.of_nat (members (sg w) g)) /\
    blocks s2 !! g = Some {| sc := Z.of_nat (members (sg w) g); wc := Z.of_nat (members (wg w) g + 1); ptr := Some g |} /\
    blocks s2 !! h = Some {| sc := Z.of_nat (S (members (sg w) h)); wc := Z.of_nat (members (wg w) h + 3); ptr := Some h |} /\
    wks s2 = wks s /\ destroyed s2 = destroyed s /\ freed s2 = freed s.
Proof. intros cs w x y z g h E M. exact (assigned_joins_reached cs w x y z g h (long_reached cs w E M)). Qed.
Theorem long_copied_joins : forall cs w x y h, srun cs spec0 = Some w -> in_memory cs ->
  sg w !! y = Some (Some h) -> kinds w !! h = Some (KSelf true) -> sg w !! x = None ->
  exists s s1 q, run cs state0 = Ok s /\ copy_from_this x y s = Ok s1 /\ sh x s1 = Ok q /\ hp q = Some h /\
    use_count q s1 = Ok (Z.of_nat (S (members (sg w) h))) /\
    blocks s1 !! h = Some {| sc := Z.of_nat (S (members (sg w) h)); wc := Z.of_nat (members (wg w) h + 2); ptr := Some h |} /\
    wks s1 = wks s /\ objs s1 = objs s /\ destroyed s1 = destroyed s /\ freed s1 = freed s.
Proof. intros cs w x y h E M. exact (copied_joins_reached cs w x y h (long_reached cs w E M)). Qed.
Theorem long_make_copy_own : forall cs w x y h, srun cs spec0 = Some w -> in_memory cs ->
  sg w !! y = Some (Some h) -> kinds w !! h = Some (KSelf true) -> sg w !! x = None ->
  exists s s1 q, run cs state0 = Ok s /\ make_copy x y s = Ok s1 /\ sh x s1 = Ok q /\
    q = {| hp := Some (length (kinds w)); hc := Some (length (kinds w)) |} /\ member_of x s1 = Ok q /\ use_count q s1 = Ok 1%Z /\
    blocks s1 !! h = blocks s !! h /\ objs s1 !! h = objs s !! h /\
    blocks s1 !! length (kinds w) = Some {| sc := 1; wc := 2; ptr := Some (length (kinds w)) |} /\
    wks s1 = wks s /\ destroyed s1 = destroyed s /\ freed s1 = freed s.
Proof. intros cs w x y h E M. exact (make_copy_own_reached cs w x y h (long_reached cs w E M)). Qed.

(** ** A case: a second object after any number of rounds. *)
Definition pair_spec : spec := {| sg := <[3 := Some 1]> {[1 := Some 0]}; wg := ∅; kinds := [KSelf true; KSelf true] |}.
Lemma rounds_two n : exists w,
  srun (SMake 1 RSelf :: rounds n ++ [SMake 3 RSelf]) spec0 = Some w /\ in_memory (SMake 1 RSelf :: rounds n ++ [SMake 3 RSelf]) /\
  sg w !! 1 = Some (Some 0) /\ sg w !! 3 = Some (Some 1) /\
  kinds w !! 0 = Some (KSelf true) /\ kinds w !! 1 = Some (KSelf true) /\ sg w !! 2 = None.
Proof.
  exists pair_spec. split; [|split; [|repeat split; done]].
  - change (srun (rounds n ++ [SMake 3 RSelf]) one_spec = Some pair_spec). by rewrite rounds_app.
  - apply rounds_app_memory. intros m w H. destruct m as [|m].
    + injection H as <-. cbn. rewrite map_size_singleton, map_size_empty. lia.
    + cbn [take] in H. rewrite take_nil in H. change (Some pair_spec = Some w) in H. injection H as <-.
      cbn [sg wg pair_spec]. rewrite map_size_insert_None, map_size_singleton, map_size_empty by done. lia.
Qed.
