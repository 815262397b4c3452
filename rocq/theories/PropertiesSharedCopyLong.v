(** C63 for objects that are assigned or copied, after histories of any length. A block counts as weak
    handles the variables, the member of its own object, one for the owners together, and any member copied from it. *)
From stdpp Require Import gmap.
From Coq Require Import ZArith.
From Verif Require Import Base SharedModel SharedSpec SharedLongSpec SharedLong SharedCopyModel SharedCopyLong.

(** C63, full statement: after  *x = *y  the pointer  x->shared_from_this()  is to the object of [x]. False after
    every history: it is to the object of [y]. *)
Theorem C63_assigned_any_length_refuted : forall cs w x y z g h, srun cs spec0 = Some w -> in_memory cs ->
  sg w !! x = Some (Some g) -> sg w !! y = Some (Some h) -> g <> h ->
  kinds w !! g = Some (KSelf true) -> kinds w !! h = Some (KSelf true) -> sg w !! z = None ->
  exists s s1 s2 p q, run cs state0 = Ok s /\ obj_assign x y s = Ok s1 /\ s_from_this z x s1 = Ok s2 /\
    sh x s2 = Ok p /\ hp p = Some g /\ sh z s2 = Ok q /\ hp q = Some h /\
    use_count q s2 = Ok (Z.of_nat (S (members (sg w) h))) /\ use_count p s2 = Ok (Z.of_nat (members (sg w) g)) /\
    blocks s2 !! g = Some {| sc := Z.of_nat (members (sg w) g); wc := Z.of_nat (members (wg w) g + 1); ptr := Some g |} /\
    blocks s2 !! h = Some {| sc := Z.of_nat (S (members (sg w) h)); wc := Z.of_nat (members (wg w) h + 3); ptr := Some h |} /\
    wks s2 = wks s /\ destroyed s2 = destroyed s /\ freed s2 = freed s.
Proof. exact long_assigned_joins. Qed.
Print Assumptions C63_assigned_any_length_refuted.
Example C63_assigned_any_length_example : forall n, exists w,
  srun (SMake 1 RSelf :: rounds n ++ [SMake 3 RSelf]) spec0 = Some w /\ in_memory (SMake 1 RSelf :: rounds n ++ [SMake 3 RSelf]) /\
  sg w !! 1 = Some (Some 0) /\ sg w !! 3 = Some (Some 1) /\
  kinds w !! 0 = Some (KSelf true) /\ kinds w !! 1 = Some (KSelf true) /\ sg w !! 2 = None.
Proof. exact rounds_two. Qed.

(** C63, full statement: a copy no shared_ptr owns gives a null pointer. False after every history: the pointer is to
    the object copied from. *)
Theorem C63_copied_any_length_refuted : forall cs w x y h, srun cs spec0 = Some w -> in_memory cs ->
  sg w !! y = Some (Some h) -> kinds w !! h = Some (KSelf true) -> sg w !! x = None ->
  exists s s1 q, run cs state0 = Ok s /\ copy_from_this x y s = Ok s1 /\ sh x s1 = Ok q /\ hp q = Some h /\
    use_count q s1 = Ok (Z.of_nat (S (members (sg w) h))) /\
    blocks s1 !! h = Some {| sc := Z.of_nat (S (members (sg w) h)); wc := Z.of_nat (members (wg w) h + 2); ptr := Some h |} /\
    wks s1 = wks s /\ objs s1 = objs s /\ destroyed s1 = destroyed s /\ freed s1 = freed s.
Proof. exact long_copied_joins. Qed.
Print Assumptions C63_copied_any_length_refuted.
Example C63_copied_any_length_example : forall n, srun (SMake 1 RSelf :: rounds n) spec0 = Some one_spec /\
  in_memory (SMake 1 RSelf :: rounds n) /\ sg one_spec !! 1 = Some (Some 0) /\
  kinds one_spec !! 0 = Some (KSelf true) /\ sg one_spec !! 2 = None.
Proof. exact (fun n => conj (rounds_run n) (conj (rounds_memory n) (conj eq_refl (conj eq_refl eq_refl)))). Qed.

(** C63. A copy made by make_shared knows its own group. *)
Theorem C63_make_copy_any_length : forall cs w x y h, srun cs spec0 = Some w -> in_memory cs ->
  sg w !! y = Some (Some h) -> kinds w !! h = Some (KSelf true) -> sg w !! x = None ->
  exists s s1 q, run cs state0 = Ok s /\ make_copy x y s = Ok s1 /\ sh x s1 = Ok q /\
    q = {| hp := Some (length (kinds w)); hc := Some (length (kinds w)) |} /\ member_of x s1 = Ok q /\ use_count q s1 = Ok 1%Z /\
    blocks s1 !! h = blocks s !! h /\ objs s1 !! h = objs s !! h /\
    blocks s1 !! length (kinds w) = Some {| sc := 1; wc := 2; ptr := Some (length (kinds w)) |} /\
    wks s1 = wks s /\ destroyed s1 = destroyed s /\ freed s1 = freed s.
Proof. exact long_make_copy_own. Qed.
Print Assumptions C63_make_copy_any_length.
Example C63_make_copy_any_length_example : forall n, srun (SMake 1 RSelf :: rounds n) spec0 = Some one_spec /\
  in_memory (SMake 1 RSelf :: rounds n) /\ sg one_spec !! 1 = Some (Some 0) /\
  kinds one_spec !! 0 = Some (KSelf true) /\ sg one_spec !! 2 = None.
Proof. exact (fun n => conj (rounds_run n) (conj (rounds_memory n) (conj eq_refl (conj eq_refl eq_refl)))). Qed.
