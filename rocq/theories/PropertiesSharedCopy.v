(** C63 for objects that are assigned or copied. A block counts as weak
    handles the variables, the member of its own object, one for the owners together, and any member copied from it. *)
From stdpp Require Import gmap.
From Coq Require Import ZArith.
From Verif Require Import Base SharedModel SharedSpec SharedCopyModel SharedCopyProofs.

(** C63, full statement for assignment: after  *x = *y  the pointer  x->shared_from_this()  is to the object of [x]. False, and
    always: after every history it is to the object of [y], which gets one more owner, [x]'s none. *)
Theorem C63_assigned_refuted : forall cs w x y z g h, srun cs spec0 = Some w -> (Z.of_nat (length cs) + 9 < 2 ^ 64)%Z ->
  sg w !! x = Some (Some g) -> sg w !! y = Some (Some h) -> g <> h ->
  kinds w !! g = Some (KSelf true) -> kinds w !! h = Some (KSelf true) -> sg w !! z = None ->
  exists s s1 s2 p q, run cs state0 = Ok s /\ obj_assign x y s = Ok s1 /\ s_from_this z x s1 = Ok s2 /\
    sh x s2 = Ok p /\ hp p = Some g /\ sh z s2 = Ok q /\ hp q = Some h /\
    use_count q s2 = Ok (Z.of_nat (S (members (sg w) h))) /\ use_count p s2 = Ok (Z.of_nat (members (sg w) g)) /\
    blocks s2 !! g = Some {| sc := Z.of_nat (members (sg w) g); wc := Z.of_nat (members (wg w) g + 1); ptr := Some g |} /\
    blocks s2 !! h = Some {| sc := Z.of_nat (S (members (sg w) h)); wc := Z.of_nat (members (wg w) h + 3); ptr := Some h |} /\
    wks s2 = wks s /\ destroyed s2 = destroyed s /\ freed s2 = freed s.
Proof. exact assigned_joins. Qed.
Print Assumptions C63_assigned_refuted.
Example C63_assigned_example : srun two_selves spec0 = Some two_spec /\ sg two_spec !! 1 = Some (Some 0) /\ sg two_spec !! 2 = Some (Some 1) /\
  kinds two_spec !! 0 = Some (KSelf true) /\ kinds two_spec !! 1 = Some (KSelf true) /\ sg two_spec !! 3 = None.
Proof. exact two_run. Qed.

(** C63, full statement for a copy no shared_ptr owns: shared_from_this() gives a null pointer. False, and always: the pointer is to
    the object copied from. *)
Theorem C63_copied_refuted : forall cs w x y h, srun cs spec0 = Some w -> (Z.of_nat (length cs) + 9 < 2 ^ 64)%Z ->
  sg w !! y = Some (Some h) -> kinds w !! h = Some (KSelf true) -> sg w !! x = None ->
  exists s s1 q, run cs state0 = Ok s /\ copy_from_this x y s = Ok s1 /\ sh x s1 = Ok q /\ hp q = Some h /\
    use_count q s1 = Ok (Z.of_nat (S (members (sg w) h))) /\
    blocks s1 !! h = Some {| sc := Z.of_nat (S (members (sg w) h)); wc := Z.of_nat (members (wg w) h + 2); ptr := Some h |} /\
    wks s1 = wks s /\ objs s1 = objs s /\ destroyed s1 = destroyed s /\ freed s1 = freed s.
Proof. exact copied_joins. Qed.
Print Assumptions C63_copied_refuted.

(** C63: a copy made by make_shared knows its own group, and the group copied from is as before. *)
Theorem C63_make_copy : forall cs w x y h, srun cs spec0 = Some w -> (Z.of_nat (length cs) + 9 < 2 ^ 64)%Z ->
  sg w !! y = Some (Some h) -> kinds w !! h = Some (KSelf true) -> sg w !! x = None ->
  exists s s1 q, run cs state0 = Ok s /\ make_copy x y s = Ok s1 /\ sh x s1 = Ok q /\
    q = {| hp := Some (length (kinds w)); hc := Some (length (kinds w)) |} /\ member_of x s1 = Ok q /\ use_count q s1 = Ok 1%Z /\
    blocks s1 !! h = blocks s !! h /\ objs s1 !! h = objs s !! h /\
    blocks s1 !! length (kinds w) = Some {| sc := 1; wc := 2; ptr := Some (length (kinds w)) |} /\
    wks s1 = wks s /\ destroyed s1 = destroyed s /\ freed s1 = freed s.
Proof. exact make_copy_own. Qed.
Print Assumptions C63_make_copy.
