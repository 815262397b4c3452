(** C82: shared_ptr and weak_ptr with managed objects that hold handles. *)
From stdpp Require Import gmap list.
From Coq Require Import ZArith.
From Verif Require Import Base GraphModel GraphSpec GraphThms GraphExamples.

(** C82. Every program over variables and members runs, and then [accounts] holds: use counts, objects and blocks
    are as the handles say; the handles are those of the specification, where after every operation exactly the
    objects go that nothing keeps. Full statement: without the restriction [survives] in [srun] on reset(p) and the
    converting assignment, which is false (below). *)
Theorem C82_history_partial : forall cs w, srun cs spec0 w -> (Z.of_nat (made cs) + 16 < 2 ^ 64)%Z ->
  exists s, run cs state0 = Ok s /\ accounts w s.
Proof. exact graph_history. Qed.
Print Assumptions C82_history_partial.
Example C82_example : srun list_prog spec0 (spec_of list_prog) /\ (Z.of_nat (made list_prog) + 16 < 2 ^ 64)%Z /\
  match run list_prog state0 with Ok s => destroyed s = [] /\ is_Some (objs s !! 1) | _ => False end.
Proof. exact list_runs. Qed.

Example C82_member_example : survives (SResetTo (Field 0 0) RNull) (spec_of [SMake 1 (RObj false [true])]) /\
  match run [SMake 1 (RObj false [true]); SResetTo (Field 0 0) (RObj false []); SResetTo (Field 0 0) RNull] state0 with
  | Ok s => destroyed s = [1] /\ freed s = [1] | _ => False end.
Proof. exact reset_survives. Qed.

(** C82. An object exists if and only if something keeps it, and one that nothing keeps was destroyed once. *)
Theorem C82_kept : forall cs w, srun cs spec0 w -> (Z.of_nat (made cs) + 16 < 2 ^ 64)%Z ->
  exists s, run cs state0 = Ok s /\ forall g k, kinds w !! g = Some k -> has_object k = true ->
    (is_Some (objs s !! g) <-> ~ goes (sg w) g) /\ (goes (sg w) g -> times (destroyed s) g = 1).
Proof. exact graph_kept. Qed.
Print Assumptions C82_kept.

(** C82. What variables lead to through shared handles is there. *)
Theorem C82_reached : forall cs w, srun cs spec0 w -> (Z.of_nat (made cs) + 16 < 2 ^ 64)%Z ->
  exists s, run cs state0 = Ok s /\ forall g k, kinds w !! g = Some k -> has_object k = true -> reached (sg w) g ->
    is_Some (objs s !! g) /\ times (destroyed s) g = 0.
Proof. exact graph_reached. Qed.
Print Assumptions C82_reached.
Example C82_reached_example : reached (sg (spec_of list_prog)) 1 /\ kinds (spec_of list_prog) !! 1 = Some (RObj true [false; true]).
Proof. exact list_reached. Qed.

(** C82. If no objects hold one another in a circle, nothing is left when the variables are gone. *)
Theorem C82_nothing_left : forall cs w rank, srun cs spec0 w -> (Z.of_nat (made cs) + 16 < 2 ^ 64)%Z ->
  ordered (sg w) rank -> (forall x, sg w !! Var x = None /\ wg w !! Var x = None) ->
  exists s, run cs state0 = Ok s /\ shs s = ∅ /\ wks s = ∅ /\ objs s = ∅ /\ blocks s = ∅ /\
    forall g k, kinds w !! g = Some k -> times (freed s) g = 1 /\ times (destroyed s) g = if has_object k then 1 else 0.
Proof. exact graph_nothing_left. Qed.
Print Assumptions C82_nothing_left.
Example C82_nothing_left_example : srun list_end spec0 (spec_of list_end) /\ (Z.of_nat (made list_end) + 16 < 2 ^ 64)%Z /\
  ordered (sg (spec_of list_end)) id /\
  (forall x, sg (spec_of list_end) !! Var x = None /\ wg (spec_of list_end) !! Var x = None) /\
  match run list_end state0 with Ok s => destroyed s = [0; 1] /\ freed s = [1; 0] | _ => False end.
Proof. exact list_ends. Qed.
(** With a circle, objects outlive every variable. *)
Theorem C82_circle_refuted : exists cs w s, srun cs spec0 w /\
  (forall x, sg w !! Var x = None /\ wg w !! Var x = None) /\
  run cs state0 = Ok s /\ destroyed s = [] /\ is_Some (objs s !! 0) /\ is_Some (objs s !! 1).
Proof. exact (ex_intro _ circle_prog (ex_intro _ (spec_of circle_prog) circle_refuted)). Qed.
Print Assumptions C82_circle_refuted.

(** C82. reset(p) on a member of an object that only the old group keeps writes to the member after it was
    destroyed, always. *)
Theorem C82_reset_undefined : forall cs w o i r, srun cs spec0 w ->
  (Z.of_nat (made (cs ++ [SResetTo (Field o i) r])) + 16 < 2 ^ 64)%Z ->
  is_Some (sg w !! Field o i) -> goes (<[Field o i := None]> (sg w)) o -> run (cs ++ [SResetTo (Field o i) r]) state0 = UB.
Proof. exact graph_reset_undefined. Qed.
Print Assumptions C82_reset_undefined.
Example C82_reset_example : srun own_prog spec0 (spec_of own_prog) /\
  (Z.of_nat (made (own_prog ++ [SResetTo (Field 0 0) RNull])) + 16 < 2 ^ 64)%Z /\
  is_Some (sg (spec_of own_prog) !! Field 0 0) /\ goes (<[Field 0 0 := None]> (sg (spec_of own_prog))) 0.
Proof. exact own_goes. Qed.
(** C82. Exactly which commands are defined: after any defined program, every command that names its handles
    rightly runs if [survives] holds, and is undefined if not; of the commands of a program only reset(p) and the
    converting assignment of a member are restricted by it. *)
Theorem C82_exact : forall cs c w w1, srun cs spec0 w -> (Z.of_nat (made (cs ++ [c])) + 16 < 2 ^ 64)%Z ->
  proper c = true -> sstep c w = Some w1 ->
  survives c w /\ (exists s, run (cs ++ [c]) state0 = Ok s) \/ ~ survives c w /\ run (cs ++ [c]) state0 = UB.
Proof. exact graph_exact. Qed.
Print Assumptions C82_exact.
(** An object that holds itself is assigned its own handle: the parameter keeps it. *)
Example C82_exact_example : proper (SAssignConv (Field 0 0) (Field 0 0)) = true /\
  is_Some (sstep (SAssignConv (Field 0 0) (Field 0 0)) (spec_of own_prog)) /\
  survives (SAssignConv (Field 0 0) (Field 0 0)) (spec_of own_prog) /\
  match run (own_prog ++ [SAssignConv (Field 0 0) (Field 0 0)]) state0 with Ok s => destroyed s = [] | _ => False end.
Proof. exact own_again. Qed.
(** reset() and assignment of nullptr do the same without harm; the converting assignment does not. *)
Theorem C82_members_refuted : run (own_prog ++ [SResetTo (Field 0 0) RNull]) state0 = UB /\
  (exists s, run (own_prog ++ [SReset (Field 0 0)]) state0 = Ok s /\ destroyed s = [0] /\ freed s = [0]) /\
  (exists s, run (own_prog ++ [SAssignNull (Field 0 0)]) state0 = Ok s /\ destroyed s = [0] /\ freed s = [0]) /\
  run ([SMake 2 (RObj false [])] ++ [SMake 1 (RObj false [true]); SAssign (Field 1 0) (Var 1); SDrop 1; SAssignConv (Field 1 0) (Var 2)]) state0 = UB.
Proof. exact own_reset. Qed.
Print Assumptions C82_members_refuted.
