(** C82 for programs of any length. *)
From stdpp Require Import gmap list.
From Coq Require Import ZArith.
From Verif Require Import Base GraphModel GraphSpec GraphExamples GraphLongSpec GraphLong.

(** C82. As [C82_history_partial], however many handles a program makes, as long as those that exist at one time can
    be counted. Full statement: without the restriction [survives] in [srun], which is false ([C82_any_length_exact]). *)
Theorem C82_any_length_partial : forall cs w, srun cs spec0 w -> in_memory cs ->
  exists s, run cs state0 = Ok s /\ accounts w s.
Proof. exact long_history. Qed.
Print Assumptions C82_any_length_partial.
(** Two nodes that know one another, and [n] times a copy that comes and goes. *)
Example C82_any_length_example : forall n, srun (list_prog ++ rounds n) spec0 (spec_of list_prog) /\
  in_memory (list_prog ++ rounds n) /\ length (list_prog ++ rounds n) = 5 + 2 * n.
Proof. exact list_rounds. Qed.

(** C82. An object exists if and only if something keeps it, and one that nothing keeps was destroyed once. *)
Theorem C82_any_length_kept : forall cs w, srun cs spec0 w -> in_memory cs ->
  exists s, run cs state0 = Ok s /\ forall g k, kinds w !! g = Some k -> has_object k = true ->
    (is_Some (objs s !! g) <-> ~ goes (sg w) g) /\ (goes (sg w) g -> times (destroyed s) g = 1).
Proof. exact long_kept. Qed.
Print Assumptions C82_any_length_kept.

(** C82. What variables lead to through shared handles is there. *)
Theorem C82_any_length_reached : forall cs w, srun cs spec0 w -> in_memory cs ->
  exists s, run cs state0 = Ok s /\ forall g k, kinds w !! g = Some k -> has_object k = true -> reached (sg w) g ->
    is_Some (objs s !! g) /\ times (destroyed s) g = 0.
Proof. exact long_reached. Qed.
Print Assumptions C82_any_length_reached.

(** C82. If no objects hold one another in a circle, nothing is left when the variables are gone. *)
Theorem C82_any_length_gone : forall cs w rank, srun cs spec0 w -> in_memory cs ->
  ordered (sg w) rank -> (forall x, sg w !! Var x = None /\ wg w !! Var x = None) ->
  exists s, run cs state0 = Ok s /\ shs s = ∅ /\ wks s = ∅ /\ objs s = ∅ /\ blocks s = ∅ /\
    forall g k, kinds w !! g = Some k -> times (freed s) g = 1 /\ times (destroyed s) g = if has_object k then 1 else 0.
Proof. exact long_nothing_left. Qed.
Print Assumptions C82_any_length_gone.
Example C82_any_length_gone_example : forall n,
  srun ((list_prog ++ rounds n) ++ [SDrop 1]) spec0 (spec_of list_end) /\
  in_memory ((list_prog ++ rounds n) ++ [SDrop 1]) /\ ordered (sg (spec_of list_end)) id /\
  (forall x, sg (spec_of list_end) !! Var x = None /\ wg (spec_of list_end) !! Var x = None).
Proof. exact list_rounds_end. Qed.

(** C82. Exactly which commands are defined after a program of any length. *)
Theorem C82_any_length_exact : forall cs c w w1, srun cs spec0 w -> in_memory (cs ++ [c]) ->
  proper c = true -> sstep c w = Some w1 ->
  survives c w /\ (exists s, run (cs ++ [c]) state0 = Ok s) \/ ~ survives c w /\ run (cs ++ [c]) state0 = UB.
Proof. exact long_exact. Qed.
Print Assumptions C82_any_length_exact.
Example C82_any_length_exact_example : forall n,
  srun (SMake 1 (RObj false []) :: rounds n) spec0 (spec_of [SMake 1 (RObj false [])]) /\
  in_memory ((SMake 1 (RObj false []) :: rounds n) ++ [SMake 2 (RObj false [true])]) /\
  is_Some (sstep (SMake 2 (RObj false [true])) (spec_of [SMake 1 (RObj false [])])).
Proof. exact own_rounds. Qed.
