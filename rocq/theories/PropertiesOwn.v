(** C31, C38-C40: unique_ptr, any, function, defer. *)
From stdpp Require Import gmap.
From Verif Require Import Base OwnModel OwnSpec OwnProofs.
Local Open Scope N_scope.

(** C31, full statement: [C31_unique_ptr_partial] with default construction among the operations
    and giving a null handle.  False: a default-constructed unique_ptr is indeterminate. *)
Theorem C31_default_null_refuted : exists (w : own N) s,
  up_default own_empty s = Ok w /\ up_get w s = UB /\ up_dtor w s = UB /\ up_reset w s None = UB.
Proof. exact up_default_bad. Qed.
Print Assumptions C31_default_null_refuted.

(** Every correct program over any number of handles runs without double delete, every handle
    holds what [uspec] says, and the live objects are exactly the owned and the released ones.
    Missing: default construction. *)
Theorem C31_unique_ptr_partial : forall {X} (os : list (uop X)) u, uspec_run uempty os = Some u ->
  exists w, up_run own_empty os = Ok w /\ accounted u /\
    (forall s, owner u !! s = None <-> slots w !! s = None) /\
    (forall s v, owner u !! s = Some v -> up_get w s = Ok v) /\
    heap w = owned u ∪ loose u.
Proof. exact @up_history. Qed.
Print Assumptions C31_unique_ptr_partial.
Example C31_example :
  (fun u => (owner u !! 2, loose u !! 1, owned u !! 2)) <$>
  uspec_run uempty [UMake 1 10; UMake 2 20; UMove 3 1; UAssignMove 2 3; UAssignMove 2 2; URawNew 30;
    UReset 3 (Some 3); USwap 2 3; URelease 3; UDtor 1; UDtor 3] =
  Some (Some (Some 3), Some 10, None).
Proof. vm_compute. reflexivity. Qed.

(** When all handles are gone, only released objects remain. *)
Theorem C31_no_leak_partial : forall {X} (os : list (uop X)) u w,
  uspec_run uempty os = Some u -> up_run own_empty os = Ok w -> owner u = ∅ -> heap w = loose u.
Proof. exact @up_no_leak. Qed.
Print Assumptions C31_no_leak_partial.
Example C31_no_leak_example :
  (fun u => (map_to_list (owner u), map_to_list (loose u))) <$>
  uspec_run uempty [UMake 1 10; UMove 2 1; UMake 3 5; URelease 3; UDtor 3; UDtor 1; UDtor 2] =
  Some ([], [(2, 5)]).
Proof. vm_compute. reflexivity. Qed.

(** C38: copies of any are independent: every history over any number of objects, including
    in-place changes, behaves as on plain values, and no holder leaks or is freed twice. *)
Theorem C38_any_values_partial : forall {X} (os : list (hop X)) σ, hspec_run ∅ os = Some σ ->
  exists w, any_run own_empty os = Ok w /\
    (forall s v, σ !! s = Some v -> any_value w s = Ok v) /\
    (forall s, σ !! s = None -> slots w !! s = None) /\
    size (heap w) = size (filter (fun sv => is_Some (snd sv)) σ).
Proof. exact @any_history. Qed.
Print Assumptions C38_any_values_partial.
Example C38_example :
  (fun σ => (σ !! 1, σ !! 2, σ !! 3, σ !! 4)) <$>
  hspec_run ∅ [HOf 1 10; HCopy 2 1; HWrite 2 (fun x => x + 1); HNew 3; HAssignCopy 3 2; HAssignMove 1 1;
    HSwap 1 3; HClear 2; HEmplace 2 7; HMove 4 2] =
  Some (Some (Some 11), Some None, Some (Some 10), Some (Some 7)).
Proof. vm_compute. reflexivity. Qed.

(** C38: any_cast succeeds exactly for the stored type. *)
Theorem C38_any_cast_partial : forall {V} (w : own (N * V)) s t v, any_value w s = Ok v ->
  any_cast w s t = Ok (match v with Some (t', x) => if (t' =? t)%N then Some x else None | None => None end).
Proof. exact @any_cast_exact. Qed.
Print Assumptions C38_any_cast_partial.
Example C38_cast_example : exists w : own (N * N),
  any_run own_empty [HOf 1 (3, 10)] = Ok w /\ any_value w 1 = Ok (Some (3, 10)) /\
  any_cast w 1 3 = Ok (Some 10) /\ any_cast w 1 4 = Ok None.
Proof.
  eexists. split; [vm_compute; reflexivity|]. split; [vm_compute; reflexivity|].
  split; vm_compute; reflexivity.
Qed.

(** C38, full statement: the source variable keeps its value.  False: it is moved from. *)
Theorem C38_source_unchanged_refuted : exists (after_move : N -> N) x s w x',
  any_from_variable after_move own_empty s x = Ok (w, x') /\ any_value w s = Ok (Some x) /\ x' <> x.
Proof. exact any_source_bad. Qed.
Print Assumptions C38_source_unchanged_refuted.
(** True for types that a move does not change. *)
Theorem C38_source_unchanged_partial : forall {X} (after_move : X -> X) x w s w' x', after_move x = x ->
  any_from_variable after_move w s x = Ok (w', x') -> x' = x.
Proof. exact @any_source_same. Qed.
Print Assumptions C38_source_unchanged_partial.
Example C38_source_example : exists w, any_from_variable (fun x : N => x) own_empty 1 5 = Ok (w, 5).
Proof. eexists. reflexivity. Qed.

(** C39, full statement: [C39_function_partial] without [no_empty_copy].  False: copying an empty
    function dereferences null, always. *)
Theorem C39_copy_empty_refuted : exists os : list (hop N),
  is_Some (hspec_run ∅ os) /\ fun_run own_empty os = UB.
Proof. exact fun_copy_empty_bad. Qed.
Print Assumptions C39_copy_empty_refuted.
Theorem C39_copy_empty_always_refuted : forall {X} (w : own X) s src,
  any_empty w src = Ok true -> fun_copy w s src = UB.
Proof. exact @fun_copy_empty_always. Qed.
Print Assumptions C39_copy_empty_always_refuted.
Example C39_copy_empty_example :
  any_empty (X := N) {| heap := ∅; nxt := 1; slots := {[ 1 := null ]} |} 1 = Ok true.
Proof. reflexivity. Qed.

(** Missing: copies of empty functions. *)
Theorem C39_function_partial : forall {X} (os : list (hop X)) σ,
  hspec_run ∅ os = Some σ -> no_empty_copy ∅ os ->
  exists w, fun_run own_empty os = Ok w /\
    (forall s x, σ !! s = Some (Some x) -> fun_call w s = Ok x) /\
    (forall s, σ !! s = Some None -> any_empty w s = Ok true) /\
    (forall s, σ !! s = None -> slots w !! s = None) /\
    size (heap w) = size (filter (fun sv => is_Some (snd sv)) σ).
Proof. exact @fun_history. Qed.
Print Assumptions C39_function_partial.
Example C39_example :
  let os := [HOf 1 10; HCopy 2 1; HNew 3; HAssignMove 3 2; HAssignCopy 2 3; HSwap 1 2; HDtor 1] in
  no_empty_copy ∅ os /\
  (fun σ => (σ !! 1, σ !! 2, σ !! 3)) <$> hspec_run ∅ os = Some (None, Some (Some 10), Some (Some 10)).
Proof.
  cbn zeta. split.
  - vm_compute. repeat (split; [first [exact I|discriminate]|]). exact I.
  - vm_compute. reflexivity.
Qed.

(** C39: the callable is not destroyed when its function is (the holder's base class has no
    virtual destructor). *)
Theorem C39_destroys_callable_refuted : exists (w : own N) s x,
  fun_run own_empty [HOf s x] = Ok w /\ fun_call w s = Ok x /\ fun_dtor_destroys w s = Ok [] /\
  any_dtor_destroys w s = Ok [x].
Proof. exact fun_dtor_bad. Qed.
Print Assumptions C39_destroys_callable_refuted.

(** C40, full statement: for every history without copies,
    [dspec_run ∅ os = Some (σ, l) -> exists w, d_run d_empty os = Ok w /\ ran w = l].
    False for moved guards: the target runs an indeterminate action ... *)
Theorem C40_moved_refuted : exists os σ l, dspec_run ∅ os = Some (σ, l) /\ d_run d_empty os = UB.
Proof. exact d_move_bad. Qed.
Print Assumptions C40_moved_refuted.
(** ... and the source still runs it. *)
Theorem C40_moved_source_refuted : exists os σ w,
  dspec_run ∅ os = Some (σ, []) /\ d_run d_empty os = Ok w /\ ran w = [7].
Proof. exact d_moved_source_bad. Qed.
Print Assumptions C40_moved_source_refuted.
(** Copies run it once each. *)
Theorem C40_copied_refuted : exists w,
  d_run d_empty [DNew 1 7; DCopy 2 1; DDtor 2; DDtor 1] = Ok w /\ ran w = [7; 7].
Proof. exact d_copy_bad. Qed.
Print Assumptions C40_copied_refuted.

(** Missing: moves. *)
Theorem C40_defer_partial : forall os σ l, forallb plain_dop os = true -> dspec_run ∅ os = Some (σ, l) ->
  exists w, d_run d_empty os = Ok w /\ ran w = l.
Proof. exact d_history. Qed.
Print Assumptions C40_defer_partial.
Example C40_example :
  let os := [DNew 1 7; DNew 2 8; DNew 3 9; DDismiss 2; DSwap 1 2; DDtor 3; DDtor 2; DDtor 1] in
  forallb plain_dop os = true /\ snd <$> dspec_run ∅ os = Some [9; 7].
Proof. split; vm_compute; reflexivity. Qed.
