(** C95: the deleters of unique_ptr. *)
From stdpp Require Import gmap.
From Verif Require Import Base TraitsModel SpecialModel SpecialSpec SpecialProofs DeleterSpec DeleterModel DeleterProofs.
Local Open Scope N_scope.

(** C95: a tuple is built from constants and temporaries of its elements' types whenever each element can be built from its argument; *)
Theorem C95_tuple_partial : forall l, (forall x, x ∈ l -> snd x <> LV) ->
  (forall a c, (a, c) ∈ l -> cons a CLV = true -> cons a RV = true) -> (tuple_from l = true <-> elements_built l).
Proof. exact tuple_from_others. Qed.
Print Assumptions C95_tuple_partial.
Example C95_tuple_example : tuple_from [(scalar, CLV); (mover, RV)] = true /\ tuple_from [(mover, CLV)] = false.
Proof. split; reflexivity. Qed.
(** with a variable among the arguments it is built only if all elements can be copied. *)
Theorem C95_tuple_variable : forall l, (exists x, x ∈ l /\ snd x = LV) ->
  (tuple_from l = true <-> Forall (fun x => cons (fst x) CLV = true) l).
Proof. exact tuple_from_variable. Qed.
Print Assumptions C95_tuple_variable.
Example C95_tuple_variable_example : tuple_from [(scalar, LV); (scalar, RV)] = true.
Proof. reflexivity. Qed.
(** Full statement of the first: for all arguments. False: *)
Theorem C95_tuple_refuted : exists l, elements_built l /\ tuple_from l = false.
Proof. exists [(scalar, LV); (mover, RV)]. split; [|reflexivity]. apply Forall_cons_2; [reflexivity|]. apply Forall_cons_2; [reflexivity|apply Forall_nil_2]. Qed.
Print Assumptions C95_tuple_refuted.

(** C95, full statement: a unique_ptr can be built with, and moved with, every deleter type that is a reference, or that can be built from the deleter given
    (a temporary one for a move); and from a pointer alone only if the deleter is of a class. For classes that can be copied: *)
Theorem C95_compiles_partial : forall a b, let d := DClass a b in
  from_pointer d = b /\ (forall c, from_both d c = cons a CLV) /\ from_move d = cons a CLV /\ move_assign d = asg a RV.
Proof. exact compile_class. Qed.
Print Assumptions C95_compiles_partial.
(** False for deleters that can only be moved, for references, and for pointers to functions: *)
Theorem C95_compiles_refuted :
  (exists a, moves_only a /\ forall b, from_move (DClass a b) = false /\ from_both (DClass a b) RV = false) /\
  (forall t c, from_both (DRef t) c = false /\ from_move (DRef t) = false) /\
  from_pointer DFun = true.
Proof.
  split; [exists mover; split; [exact mover_is|split; reflexivity]|].
  split; [|reflexivity]. intros t c. unfold from_both, from_move. rewrite !impl_from_eq, ref_never. split; reflexivity.
Qed.
Print Assumptions C95_compiles_refuted.

(** C95: in every program that keeps the rules, each unique_ptr owns what it should, has the deleter it should, and every object is deleted when and by whom it should; *)
Theorem C95_deleted_by : forall X D (suits : D -> X -> bool) mv self init os b, keep_all suits init os blank = Some b ->
  exists w, run suits mv self init os start = Ok w /\
    live w = objs b /\ calls w = done b /\ (forall s, fst <$> hnd w !! s = fst <$> pacts b !! s) /\
    (forall s p d, pacts b !! s = Some (p, Some d) -> hnd w !! s = Some (p, Some d)).
Proof. exact @calls_ok. Qed.
Print Assumptions C95_deleted_by.
Example C95_example : (b ← keep_all numbered None busy blank; Some (done b, pacts b !! 3)) = Some ([(1, 7); (2, 8)], Some (Some 3, Some 7)).
Proof. vm_compute. reflexivity. Qed.
(** and with new, new[], delete and delete[] as make_unique (memory.hpp:266-274) uses them *)
Example C95_forms_example : (b ← keep_all form None [New true; New false; OfBoth 1 (Some 1) true; OfBoth 2 (Some 2) false; End 1; End 2] blank;
  Some (done b)) = Some [(2, false); (1, true)].
Proof. vm_compute. reflexivity. Qed.
(** no object is deleted twice, and those not deleted are still there; *)
Theorem C95_once : forall X D (suits : D -> X -> bool) mv self init os b, keep_all suits init os blank = Some b ->
  exists w, run suits mv self init os start = Ok w /\ NoDup (map fst (calls w)) /\
    forall p, is_Some (live w !! p) <-> 1 <= p < nxt w /\ p ∉ map fst (calls w).
Proof. exact @calls_once. Qed.
Print Assumptions C95_once.
(** and once an object is owned under a deleter it stays under that deleter, whatever is moved, assigned and swapped, until that deleter deletes it. *)
Theorem C95_pact : forall X D (suits : D -> X -> bool) mv self init os1 os2 b1 b2 s p d,
  keep_all suits init os1 blank = Some b1 -> pacts b1 !! s = Some (Some p, Some d) ->
  keep_all suits init os2 b1 = Some b2 -> (forall t, Release t ∉ os2) ->
  exists w, run suits mv self init (os1 ++ os2) start = Ok w /\ ((p, d) ∈ calls w \/ exists t, hnd w !! t = Some (Some p, Some d)).
Proof. exact @calls_pact. Qed.
Print Assumptions C95_pact.
Example C95_pact_example : (b ← keep_all numbered None (take 5 busy) blank; Some (pacts b !! 1)) = Some (Some (Some 1, Some 7)) /\
  (forall t, Release t ∉ drop 5 busy).
Proof. split; [vm_compute; reflexivity|]. intros t. cbn. rewrite !not_elem_of_cons. repeat split; try discriminate. apply not_elem_of_nil. Qed.
(** C95: assigning a unique_ptr to itself keeps its object, and moves its deleter to itself. *)
Theorem C95_self : forall X D (suits : D -> X -> bool) mv self s p d (w : st X D), hnd w !! s = Some (p, d) ->
  assign suits mv self s s w = Ok (write s (p, option_map self d) w).
Proof. exact @self_assign. Qed.
Print Assumptions C95_self.
(** C95, full statement: a unique_ptr built from a pointer alone deletes its object. False for pointers to functions, where the deleter is indeterminate: *)
Theorem C95_no_deleter_refuted : exists w, from_pointer DFun = true /\
  run numbered (fun _ => 0) id None [New (); Of 1 (Some 1)] start = Ok w /\ destroy numbered 1 w = UB.
Proof. eexists. split; [reflexivity|]. split; [vm_compute; reflexivity|]. vm_compute. reflexivity. Qed.
Print Assumptions C95_no_deleter_refuted.

(** C95: an object given to a deleter that does not suit it, as an array to delete, is lost: whatever makes its owner let go of it is undefined. *)
Theorem C95_unfit : forall X D (suits : D -> X -> bool) mv self init os b s p d x,
  keep_all suits init os blank = Some b -> pacts b !! s = Some (Some p, Some d) -> objs b !! p = Some x -> suits d x = false ->
  exists w, run suits mv self init os start = Ok w /\ exec suits mv self init (End s) w = UB /\ exec suits mv self init (Null s) w = UB /\
    (forall q, exec suits mv self init (Reset s q) w = UB) /\
    forall src, src <> s -> is_Some (pacts b !! src) -> exec suits mv self init (Assign s src) w = UB.
Proof. exact @calls_unfit. Qed.
Print Assumptions C95_unfit.
Example C95_unfit_example : (b ← keep_all form None [New true; OfBoth 1 (Some 1) false] blank; Some (pacts b !! 1, objs b !! 1)) =
  Some (Some (Some 1, Some false), Some true) /\ form false true = false.
Proof. vm_compute. split; reflexivity. Qed.
