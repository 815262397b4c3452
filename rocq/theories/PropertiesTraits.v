(** C75-C80: type traits, forward and move, algorithms, arrays and tuples. *)
From stdpp Require Import list.
From Coq Require Import NArith ZArith.
From Verif Require Import TraitsModel TraitsSpec TraitsProofs AlgoModel AlgoSpec AlgoProofs TraitsExamples.
Local Open Scope N_scope.

(** C75 (part): cv traits, exactly. *)
Theorem C75_qualifiers_partial : forall t,
  requalified (drops true false) t (remove_const t) /\ requalified (drops false true) t (remove_volatile t) /\
  requalified (drops true true) t (remove_cv t) /\ requalified (adds true false) t (add_const t) /\
  requalified (adds false true) t (add_volatile t) /\ requalified (adds true true) t (add_cv t) /\
  is_const t = is_c (quals_of t) /\ is_volatile t = is_v (quals_of t).
Proof. exact qualifiers. Qed.
Print Assumptions C75_qualifiers_partial.
Example C75_quals_example : remove_const cvarr = TArr (TArr (TBase (Q false true) Int) (Some 2)) (Some 3) /\
  add_const (TLref int_) = TLref int_ /\ remove_cv (TPtr (Q true false) (TBase (Q true false) Char)) = TPtr none (TBase (Q true false) Char).
Proof. exact ex_quals. Qed.
(** C75 (part): references collapse. Missing: types that cannot be referred to, which should come back unchanged. *)
Theorem C75_references_partial : forall t, referenceable t ->
  remove_reference t = referred t /\ add_lvalue_reference t = Some (TLref (referred t)) /\
  add_rvalue_reference t = Some (match t with TLref u => TLref u | _ => TRref (referred t) end).
Proof. exact (fun t H => conj (proj1 (reference_shape t)) (conj (add_lvalue t H) (add_rvalue t H))). Qed.
Print Assumptions C75_references_partial.
Example C75_refs_example : referenceable (TRref int_) /\ add_lvalue_reference (TRref int_) = Some (TLref int_) /\
  add_rvalue_reference (TLref int_) = Some (TLref int_).
Proof. exact ex_refs. Qed.
Theorem C75_void_refuted : exists t, add_lvalue_reference t = None /\ add_rvalue_reference t = None.
Proof. exact void_false. Qed.
Print Assumptions C75_void_refuted.
Theorem C75_pointer_partial : forall t, pointable t -> add_pointer t = Some (TPtr none (referred t)).
Proof. exact add_ptr. Qed.
Print Assumptions C75_pointer_partial.
(** C75 (part): decay gives the type of a by-value parameter. Missing: noexcept functions. (Arrays of functions or references are no types.) *)
(** the element of an array, and what is left of an array of arrays *)
Theorem C75_extent : forall t,
  (forall u n, t = TArr u n -> remove_extent t = u) /\ ((forall u n, t <> TArr u n) -> remove_extent t = t) /\
  exists bounds, t = fold_right (fun n u => TArr u n) (remove_all_extent t) bounds /\ forall u n, remove_all_extent t <> TArr u n.
Proof. exact extent_ok. Qed.
Print Assumptions C75_extent.
Example C75_extent_example : remove_all_extent (TArr (TArr int_ (Some 2)) None) = int_ /\ remove_extent (TArr (TArr int_ (Some 2)) None) = TArr int_ (Some 2).
Proof. split; reflexivity. Qed.
Theorem C75_decay_partial : forall t u, decays t u -> ~ noexcept_function (referred t) ->
  (match referred t with TArr (TFun _ _ _ _ _ _) _ | TArr (TLref _) _ | TArr (TRref _) _ => False | _ => True end) -> decay t = Some u.
Proof. exact decay_ok. Qed.
Print Assumptions C75_decay_partial.
Example C75_decay_example : decays (TLref (TArr (TBase (Q true false) Char) (Some 6))) (TPtr none (TBase (Q true false) Char)) /\
  decay (TLref (TArr (TBase (Q true false) Char) (Some 6))) = Some (TPtr none (TBase (Q true false) Char)).
Proof. exact ex_decay. Qed.
Theorem C75_decay_refuted : exists t u, decays t u /\ decay t <> Some u.
Proof. exact decay_false. Qed.
Print Assumptions C75_decay_refuted.
Theorem C75_decay_exact : forall r a d q f, decay (TFun r a d q f true) = Some (TFun r a d q f true).
Proof. exact decay_noexcept. Qed.
Print Assumptions C75_decay_exact.

(** C76 (part): every type has exactly the trait of its category. Missing: the types [forgotten] lists. *)
Theorem C76_categories_partial : forall t, ~ forgotten t -> forall c, trait c t = true <-> category_of t = c.
Proof. exact categories. Qed.
Print Assumptions C76_categories_partial.
Example C76_example : ~ forgotten (TMem none (TFun int_ [int_] false (Q true false) NoRef false) 7) /\
  category_of (TMem none (TFun int_ [int_] false (Q true false) NoRef false) 7) = CMemFun.
Proof. exact ex_category. Qed.
(** unsigned long is in no category; so for every forgotten type its own trait says no. *)
Theorem C76_categories_refuted : exists t, (forall c, trait c t = false) /\ category_of t = CIntegral.
Proof. exact category_false. Qed.
Print Assumptions C76_categories_refuted.
Theorem C76_forgotten_exact : forall t, forgotten t -> trait (category_of t) t = false.
Proof. exact forgotten_wrong. Qed.
Print Assumptions C76_forgotten_exact.
Theorem C76_memfun_refuted : exists t, category_of t = CMemFun /\ trait CMemObj t = true.
Proof. exact memfun_false. Qed.
Print Assumptions C76_memfun_refuted.

(** C77 (part): disconjunction is "or" and not_ is "not"; conjunction is "and" exactly on arguments that are all the same. *)
Theorem C77_or : forall l, disconjunction l = existsb id l.
Proof. exact or_ok. Qed.
Print Assumptions C77_or.
Theorem C77_not : forall b, not_ b = true <-> b <> true.
Proof. exact not_ok. Qed.
Print Assumptions C77_not.
Theorem C77_and_partial : forall l, conjunction l = forallb id l <-> forall a b, a ∈ l -> b ∈ l -> a = b.
Proof. exact and_agrees. Qed.
Print Assumptions C77_and_partial.
Theorem C77_and_exact : forall l, conjunction l = match l with [] => true | _ => existsb id l end.
Proof. exact and_is. Qed.
Print Assumptions C77_and_exact.
Theorem C77_and_refuted : exists l, conjunction l = true /\ forallb id l = false.
Proof. exact and_false. Qed.
Print Assumptions C77_and_refuted.
Example C77_example : conjunction [true; true; true] = true /\ conjunction [false; false] = false /\ disconjunction [false; true; false] = true.
Proof. exact ex_and. Qed.

(** C78 (part): whatever converts implicitly is accepted. Missing: nothing else should be. *)
Theorem C78_accepts_partial : forall derived T A, implicit derived A T -> is_convertible T A = Some true.
Proof. exact implicit_accepted. Qed.
Print Assumptions C78_accepts_partial.
Example C78_example : implicit (fun a b => a = 1 /\ b = 0) (TPtr none (TBase none (Class 1))) (TPtr none (TBase (Q true false) (Class 0))).
Proof. exact ex_implicit. Qed.
(** exactly the casts are accepted *)
Theorem C78_exact : forall T A, number_or_pointer T -> number_or_pointer A ->
  (is_convertible T A = Some true <-> castable A T) /\ is_convertible T A <> None.
Proof. exact cast_exact. Qed.
Print Assumptions C78_exact.
Example C78_exact_example : castable (TPtr none (TBase none Int)) (TBase none ULong) /\ ~ castable (TPtr none (TBase none Int)) (TBase none UInt) /\
  number_or_pointer (TPtr none (TBase none Int)) /\ number_or_pointer (TBase none UInt).
Proof. exact ex_castable. Qed.
Theorem C78_convertible_refuted : forall derived, exists T A, is_convertible T A = Some true /\ ~ implicit derived A T.
Proof. exact convertible_false. Qed.
Print Assumptions C78_convertible_refuted.
(** every deleter converts to every other *)
Theorem C78_deleter_refuted : forall T U,
  object_pointer (TPtr none T) = true -> object_pointer (TPtr none U) = true -> deleter_converts T U = Some true.
Proof. exact deleter_false. Qed.
Print Assumptions C78_deleter_refuted.

(** C79: a template that forwards its parameter passes on the type and value category it was given. *)
Theorem C79_forward : forall e, proper e ->
  forward (deduce e) (fst e, LValue) = Some (fst e, match snd e with LValue => LValue | _ => XValue end).
Proof. exact forward_perfect. Qed.
Print Assumptions C79_forward.
Example C79_example : proper (TBase (Q true false) (Class 3), PRValue) /\
  forward (deduce (TBase (Q true false) (Class 3), PRValue)) (TBase (Q true false) (Class 3), LValue) = Some (TBase (Q true false) (Class 3), XValue).
Proof. exact ex_forward. Qed.
Theorem C79_forward_refuses : forall u k, k <> LValue -> forward (TLref u) (u, k) = None.
Proof. exact forward_refuses. Qed.
Print Assumptions C79_forward_refuses.
Theorem C79_move : forall e, proper e -> move e = Some (fst e, XValue).
Proof. exact move_ok. Qed.
Print Assumptions C79_move.
Theorem C79_nth_type : forall i l, nth_type i l = l !! N.to_nat i.
Proof. exact nth_ok. Qed.
Print Assumptions C79_nth_type.

(** C80: fill and fill_n write the value to the range and nothing else, even if the value is itself in the range. *)
Theorem C80_fill : forall n m first va, exists m',
  fill (S n) m first (first + N.of_nat n) va = Some m' /\
  forall a, m' a = if (first <=? a) && (a <? first + N.of_nat n) then m va else m a.
Proof. exact fill_ok. Qed.
Print Assumptions C80_fill.
Theorem C80_array_fill : forall n m base va, exists m',
  array_fill (S n) m base (N.of_nat n) va = Some m' /\
  forall a, m' a = if (base <=? a) && (a <? base + N.of_nat n) then m va else m a.
Proof. exact array_fill_ok. Qed.
Print Assumptions C80_array_fill.
Theorem C80_fill_n : forall n m first va, exists m',
  fill_n (S n) m first (N.of_nat n) va = Some m' /\
  forall a, m' a = if (first <=? a) && (a <? first + N.of_nat n) then m va else m a.
Proof. exact fill_n_ok. Qed.
Print Assumptions C80_fill_n.
Example C80_fill_example : option_map (fun m => [m 0; m 1; m 2; m 3; m 4]) (fill 10 m123 1 4 2) = Some [1; 3; 3; 3; 5]%Z.
Proof. exact ex_fill. Qed.
Theorem C80_fill_backwards : forall fuel m first last va, last < first -> fill fuel m first last va = None.
Proof. exact fill_backwards. Qed.
Print Assumptions C80_fill_backwards.
(** the last element of a non-empty array *)
Theorem C80_back : forall n, 0 < n < 2 ^ 64 -> back_index n = n - 1.
Proof. exact back_ok. Qed.
Print Assumptions C80_back.
(** min and max return one of their arguments, and none is smaller (greater) *)
Theorem C80_min : forall T (lt : T -> T -> bool) (x y : T), (forall a b, lt a b = true -> lt b a = false) ->
  let r := pick (min_ref lt x y) x y in (r = x \/ r = y) /\ lt x r = false /\ lt y r = false.
Proof. exact @min_least. Qed.
Print Assumptions C80_min.
Theorem C80_max : forall T (gt : T -> T -> bool) (x y : T), (forall a b, gt a b = true -> gt b a = false) ->
  let r := pick (max_ref gt x y) x y in (r = x \/ r = y) /\ gt x r = false /\ gt y r = false.
Proof. exact @max_greatest. Qed.
Print Assumptions C80_max.
(** On a tie both return the second argument, so the first is lost. *)
Theorem C80_tie_refuted : exists (x y : N * N),
  let lt a b := fst a <? fst b in let gt a b := fst b <? fst a in
  pick (min_ref lt x y) x y = y /\ pick (max_ref gt x y) x y = y /\ x <> y.
Proof. exact minmax_false. Qed.
Print Assumptions C80_tie_refuted.
(** Exactly then: the standard's min returns the second argument only if it is less, its max only if it is greater. *)
Theorem C80_tie_exact : forall T (lt gt : T -> T -> bool) (x y : T), (forall a b, lt a b = true -> lt b a = false) -> (forall a b, gt a b = lt b a) ->
  (min_ref lt x y = negb (lt y x) <-> lt x y = true \/ lt y x = true) /\ (max_ref gt x y = negb (lt x y) <-> lt x y = true \/ lt y x = true).
Proof. exact @tie_exact. Qed.
Print Assumptions C80_tie_exact.
Example C80_tie_exact_example : min_ref N.ltb 3 5 = true /\ negb (5 <? 3) = true /\ min_ref N.ltb 3 3 = false /\ negb (3 <? 3) = true.
Proof. repeat split. Qed.
(** tuple assignment: the target becomes the source, everything else, the source included, stays; also for self-assignment *)
Theorem C80_tuple : forall n m tmp this t,
  (tmp + N.of_nat n <= this \/ this + N.of_nat n <= tmp) -> (tmp + N.of_nat n <= t \/ t + N.of_nat n <= tmp) ->
  (this + N.of_nat n <= t \/ t + N.of_nat n <= this \/ this = t) ->
  forall c, inside n tmp c = false -> assign_tuple n m tmp this t c = if inside n this c then m (t + (c - this)) else m c.
Proof. exact assign_spec. Qed.
Print Assumptions C80_tuple.
Example C80_tuple_example : let m := assign_tuple 2 m123 10 0 4 in [m 0; m 1; m 2; m 4; m 5] = [5; 6; 3; 5; 6]%Z.
Proof. exact ex_tuple. Qed.
