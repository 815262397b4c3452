(** C93: which copies, moves and assignments of the library's classes compile. *)
From Coq Require Import List Bool.
Import ListNotations.
From Verif Require Import SpecialModel SpecialSpec SpecialProofs.

(** C93, full statement for pair: [like_parts [a; b] (made (pair_cls a b))]. What is missing is false: a pair can
    be assigned from a temporary only, its copy assignment being deleted. *)
Theorem C93_pair_partial : forall a b,
  (forall c, cons (made (pair_cls a b)) c = true <-> Forall (fun x => cons x (from c) = true) [a; b]) /\
  (forall c, asg (made (pair_cls a b)) c = true <-> c = RV /\ Forall (fun x => asg x RV = true) [a; b]).
Proof. exact pair_good. Qed.
Print Assumptions C93_pair_partial.
Theorem C93_pair_refuted : exists a b, like_handle a /\ like_handle b /\ ~ like_parts [a; b] (made (pair_cls a b)) /\
  asg (made (pair_cls a b)) LV = false.
Proof.
  exists scalar, scalar. split; [exact scalar_is|]. split; [exact scalar_is|]. split; [|reflexivity].
  intro H. destruct (proj2 (H LV)) as [_ X]. discriminate X. repeat constructor.
Qed.
Print Assumptions C93_pair_refuted.

(** C93: a tuple of elements of the usual kinds is copied, moved and assigned when they are; *)
Theorem C93_tuple : forall l, Forall regular l -> like_parts l (made (tuple_cls l)).
Proof. exact tuple_regular. Qed.
Print Assumptions C93_tuple.
Example C93_tuple_example : Forall regular [scalar; mover] /\
  asg (made (tuple_cls [scalar; mover])) RV = true /\ asg (made (tuple_cls [scalar; mover])) LV = false.
Proof. split; [|split; reflexivity]. repeat constructor; try discriminate; try (intros [? ?]; discriminate). Qed.
(** and one of any elements when they can be built and moved, even for assignment. *)
Theorem C93_tuple_any : forall l,
  (forall c, c <> RV -> cons (made (tuple_cls l)) c = true <-> Forall (fun x => cons x CLV = true) l) /\
  (cons (made (tuple_cls l)) RV = true <->
     Forall (fun x => cons x RV = true) l \/ Forall (fun x => cons x CLV = true) l) /\
  (forall c, asg (made (tuple_cls l)) c = true <->
     cons (made (tuple_cls l)) (from c) = true /\ Forall (fun x => cons x RV = true /\ asg x RV = true) l).
Proof. exact tuple_good. Qed.
Print Assumptions C93_tuple_any.
Example C93_tuple_any_example : asg odd CLV = true /\ asg (made (tuple_cls [odd])) CLV = false.
Proof. split; reflexivity. Qed.

(** C93: array, bitset, the iterators; string_view; reverse_iterator. *)
Theorem C93_plain : forall l,
  (forall a, In a l -> (cons a CLV = true -> cons a RV = true) /\ (asg a CLV = true -> asg a RV = true)) ->
  like_parts l (made (plain_cls l)).
Proof. exact plain_good. Qed.
Print Assumptions C93_plain.
Example C93_plain_example : (forall a, In a [mover] -> (cons a CLV = true -> cons a RV = true) /\ (asg a CLV = true -> asg a RV = true)) /\
  asg (made (plain_cls [mover])) RV = true /\ cons (made (plain_cls [mover])) LV = false.
Proof. split; [|split; reflexivity]. intros a [<-|[]]. split; discriminate. Qed.
Theorem C93_view : like_handle (made view_cls).
Proof. exact view_good. Qed.
Print Assumptions C93_view.
Theorem C93_reverse : forall a, like_handle a -> like_handle (made (reverse_cls a)).
Proof. exact reverse_good. Qed.
Print Assumptions C93_reverse.
Example C93_reverse_example : like_handle scalar.
Proof. exact scalar_is. Qed.

(** C93: vector, deque, list, rb_tree; and set, multiset, queue, stack around them. *)
Theorem C93_container : forall a, like_container a (made (container_cls a)).
Proof. exact container_good. Qed.
Print Assumptions C93_container.
Theorem C93_adapter : forall a k general, like_container a k -> like_container a (made (adapter_cls k general)).
Proof. exact adapter_good. Qed.
Print Assumptions C93_adapter.
Example C93_container_example : like_container mover (made (container_cls mover)) /\
  asg (made (adapter_cls (made (container_cls mover)) true)) RV = true /\
  cons (made (adapter_cls (made (container_cls mover)) true)) LV = false.
Proof. split; [apply container_good|]. split; reflexivity. Qed.

(** C93: unique_ptr moves only, when its deleter can be copied (see C95); shared_ptr, weak_ptr, their counters, enable_shared_from_this, any and function do everything. *)
Theorem C93_unique : forall d, like_handle d -> moves_only (made (unique_cls d)).
Proof. exact unique_good. Qed.
Print Assumptions C93_unique.
Example C93_unique_example : moves_only mover.
Proof. exact mover_is. Qed.
Theorem C93_unique_exact : forall d c, (cons (made (unique_cls d)) c = true <-> c = RV /\ cons d CLV = true) /\
  (asg (made (unique_cls d)) c = true <-> c = RV /\ asg d RV = true).
Proof. exact unique_exact. Qed.
Print Assumptions C93_unique_exact.
Theorem C93_handles : Forall like_handle (map made [count_cls; shared_cls; weak_cls; from_this_cls; any_cls; function_cls]).
Proof. exact handles_good. Qed.
Print Assumptions C93_handles.

(** C93: a guard is copied and moved when its callable is, and assigned when the callable also is. *)
Theorem C93_defer : forall f c, (cons (made (defer_cls f)) c = true <-> cons f (from c) = true) /\
  (asg (made (defer_cls f)) c = true <-> cons f (from c) = true /\ cons f RV = true /\ asg f RV = true).
Proof. exact defer_good. Qed.
Print Assumptions C93_defer.
Example C93_defer_example : cons (made (defer_cls mover)) RV = true /\ cons (made (defer_cls mover)) LV = false.
Proof. split; reflexivity. Qed.

(** C93: atomics stay where they are; *)
Theorem C93_atomic : forall a, stays_put (made (atomic_impl_cls a)) /\ stays_put (made (atomic_cls a)) /\ stays_put (made atomic_bool_cls).
Proof. exact atomic_good. Qed.
Print Assumptions C93_atomic.
(** full statement: they take a value by assignment. False of all but atomic<bool>: *)
Theorem C93_atomic_value_partial : atomic_bool_takes = true.
Proof. reflexivity. Qed.
Print Assumptions C93_atomic_value_partial.
Theorem C93_atomic_value_refuted : forall a, atomic_takes a = false.
Proof. exact atomic_no_value. Qed.
Print Assumptions C93_atomic_value_refuted.

(** C93, full statement: any can be built from every value that can be copied or moved. False for constants. *)
Theorem C93_any_partial : forall t, any_of t LV = cons t RV /\ any_of t RV = cons t RV /\ any_of t CLV = false.
Proof. exact any_of_good. Qed.
Print Assumptions C93_any_partial.
Theorem C93_any_refuted : exists t, like_handle t /\ any_of t CLV = false.
Proof. exists scalar. split; [exact scalar_is|reflexivity]. Qed.
Print Assumptions C93_any_refuted.

(** The language rules behind C93: classes that declare (as defaulted) one special member and nothing else, with a part that can
    be copied and with one that can only be moved; from left to right: copied, moved, copy-assigned, move-assigned. *)
Definition declaring (c m ca_ ma_ : decl) (d : bool) (a : caps) : cls :=
  {| cc := c; mc := m; ca := ca_; ma := ma_; dtor := d; ctors := []; asgs := []; parts := [a] |}.
Definition table (k : caps -> cls) : list bool :=
  flat_map (fun a => [cons (made (k a)) CLV; cons (made (k a)) RV; asg (made (k a)) CLV; asg (made (k a)) RV]) [scalar; mover].
Theorem C93_rules :
  table (declaring Silent Silent Silent Silent false) = [true; true; true; true; false; true; false; true] /\
  table (declaring Silent Silent Silent Silent true) = [true; true; true; true; false; false; false; false] /\
  table (declaring Default Silent Silent Silent false) = [true; true; true; true; false; false; false; false] /\
  table (declaring Silent Default Silent Silent false) = [false; true; false; false; false; true; false; false] /\
  table (declaring Silent Silent Default Silent false) = [true; true; true; true; false; false; false; false] /\
  table (declaring Silent Silent Silent Default false) = [false; false; false; true; false; false; false; true].
Proof. repeat split; vm_compute; reflexivity. Qed.
Print Assumptions C93_rules.
