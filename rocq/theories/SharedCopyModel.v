(** Copies of a managed object: what happens to M_weak_this_ when objects of a class derived from
    enable_shared_from_this (estl/memory.hpp:785-807) are assigned or copied. The class declares a constructor and a
    destructor only (788-789), so both are member by member. On the state of SharedModel. *)
From stdpp Require Import gmap.
From Coq Require Import ZArith.
From Verif Require Import Base SharedModel.
Local Open Scope outcome_scope.

(** M_weak_this_ (806) of the object a shared handle points at *)
Definition member_of (x : nat) (s : state) : outcome handle :=
  h <~ sh x s ; o <~ of_option (hp h) ; v <~ of_option (objs s !! o) ; of_option (weak_this v).
(** *x = *y: the member is assigned by 709-712, its parameter being a copy (681-682) in weak handle 0, swapped
    (714-717) and ended *)
Definition obj_assign (x y : nat) (s : state) : outcome state :=
  m <~ member_of y s ;
  s <~ weak_count_copy (hc m) s ;
  s <~ new_wk 0 m s ;
  h <~ sh x s ; o <~ of_option (hp h) ; v <~ of_option (objs s !! o) ; old <~ of_option (weak_this v) ;
  s <~ put_wk 0 old (put_obj o {| weak_this := Some m |} s) ;
  w_drop 0 s.
(** T t( *y); shared_ptr x(t.shared_from_this()); and [t] ends. The member of [t] is weak handle 0: 681-682, then 791-793, then 789. *)
Definition copy_from_this (x y : nat) (s : state) : outcome state :=
  m <~ member_of y s ;
  s <~ weak_count_copy (hc m) s ;
  s <~ new_wk 0 m s ;
  s <~ w_lock x 0 s ;
  w_drop 0 s.
(** make_shared<T>( *y) into [x]: 780-783, 564-568 with a copy of [y]'s object; its member starts as a copy (681-682) *)
Definition make_copy (x y : nat) (s : state) : outcome state :=
  m <~ member_of y s ;
  s <~ weak_count_copy (hc m) s ;
  let o := nxt s in
  let (b, s) := new_block (Some o) (put_obj o {| weak_this := Some m |} s) in
  s <~ new_sh x {| hp := Some o; hc := Some b |} s ;
  construct_shared_from_this x s.
