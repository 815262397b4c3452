(** Models of the classes that own one heap object through a raw pointer:
    any (estl/any.hpp:5-121), function (estl/functional.hpp:70-155) and
    unique_ptr (estl/memory.hpp:90-177; the array form 179-262 has the same code).

    A program state has named objects ("slots", each holding one raw pointer), a heap of
    cells, and a counter for fresh addresses (operator new never fails and never returns an
    address in use).  Slot 0 is reserved for temporaries of the library code.
    Using an object that does not exist, freeing an address that is not allocated or reading an
    indeterminate pointer is [UB]. *)
From stdpp Require Import gmap.
From Verif Require Import Base.
Local Open Scope N_scope.
Local Open Scope outcome_scope.

(** A raw pointer: indeterminate, or null / an address. *)
Inductive ptr := Indet | P (p : option N).
Notation null := (P None).

(** model only: cells and handles *)
Record own (X : Type) := { heap : gmap N X; nxt : N; slots : gmap N ptr }.
Arguments heap {X}. Arguments nxt {X}. Arguments slots {X}.

Section prim.
  Context {X : Type}.
  Notation own := (own X).

  (** An object comes into existence with its pointer member set to [v]. *)
  Definition declare (w : own) (s : N) (v : ptr) : outcome own :=
    match slots w !! s with
    | Some _ => UB
    | None => Ok {| heap := heap w; nxt := nxt w; slots := <[s := v]> (slots w) |}
    end.
  (** The object ceases to exist (after its destructor body). *)
  Definition undeclare (w : own) (s : N) : own :=
    {| heap := heap w; nxt := nxt w; slots := delete s (slots w) |}.
  (** Reading the pointer member of a live object. *)
  Definition get (w : own) (s : N) : outcome (option N) :=
    match slots w !! s with
    | Some (P p) => Ok p
    | _ => UB
    end.
  (** Writing it. *)
  Definition put (w : own) (s : N) (v : ptr) : outcome own :=
    match slots w !! s with
    | Some _ => Ok {| heap := heap w; nxt := nxt w; slots := <[s := v]> (slots w) |}
    | None => UB
    end.
  (** new / delete of one cell *)
  Definition alloc (w : own) (x : X) : own * N :=
    ({| heap := <[nxt w := x]> (heap w); nxt := nxt w + 1; slots := slots w |}, nxt w).
  (** model only: delete, and access to a cell *)
  Definition free (w : own) (p : N) : outcome own :=
    match heap w !! p with
    | Some _ => Ok {| heap := delete p (heap w); nxt := nxt w; slots := slots w |}
    | None => UB
    end.
  (** model only: delete, and access to a cell *)
  Definition cell (w : own) (p : N) : outcome X := of_option (heap w !! p).
  (** estd::swap of two pointer members (utility.hpp:36-41) *)
  Definition swap_slots (w : own) (a b : N) : outcome own :=
    pa <~ get w a;
    pb <~ get w b;
    w1 <~ put w a (P pb);
    put w1 b (P pa).

  (** *** any.hpp; the cell is the Holder: its type and its value *)

  (** any.hpp:7-8 and functional.hpp:111, 154 *)
  Definition any_default (w : own) (s : N) : outcome own := declare w s null.
  (** any.hpp:17-19, the holder being built from the (moved) value; also functional.hpp:113-115 *)
  Definition any_of (w : own) (s : N) (x : X) : outcome own :=
    let (w1, p) := alloc w x in declare w1 s (P (Some p)).
  (** any.hpp:14-15: clone (89-91) copies the value into a new holder *)
  Definition any_copy (w : own) (s src : N) : outcome own :=
    c <~ get w src;
    match c with
    | Some p => x <~ cell w p; any_of w s x
    | None => declare w s null
    end.
  (** any.hpp:21-24; functional.hpp:120-123 *)
  Definition any_move (w : own) (s src : N) : outcome own :=
    c <~ get w src;
    w1 <~ declare w s (P c);
    put w1 src null.
  (** any.hpp:30-33; functional.hpp:148-151 *)
  Definition any_dtor (w : own) (s : N) : outcome own :=
    c <~ get w s;
    w1 <~ match c with Some p => free w p | None => Ok w end;
    Ok (undeclare w1 s).
  (** any.hpp:35-38; functional.hpp:140-142 *)
  Definition any_swap (w : own) (a b : N) : outcome own := swap_slots w a b.
  (** any.hpp:46-49: the parameter is a temporary built by copy or by move *)
  Definition any_assign_copy (w : own) (s src : N) : outcome own :=
    w1 <~ any_copy w 0 src; w2 <~ any_swap w1 0 s; any_dtor w2 0.
  (** as above, any.hpp:46-49 *)
  Definition any_assign_move (w : own) (s src : N) : outcome own :=
    w1 <~ any_move w 0 src; w2 <~ any_swap w1 0 s; any_dtor w2 0.
  (** any.hpp:40-44 with a value; functional.hpp:130-134 *)
  Definition any_assign_of (w : own) (s : N) (x : X) : outcome own :=
    w1 <~ any_of w 0 x; w2 <~ any_swap w1 0 s; any_dtor w2 0.
  (** any.hpp:59-61 *)
  Definition any_clear (w : own) (s : N) : outcome own :=
    w1 <~ any_default w 0; w2 <~ any_swap w1 0 s; any_dtor w2 0.
  (** any.hpp:63-67 *)
  Definition any_emplace (w : own) (s : N) (x : X) : outcome own :=
    w1 <~ any_clear w s;
    let (w2, p) := alloc w1 x in put w2 s (P (Some p)).
  (** Writing through the pointer that any_cast returned (any.hpp:105-110). *)
  Definition any_write (w : own) (s : N) (f : X -> X) : outcome own :=
    c <~ get w s;
    match c with
    | Some p => x <~ cell w p; Ok {| heap := <[p := f x]> (heap w); nxt := nxt w; slots := slots w |}
    | None => UB
    end.
  (** any.hpp:51-57 *)
  Definition any_empty (w : own) (s : N) : outcome bool :=
    c <~ get w s; Ok (match c with None => true | Some _ => false end).
  (** The value held. *)
  Definition any_value (w : own) (s : N) : outcome (option X) :=
    c <~ get w s;
    match c with None => Ok None | Some p => omap Some (cell w p) end.

  (** *** functional.hpp; the cell is the callable *)

  (** functional.hpp:117-118: impl_->clone() with no null test *)
  Definition fun_copy (w : own) (s src : N) : outcome own :=
    c <~ get w src;
    match c with
    | Some p => x <~ cell w p; any_of w s x
    | None => UB
    end.
  (** functional.hpp:136-139 *)
  Definition fun_assign_copy (w : own) (s src : N) : outcome own :=
    w1 <~ fun_copy w 0 src; w2 <~ any_swap w1 0 s; any_dtor w2 0.
  (** as above, functional.hpp:136-139 *)
  Definition fun_assign_move (w : own) (s src : N) : outcome own :=
    w1 <~ any_move w 0 src; w2 <~ any_swap w1 0 s; any_dtor w2 0.
  (** functional.hpp:125-128: the callable that runs; calling an empty function is undefined *)
  Definition fun_call (w : own) (s : N) : outcome X :=
    c <~ get w s;
    match c with Some p => cell w p | None => UB end.

  (** *** memory.hpp, unique_ptr; the cell is the owned object, the deleter is stateless *)

  (** memory.hpp:97 with 65, 87: no initialiser reaches the pointer *)
  Definition up_default (w : own) (s : N) : outcome own := declare w s Indet.
  (** memory.hpp:99-107: takes over the pointer (null allowed) *)
  Definition up_of (w : own) (s : N) (p : option N) : outcome own := declare w s (P p).
  (** memory.hpp:156-160 *)
  Definition up_release (w : own) (s : N) : outcome (own * option N) :=
    p <~ get w s;
    w1 <~ put w s null;
    Ok (w1, p).
  (** memory.hpp:162-166 *)
  Definition up_reset (w : own) (s : N) (p : option N) : outcome own :=
    old <~ get w s;
    w1 <~ put w s (P p);
    match old with Some q => free w1 q | None => Ok w1 end.
  (** memory.hpp:113-114 *)
  Definition up_move (w : own) (s src : N) : outcome own :=
    '(w1, p) <~ up_release w src;
    declare w1 s (P p).
  (** memory.hpp:116-121 *)
  Definition up_dtor (w : own) (s : N) : outcome own :=
    p <~ get w s;
    w1 <~ match p with Some q => free w q | None => Ok w end;
    w2 <~ put w1 s null;
    Ok (undeclare w2 s).
  (** memory.hpp:123-127 *)
  Definition up_assign_move (w : own) (s src : N) : outcome own :=
    '(w1, p) <~ up_release w src;
    up_reset w1 s p.
  (** memory.hpp:129-132 *)
  Definition up_assign_null (w : own) (s : N) : outcome own := up_reset w s None.
  (** memory.hpp:168-170: the two implementations are exchanged (tuple.hpp:140-150, 187-190) *)
  Definition up_swap (w : own) (a b : N) : outcome own := swap_slots w a b.
  (** memory.hpp:140-142 *)
  Definition up_get (w : own) (s : N) : outcome (option N) := get w s.
  (** new T(...) outside any handle, and delete of such an object by its user *)
  Definition raw_new (w : own) (x : X) : own * N := alloc w x.
  (** model only: delete, and access to a cell *)
  Definition raw_delete (w : own) (p : N) : outcome own := free w p.
End prim.

(** any.hpp:105-110: the holder's type is part of the cell; dynamic_cast to a different type,
    or of a null pointer, gives null. *)
Definition any_cast {V} (w : own (N * V)) (s t : N) : outcome (option V) :=
  c <~ get w s;
  match c with
  | None => Ok None
  | Some p => tv <~ cell w p; Ok (if (fst tv =? t)%N then Some (snd tv) else None)
  end.

(** any.hpp:17-19 called with a named variable holding [x]: the variable is moved from.
    [after_move x] is what the move constructor of its type leaves behind. *)
Definition any_from_variable {X} (after_move : X -> X) (w : own X) (s : N) (x : X) : outcome (own X * X) :=
  w1 <~ any_of w s x; Ok (w1, after_move x).

(** The values whose destructor runs when the handle dies: any deletes through a class with a
    virtual destructor (any.hpp:30-33, 72); function through one without (functional.hpp:71-76,
    148-151), which the language leaves undefined and the compiler implements by freeing the
    storage only. *)
Definition any_dtor_destroys {X} (w : own X) (s : N) : outcome (list X) :=
  v <~ any_value w s; Ok (match v with Some x => [x] | None => [] end).
(** functional.hpp: the holder has no virtual destructor *)
Definition fun_dtor_destroys {X} (w : own X) (s : N) : outcome (list X) :=
  v <~ any_value w s; Ok [].

(** model only: the state before anything happens *)
Definition own_empty {X} : own X := {| heap := ∅; nxt := 1; slots := ∅ |}.

(** *** Running a history of operations on any / function / unique_ptr *)
From Verif Require Import OwnSpec.

(** model only: one operation of a program *)
Definition any_step {X} (w : own X) (o : hop X) : outcome (own X) :=
  match o with
  | HNew s => any_default w s
  | HOf s x => any_of w s x
  | HCopy s src => any_copy w s src
  | HMove s src => any_move w s src
  | HDtor s => any_dtor w s
  | HSwap a b => any_swap w a b
  | HAssignCopy s src => any_assign_copy w s src
  | HAssignMove s src => any_assign_move w s src
  | HAssignOf s x => any_assign_of w s x
  | HClear s => any_clear w s
  | HEmplace s x => any_emplace w s x
  | HWrite s f => any_write w s f
  end.

(** model only: the operations of a program in order *)
Fixpoint any_run {X} (w : own X) (os : list (hop X)) : outcome (own X) :=
  match os with [] => Ok w | o :: os => w1 <~ any_step w o; any_run w1 os end.

(** function has the same members except clear, emplace and in-place modification; its copies
    go through [fun_copy]. *)
Definition fun_step {X} (w : own X) (o : hop X) : outcome (own X) :=
  match o with
  | HCopy s src => fun_copy w s src
  | HAssignCopy s src => fun_assign_copy w s src
  | HAssignMove s src => fun_assign_move w s src
  | _ => any_step w o
  end.

(** model only: the operations of a program in order *)
Fixpoint fun_run {X} (w : own X) (os : list (hop X)) : outcome (own X) :=
  match os with [] => Ok w | o :: os => w1 <~ fun_step w o; fun_run w1 os end.

Definition up_step {X} (w : own X) (o : uop X) : outcome (own X) :=
  match o with
  | UMake s x => let (w1, p) := raw_new w x in up_of w1 s (Some p)  (* memory.hpp, make_unique *)
  | UNull s => up_of w s None
  | UOf s p => up_of w s (Some p)
  | UMove s src => up_move w s src
  | UDtor s => up_dtor w s
  | UAssignMove s src => up_assign_move w s src
  | UAssignNull s => up_assign_null w s
  | UReset s p => up_reset w s p
  | URelease s => '(w1, _) <~ up_release w s; Ok w1
  | USwap a b => up_swap w a b
  | URawNew x => Ok (fst (raw_new w x))
  | URawDelete p => raw_delete w p
  end.

(** model only: the operations of a program in order *)
Fixpoint up_run {X} (w : own X) (os : list (uop X)) : outcome (own X) :=
  match os with [] => Ok w | o :: os => w1 <~ up_step w o; up_run w1 os end.

(** *** defer.hpp:6-40.  A guard holds an action (indeterminate after the move constructor)
    and the dismiss flag; running an indeterminate action is undefined.  The action itself is
    treated as not touching guards. *)
Record dguard := { exit_scope : option N; dismissed : bool }.
(** model only: guards and the actions run so far *)
Record dworld := { guards : gmap N dguard; ran : list N }.

(** model only: guards and the actions run so far *)
Definition dnew (w : dworld) (s : N) (g : dguard) : outcome dworld :=
  match guards w !! s with
  | Some _ => UB
  | None => Ok {| guards := <[s := g]> (guards w); ran := ran w |}
  end.
(** defer.hpp:23-25 *)
Definition d_dismiss (w : dworld) (s : N) : outcome dworld :=
  g <~ of_option (guards w !! s);
  Ok {| guards := <[s := {| exit_scope := exit_scope g; dismissed := true |}]> (guards w); ran := ran w |}.
(** defer.hpp:32-35 *)
Definition d_swap (w : dworld) (a b : N) : outcome dworld :=
  ga <~ of_option (guards w !! a);
  gb <~ of_option (guards w !! b);
  Ok {| guards := <[b := ga]> (<[a := gb]> (guards w)); ran := ran w |}.
(** defer.hpp:27-30 *)
Definition d_dtor (w : dworld) (s : N) : outcome dworld :=
  g <~ of_option (guards w !! s);
  r <~ (if dismissed g then Ok (ran w)
        else a <~ of_option (exit_scope g); Ok (ran w ++ [a]));
  Ok {| guards := delete s (guards w); ran := r |}.
(** defer.hpp:12-13 *)
Definition d_copy (w : dworld) (s src : N) : outcome dworld :=
  g <~ of_option (guards w !! src); dnew w s g.
(** defer.hpp:15-16: exit_scope_ is initialised from itself *)
Definition d_move (w : dworld) (s src : N) : outcome dworld :=
  g <~ of_option (guards w !! src);
  dnew w s {| exit_scope := None; dismissed := dismissed g |}.

(** defer.hpp:9-10 and 18-21; guard 0 is the by-value parameter *)
Definition d_step (w : dworld) (o : dop) : outcome dworld :=
  match o with
  | DNew s a => dnew w s {| exit_scope := Some a; dismissed := false |}
  | DDismiss s => d_dismiss w s
  | DSwap a b => d_swap w a b
  | DDtor s => d_dtor w s
  | DMove s src => d_move w s src
  | DCopy s src => d_copy w s src
  | DAssignMove s src => w1 <~ d_move w 0 src; w2 <~ d_swap w1 0 s; d_dtor w2 0
  | DAssignCopy s src => w1 <~ d_copy w 0 src; w2 <~ d_swap w1 0 s; d_dtor w2 0
  end.

(** model only: the operations of a program in order *)
Fixpoint d_run (w : dworld) (os : list dop) : outcome dworld :=
  match os with [] => Ok w | o :: os => w1 <~ d_step w o; d_run w1 os end.

(** model only: the state before anything happens *)
Definition d_empty : dworld := {| guards := ∅; ran := [] |}.
