(** Model of estl/atomic.hpp and of threads sharing one atomic object.

    Each member function is one __atomic builtin on value_, i.e. one indivisible step; the memory
    order argument only restricts other locations and is left out.  A value of a [w]-bit integer
    type is its bit pattern, a number below 2^w; the builtins wrap around for signed types too. *)
From stdpp Require Import list.
From Coq Require Import NArith.
Local Open Scope N_scope.

(** the operations of fetch_add, fetch_sub, fetch_and, fetch_or, fetch_xor (atomic.hpp:22-215) *)
Inductive alu := Add | Sub | And | Or | Xor.

(** The arithmetic of __atomic_fetch_* and __atomic_*_fetch; operands below 2^w. *)
Definition alu_eval (w : N) (f : alu) (a b : N) : N :=
  match f with
  | Add => (a + b) mod 2 ^ w
  | Sub => (a + 2 ^ w - b) mod 2 ^ w
  | And => N.land a b
  | Or => N.lor a b
  | Xor => N.lxor a b
  end.

Inductive aop :=
| ALoad                          (* atomic.hpp:33-38, 124-129 *)
| AStore (v : N)                 (* 39-44, 131-139 *)
| AExchange (v : N)              (* 45-50 *)
| ACas (weak : bool) (expect v : N)  (* 52-82 *)
| AFetch (f : alu) (v : N)       (* 84-122; 149-155 and 165-171 are fetch_add(1), fetch_sub(1) *)
| AApply (f : alu) (v : N).      (* 141-147, 157-163, 173-211: the new value is returned *)

(** What a call gives back: the value returned (for compare_exchange the value left in the
    caller's expect variable) and, for compare_exchange, whether it reported success. *)
Record ares := { rval : N; rok : bool }.

(** One call on the value [x]; [spurious]: a weak compare-exchange may fail for no reason. *)
Definition acall (w : N) (spurious : bool) (x : N) (o : aop) : N * ares :=
  match o with
  | ALoad => (x, {| rval := x; rok := true |})
  | AStore v => (v, {| rval := v; rok := true |})
  | AExchange v => (v, {| rval := x; rok := true |})
  | ACas weak expect v =>
      if (x =? expect) && negb (weak && spurious) then (v, {| rval := expect; rok := true |})
      else (x, {| rval := x; rok := false |})
  | AFetch f v => (alu_eval w f x v, {| rval := x; rok := true |})
  | AApply f v => (alu_eval w f x v, {| rval := alu_eval w f x v; rok := true |})
  end.

(** A thread: it stops, or makes a call and continues depending on the result. *)
Inductive thread :=
| Stop
| Call (o : aop) (k : ares -> thread).

(** All interleavings: at each step any thread makes its next call.  The trace lists the calls
    in the order they took effect. *)
Record event := { ev_thread : nat; ev_op : aop; ev_res : ares }.
(** model only: all orders of the calls *)
Inductive interleaving (w : N) : N -> list thread -> list event -> N -> list thread -> Prop :=
| IL_done x ts : interleaving w x ts [] x ts
| IL_step x ts i o k spurious x' r tr y ts' :
    ts !! i = Some (Call o k) ->
    acall w spurious x o = (x', r) ->
    interleaving w x' (<[i := k r]> ts) tr y ts' ->
    interleaving w x ts ({| ev_thread := i; ev_op := o; ev_res := r |} :: tr) y ts'.
