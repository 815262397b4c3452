(** Positions in a sequence, and what becomes of the element an iterator stands at when the deque changes at its ends. *)
From stdpp Require Import gmap list.
From Coq Require Import ZArith.
From Verif Require Import Base DequeModel DequeSpec IterModel.
Local Open Scope Z_scope.

(** how far an operation goes *)
Definition distance (s : step) : Z :=
  match s with PreInc | PostInc => 1 | PreDec | PostDec => -1 | AddEq n | Plus n => n | SubEq n | Minus n => - n end.
(** the value of the expression is the old position for it++ and it--; the variable stays for it + n and it - n *)
Definition value_of (s : step) (p : Z) : Z := match s with PostInc | PostDec => p | _ => p + distance s end.
Definition after (s : step) (p : Z) : Z := match s with Plus _ | Minus _ => p | _ => p + distance s end.
(** every position formed must be one of 0..len *)
Definition moved (len : Z) (c : command) (p : Z) : option Z :=
  let s := match c with Do s | Set_ s => s end in
  if decide (0 <= p + distance s <= len) then Some (match c with Do _ => after s p | Set_ _ => value_of s p end) else None.
Fixpoint moves (len : Z) (cs : list command) (p : Z) : option Z :=
  match cs with [] => Some p | c :: cs => match moved len c p with Some q => moves len cs q | None => None end end.

(** Changes at the ends *)
Inductive end_op (A : Type) := PushBack (a : A) | PushFront (a : A) | PopBack | PopFront.
Arguments PushBack {A}. Arguments PushFront {A}. Arguments PopBack {A}. Arguments PopFront {A}.
Definition command_of {A} (x : nat) (o : end_op A) : dcmd A :=
  match o with PushBack a => DPushBack x a | PushFront a => DPushFront x a | PopBack => DPopBack x | PopFront => DPopFront x end.
(** where the element number [k] of [n] is afterwards; [None]: it was removed *)
Definition moved_to {A} (o : end_op A) (n k : nat) : option nat :=
  match o with
  | PushBack _ => Some k
  | PushFront _ => Some (S k)
  | PopBack => if Nat.ltb (S k) n then Some k else None
  | PopFront => match k with O => None | S k => Some k end
  end.
Definition size_after {A} (o : end_op A) (n : nat) : nat :=
  match o with PushBack _ | PushFront _ => S n | PopBack | PopFront => n - 1 end.
Fixpoint ends_at {A} (os : list (end_op A)) (n k : nat) : option nat :=
  match os with [] => Some k | o :: os => match moved_to o n k with Some k' => ends_at os (size_after o n) k' | None => None end end.
(** the first element is never pushed out of the storage at the front: [first] free places before the first element *)
Fixpoint room_in_front {A} (os : list (end_op A)) (first : nat) : Prop :=
  match os with
  | [] => True
  | PushFront _ :: os => (0 < first)%nat /\ room_in_front os (first - 1)
  | PopFront :: os => room_in_front os (S first)
  | _ :: os => room_in_front os first
  end.
