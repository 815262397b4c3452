(** Programs that keep iterators into one set or multiset (estl/set.hpp:57-145, 199-283;
    estl/rb_tree.hpp:166-303, 646-657, 678-843). An iterator is the node it points to; the header is end(). *)
From stdpp Require Import gmap list.
From Coq Require Import ZArith.
From Verif Require Import Base RbModel RbSpec RbRun.
Local Open Scope outcome_scope.

Section iter.
Context {A : Type} (lt : A -> A -> bool).

Inductive icmd :=
| IAdd (v : A) (j : nat)       (* j = insert(v), of a set the first of the pair *)
| IDel (i j : nat)             (* j = erase(i) *)
| IDelRange (i k : nat)        (* erase(i, k) *)
| IDelKey (k : A)              (* erase(key) *)
| IClear
| IBegin (j : nat) | IEnd (j : nat)
| IFind (k : A) (j : nat) | ILower (k : A) (j : nat) | IUpper (k : A) (j : nat)
| INext (i : nat) | IPrev (i : nat).

Notation env := (gmap nat loc).
(** model only: a variable of the program *)
Definition iter (e : env) (i : nat) : outcome loc := of_option (e !! i).

Definition istep (fuel : nat) (u : bool) (c : icmd) (st : env * tree * heap A) : outcome (env * tree * heap A) :=
  let '(e, t, s) := st in
  let point j r := x <~ r ; Ok (<[j := x]> e, t, s) in
  match c with
  (** set.hpp:86-95, 226-233; rb_tree.hpp:714-756 *)
  | IAdd v j =>
      if u then ' (x, _, t, s) <~ emplace_unique lt fuel t v s ; Ok (<[j := x]> e, t, s)
      else ' (x, t, s) <~ emplace_multi lt fuel t v s ; Ok (<[j := x]> e, t, s)
  (** set.hpp:97-118, 235-257; rb_tree.hpp:781-843 *)
  | IDel i j => x <~ iter e i ; ' (y, t, s) <~ erase fuel t x s ; Ok (<[j := y]> e, t, s)
  | IDelRange i k => x <~ iter e i ; y <~ iter e k ; ' (t, s) <~ erase_range fuel t x y s ; Ok (e, t, s)
  | IDelKey k => ' (t, s) <~ step lt fuel u (DelKey k) t s ; Ok (e, t, s)
  | IClear => ' (t, s) <~ clear fuel t s ; Ok (e, t, s)
  (** rb_tree.hpp:646-657 *)
  | IBegin j => point j (tbegin (hd t) s)
  | IEnd j => point j (Ok (hd t))
  (** rb_tree.hpp:678-705, 845-902 *)
  | IFind k j => point j (find lt fuel (hd t) k s)
  | ILower k j => point j (lower_bound lt fuel (hd t) k s)
  | IUpper k j => point j (upper_bound lt fuel (hd t) k s)
  (** rb_tree.hpp:223-243, 276-296 *)
  | INext i => point i (x <~ iter e i ; increment fuel x s)
  | IPrev i => point i (x <~ iter e i ; decrement fuel x s)
  end.
(** model only: the operations of a program in order *)
Fixpoint isteps (fuel : nat) (u : bool) (cs : list icmd) (st : env * tree * heap A) : outcome (env * tree * heap A) :=
  match cs with [] => Ok st | c :: cs => st <~ istep fuel u c st ; isteps fuel u cs st end.
(** a new set without iterators, then the commands *)
Definition irun (fuel : nat) (u : bool) (cs : list icmd) : outcome (env * tree * heap A) :=
  ' (t, s) <~ tree_new no_heap ; isteps fuel u cs (∅, t, s).
End iter.
Arguments icmd : clear implicits.
