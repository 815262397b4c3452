(** Outcomes of modelled code, shared by all components. *)

(** [Ok v]: the code returns normally with [v].
    [UB]: the code performs an operation C++ (or the hardware) leaves undefined:
    null or dangling dereference, out-of-bounds access, use of an indeterminate value,
    over-wide shift, signed overflow.
    [Fuel]: the loop bound given to the model was exhausted; for a loop without
    a bound in the source a theorem must either exclude it or prove it for every bound. *)
Inductive outcome (A : Type) : Type :=
| Ok (a : A)
| UB
| Fuel.
Arguments Ok {A} a.
Arguments UB {A}.
Arguments Fuel {A}.

Definition obind {A B} (x : outcome A) (f : A -> outcome B) : outcome B :=
  match x with
  | Ok a => f a
  | UB => UB
  | Fuel => Fuel
  end.

Definition omap {A B} (f : A -> B) (x : outcome A) : outcome B :=
  obind x (fun a => Ok (f a)).

Definition of_option {A} (x : option A) : outcome A :=
  match x with
  | Some a => Ok a
  | None => UB
  end.

Declare Scope outcome_scope.
Delimit Scope outcome_scope with outcome.
Notation "x <~ e ; k" := (obind e (fun x => k))
  (at level 100, e at next level, right associativity) : outcome_scope.
Notation "' p <~ e ; k" := (obind e (fun p => k))
  (at level 100, p strict pattern, e at next level, right associativity) : outcome_scope.

Definition is_ok {A} (x : outcome A) : bool :=
  match x with Ok _ => true | _ => false end.
