(** When an insertion breaks the red-black rules and when an erasure does not end, told from the tree before. *)
From stdpp Require Import gmap list.
From Verif Require Import RbModel.

Section spec.
Context {A : Type} (s : heap A) (head : loc).

Definition red_ptr (p : option loc) : Prop := match p with Some x => exists n, cells s !! x = Some n /\ col n = Red | None => False end.
(** of the node [n], [y] is one child and [o] the other *)
Definition children (n : node A) (y : loc) (o : option loc) : Prop :=
  (lf n = Some y /\ rt n = o) \/ (rt n = Some y /\ lf n = o).

(** A red child arrives below [p]. If [p] is red: its sibling is not red and it is a left child, or its sibling is red and so
    on two levels up. *)
Inductive breaks : loc -> Prop :=
| breaks_here p np g ng : cells s !! p = Some np -> col np = Red -> pa np = Some g -> cells s !! g = Some ng ->
    lf ng = Some p -> ~ red_ptr (rt ng) -> breaks p
| breaks_up p np g ng o q : cells s !! p = Some np -> col np = Red -> pa np = Some g -> cells s !! g = Some ng ->
    children ng p o -> red_ptr o -> pa ng = Some q -> q <> head -> breaks q -> breaks p.
(** The node below which an element at place [i] of the sequence [l] is hung. *)
Definition hung (l : list (loc * A)) (i : nat) (p : loc) : Prop :=
  match l !! pred i with
  | Some (x, _) =>
      match i with
      | 0 => p = x
      | S _ => exists n, cells s !! x = Some n /\
          match rt n with None => p = x | Some _ => exists a, l !! i = Some (p, a) end
      end
  | None => False
  end.

(** Below [p] the side of [y] is short of a black node: there is no sibling, or the sibling and its children and [p] are black
    and so on one level up. *)
Inductive starves : loc -> loc -> Prop :=
| starves_here p y np : cells s !! p = Some np -> children np y None -> starves p y
| starves_up p y np b nb q : cells s !! p = Some np -> children np y (Some b) -> cells s !! b = Some nb -> col nb = Black ->
    ~ red_ptr (lf nb) -> ~ red_ptr (rt nb) -> col np = Black -> pa np = Some q -> q <> head -> starves q p -> starves p y.
(** The node [y] can only be taken out at the price of a black node. *)
Definition black_end (y : loc) : Prop :=
  exists ny p, cells s !! y = Some ny /\ col ny = Black /\ ~ red_ptr (lf ny) /\ ~ red_ptr (rt ny) /\ pa ny = Some p /\ p <> head /\ starves p y.
(** The node that leaves its place when the [i]-th is erased: it itself, or its successor if it has two children. *)
Definition leaves (l : list (loc * A)) (i : nat) (y : loc) : Prop :=
  exists x a n, l !! i = Some (x, a) /\ cells s !! x = Some n /\
    match lf n, rt n with Some _, Some _ => exists b, l !! S i = Some (y, b) | _, _ => y = x end.
End spec.
(** the number of elements that do not come after [v] *)
Definition place_of {A} (lt : A -> A -> bool) (v : A) (l : list A) : nat := length (List.filter (fun a => negb (lt v a)) l).
