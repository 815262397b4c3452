(** Programs that use several sets or multisets: construction, copy, move, assignment, swap and destruction
    (estl/rb_tree.hpp:592-643, estl/set.hpp:21-55, 162-197).
    Simplification: the comparison objects have no state, so that swap and copy of [compare_] change nothing. *)
From stdpp Require Import gmap list.
From Coq Require Import ZArith.
From Verif Require Import Base RbModel RbSpec RbRun RbManySpec.
Local Open Scope outcome_scope.

Section many.
Context {A : Type} (lt : A -> A -> bool).
Notation heap := (heap A).
Notation mcmd := (mcmd (A := A)).

(** rb_tree.hpp:613-615: the range-for over [rhs], from begin() to end() *)
Fixpoint copy_loop (fuel f : nat) (t : tree) (i j : loc) (s : heap) : outcome (tree * heap) :=
  if bool_decide (i = j) then Ok (t, s) else
  match f with
  | O => Fuel
  | S f =>
      v <~ key i s ; ' (_, t, s) <~ emplace_multi lt fuel t v s ; i <~ increment fuel i s ; copy_loop fuel f t i j s
  end.
(** rb_tree.hpp:611-616 *)
Definition tree_copy (fuel : nat) (src : tree) (s : heap) : outcome (tree * heap) :=
  ' (t, s) <~ tree_new s ; i <~ tbegin (hd src) s ; copy_loop fuel fuel t i (hd src) s.
(** insertion of a range: rb_tree.hpp:742-748, 758-764 *)
Fixpoint add_all (fuel : nat) (unique : bool) (t : tree) (vs : list A) (s : heap) : outcome (tree * heap) :=
  match vs with [] => Ok (t, s) | v :: vs => ' (t, s) <~ add lt fuel unique t v s ; add_all fuel unique t vs s end.
(** set.hpp:33-41, 174-182 *)
Definition tree_list (fuel : nat) (unique : bool) (vs : list A) (s : heap) : outcome (tree * heap) :=
  ' (t, s) <~ tree_new s ; add_all fuel unique t vs s.
(** rb_tree.hpp:639-643: header_ and count_ change places *)
Definition tree_swap (x y : tree) : tree * tree := (y, x).
(** rb_tree.hpp:618-621: rb_tree(), then rhs.swap( *this): the new one and what is left of [rhs] *)
Definition tree_move (rhs : tree) (s : heap) : outcome (tree * tree * heap) :=
  ' (t, s) <~ tree_new s ; let (rhs, t) := tree_swap rhs t in Ok (t, rhs, s).
(** rb_tree.hpp:628-631: the parameter [rhs] is swapped in and destroyed with the former contents *)
Definition tree_take (fuel : nat) (t rhs : tree) (s : heap) : outcome (tree * heap) :=
  let (rhs, t) := tree_swap rhs t in s <~ tree_destroy fuel rhs s ; Ok (t, s).

(** nothing is done where a command names a set that does not exist *)
Definition mstep (fuel : nat) (unique : bool) (c : mcmd) (hs : list (option tree)) (s : heap) : outcome (list (option tree) * heap) :=
  match c with
  | MNew vs => ' (t, s) <~ tree_list fuel unique vs s ; Ok (hs ++ [Some t], s)
  | MCopy j =>
      match live hs j with
      | Some x => ' (t, s) <~ tree_copy fuel x s ; Ok (hs ++ [Some t], s)
      | None => Ok (hs, s)
      end
  | MMove j =>
      match live hs j with
      | Some x => ' (t, x, s) <~ tree_move x s ; Ok (<[j := Some x]> hs ++ [Some t], s)
      | None => Ok (hs, s)
      end
  | MAssign i j =>
      match live hs i, live hs j with
      | Some x, Some y => ' (r, s) <~ tree_copy fuel y s ; ' (x, s) <~ tree_take fuel x r s ; Ok (<[i := Some x]> hs, s)
      | _, _ => Ok (hs, s)
      end
  | MMoveAssign i j =>
      match live hs i, live hs j with
      | Some _, Some y =>
          ' (r, y, s) <~ tree_move y s ; let hs := <[j := Some y]> hs in
          match live hs i with
          | Some x => ' (x, s) <~ tree_take fuel x r s ; Ok (<[i := Some x]> hs, s)
          | None => UB
          end
      | _, _ => Ok (hs, s)
      end
  | MAssignList i vs =>
      match live hs i with
      | Some x => ' (r, s) <~ tree_list fuel unique vs s ; ' (x, s) <~ tree_take fuel x r s ; Ok (<[i := Some x]> hs, s)
      | None => Ok (hs, s)
      end
  | MSwap i j =>
      match live hs i, live hs j with
      | Some x, Some y => let (x, y) := tree_swap x y in Ok (<[j := Some y]> (<[i := Some x]> hs), s)
      | _, _ => Ok (hs, s)
      end
  | MDrop i =>
      match live hs i with
      | Some x => s <~ tree_destroy fuel x s ; Ok (<[i := None]> hs, s)
      | None => Ok (hs, s)
      end
  | MOn i c =>
      match live hs i with
      | Some x => ' (x, s) <~ step lt fuel unique c x s ; Ok (<[i := Some x]> hs, s)
      | None => Ok (hs, s)
      end
  end.
Fixpoint msteps (fuel : nat) (unique : bool) (cs : list mcmd) (hs : list (option tree)) (s : heap) : outcome (list (option tree) * heap) :=
  match cs with
  | [] => Ok (hs, s)
  | c :: cs => ' (hs, s) <~ mstep fuel unique c hs s ; msteps fuel unique cs hs s
  end.
Definition mrun (fuel : nat) (unique : bool) (cs : list mcmd) : outcome (list (option tree) * heap) :=
  msteps fuel unique cs [] no_heap.

End many.
