(** Happens-before and data races ([intro.races] of C++17) on the events of RaceModel.v. *)
From stdpp Require Import list relations.
From Coq Require Import ZArith.
From Verif Require Import RaceModel.

Definition acquires (o : order) : bool := match o with Acquire | AcqRel | SeqCst => true | _ => false end.
Definition releases (o : order) : bool := match o with Release | AcqRel | SeqCst => true | _ => false end.
Definition rmw_order (os : orders) (c : counter) (up : bool) : order :=
  match c, up with Shared, true => inc_s os | Shared, false => dec_s os | Weak, true => inc_w os | Weak, false => dec_w os end.
Definition same (c d : counter) : bool := match c, d with Shared, Shared | Weak, Weak => true | _, _ => false end.

(** One event is directly ordered before a later one: same thread; a releasing change of a counter before an acquiring one of the
    same counter (the changes between them continue the release sequence); a handle handed over. *)
Definition edge (os : orders) (x y : event) : bool :=
  (who x =? who y) ||
  match what x, what y with
  | Rmw c u, Rmw d v => same c d && releases (rmw_order os c u) && acquires (rmw_order os d v)
  | Hand j, _ => j =? who y
  | _, _ => false
  end.
Definition direct (os : orders) (tr : list event) (a b : nat) : Prop :=
  exists x y, tr !! a = Some x /\ tr !! b = Some y /\ a < b /\ edge os x y = true.
Definition before (os : orders) (tr : list event) : nat -> nat -> Prop := tc (direct os tr).

(** accesses to the object, and to the block *)
Definition on_object (b : label) : bool := match b with Make | Use | Destroy => true | _ => false end.
Definition on_block (b : label) : bool := match b with Use | Hand _ => false | _ => true end.
(** No data race: the object and the block are made before every access to them, the object is destroyed after every access to it and
    the block freed after every access to it. *)
Definition race_free (os : orders) (tr : list event) : Prop :=
  forall a b x y, a <> b -> tr !! a = Some x -> tr !! b = Some y ->
    (what x = Make -> on_object (what y) || on_block (what y) = true -> before os tr a b) /\
    (what y = Destroy -> on_object (what x) = true -> before os tr a b) /\
    (what y = FreeBlock -> on_block (what x) = true -> before os tr a b).

(** The values a load at [b] may see: those of the changes of the shared counter (or its making) at [a] that are not hidden by another
    change between them that is ordered before the load. *)
Definition writes_shared (b : label) : bool := match b with Make | Rmw Shared _ => true | _ => false end.
Definition may_read (os : orders) (tr : list event) (b : nat) (v : Z) : Prop :=
  exists a x, tr !! a = Some x /\ a < b /\ writes_shared (what x) = true /\ now x = v /\
    ~ exists m y, tr !! m = Some y /\ a < m /\ writes_shared (what y) = true /\ before os tr m b.
