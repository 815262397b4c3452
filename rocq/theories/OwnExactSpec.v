(** Names in programs over any and function: 0 is no name (OwnSpec). *)
From stdpp Require Import gmap.
From Verif Require Import OwnSpec.
Local Open Scope N_scope.

Definition names {X} (o : hop X) : list N :=
  match o with
  | HNew s | HOf s _ | HDtor s | HAssignOf s _ | HClear s | HEmplace s _ | HWrite s _ => [s]
  | HCopy s t | HMove s t | HSwap s t | HAssignCopy s t | HAssignMove s t => [s; t]
  end.
Definition named {X} (os : list (hop X)) : Prop := Forall (fun o => Forall (fun s => s <> 0) (names o)) os.
