(** What the classes of the standard library that estl imitates support, as capabilities. *)
From Coq Require Import List Bool.
Import ListNotations.
From Verif Require Import SpecialModel.

(** A value made of parts: it can be built from a temporary if the parts can, and from a variable or a
    constant if the parts can be built from constants; and likewise for assignment. *)
Definition from (c : cat) : cat := match c with RV => RV | _ => CLV end.
Definition like_parts (l : list caps) (k : caps) : Prop :=
  forall c, (cons k c = true <-> Forall (fun a => cons a (from c) = true) l) /\
            (asg k c = true <-> Forall (fun a => asg a (from c) = true) l).
(** A container: it can always be moved, and copied if its elements can. *)
Definition like_container (a : caps) (k : caps) : Prop :=
  cons k RV = true /\ asg k RV = true /\
  forall c, c <> RV -> (cons k c = true <-> cons a CLV = true) /\ (asg k c = true <-> cons a CLV = true).
(** A handle: everything works. *)
Definition like_handle (k : caps) : Prop := forall c, cons k c = true /\ asg k c = true.
(** A unique owner: moves only. *)
Definition moves_only (k : caps) : Prop := forall c, (cons k c = true <-> c = RV) /\ (asg k c = true <-> c = RV).
(** Neither copied nor moved. *)
Definition stays_put (k : caps) : Prop := forall c, cons k c = false /\ asg k c = false.
(** A type of the usual kind: what can be built from a constant can be built from a temporary, what can be assigned from a
    temporary can be built from one, and it can be assigned from a constant if it can be copied and moved to. *)
Definition regular (a : caps) : Prop :=
  (cons a CLV = true -> cons a RV = true) /\ (asg a RV = true -> cons a RV = true) /\
  (asg a CLV = true <-> cons a CLV = true /\ asg a RV = true).
