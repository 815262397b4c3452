(** What comparisons should compile and mean. *)
From Coq Require Import ZArith NArith List Bool.
From Verif Require Import CompareModel.
Import ListNotations.

(** The kinds of operands an operator takes, when it takes any. *)
Inductive takes := Nothing | Variables | LeftMutable | Everything.
Definition fits (k : takes) (x y : arg) : bool :=
  match k with
  | Nothing => false
  | Variables => negb (cst x) && negb (tmp x) && negb (cst y) && negb (tmp y)
  | LeftMutable => negb (cst x)
  | Everything => true
  end.

(** What the standard library compares (C++17): containers and pairs member by member, iterators by position
    (those of sequences with random access also by order), any, function and weak_ptr not at all.
    It never matters whether an operand is a constant or a temporary. *)
Fixpoint standard (t : ty) (o : op) : bool :=
  match t with
  | TAny | TFun => false
  | TListIt | TListCIt | TTreeIt | TTreeCIt => negb (relational o)
  | TBare => false
  | TPair a b => if relational o then standard a Lt && standard b Lt else standard a Eq && standard b Eq
  | TVec a | TList a => if relational o then standard a Lt else standard a Eq
  | TRev a => standard a o
  | _ => true
  end.

(** What the library's operators take. *)
Fixpoint taken (t : ty) (o : op) : takes :=
  match t with
  | TInt | TPtr | TUniq | TAny | TFun | TAtom | TView | TVecIt => Everything
  | TShared => Variables
  | TDeqIt | TListIt | TListCIt | TTreeCIt => if relational o then Nothing else LeftMutable
  | TTreeIt => if relational o then Nothing else Everything
  | TBare => Nothing
  | TPair a b =>
      let needs := match o with Eq | Ne => [Eq] | Le => [Lt; Eq] | _ => [Lt] end in
      if forallb (fun n => match taken a n, taken b n with Everything, Everything => true | _, _ => false end) needs
      then Everything else Nothing
  | TVec a => match o, taken a Ne with Eq, (LeftMutable | Everything) => Everything | _, _ => Nothing end
  | TList a => match relational o, taken a Ne with false, (LeftMutable | Everything) => LeftMutable | _, _ => Nothing end
  | TRev a => match taken a o with LeftMutable | Everything => Everything | _ => Nothing end
  end.

(** Types whose comparisons are complete: numbers, pointers, unique_ptr, atomic, string_view and vector iterators,
    iterators of sets, reversed ones, and pairs of those. *)
Fixpoint complete (t : ty) : bool :=
  match t with
  | TInt | TPtr | TUniq | TAtom | TView | TVecIt | TTreeIt => true
  | TPair a b => complete a && complete b
  | TRev a => complete a
  | _ => false
  end.
(** An any or a function takes part. *)
Fixpoint boxed (t : ty) : bool :=
  match t with
  | TAny | TFun => true
  | TPair a b => boxed a || boxed b
  | TVec a | TList a | TRev a => boxed a
  | _ => false
  end.
(** What can be put in a set with the default order. *)
Fixpoint ordered (t : ty) : bool :=
  match t with
  | TInt | TPtr | TUniq | TAny | TFun | TAtom | TView | TVecIt => true
  | TPair a b => ordered a && ordered b
  | TRev a => ordered a
  | _ => false
  end.
Definition key (t : ty) : bool := match t with TPair _ _ => false | _ => ordered t end.

(** The values of a type, with sequences that an int can count. *)
Fixpoint has_type (t : ty) (v : val) {struct t} : Prop :=
  match t with
  | TInt | TAtom => match v with VInt _ => True | _ => False end
  | TPtr | TUniq | TShared | TVecIt | TListIt | TListCIt | TTreeIt | TTreeCIt => match v with VAdr _ => True | _ => False end
  | TAny | TFun => match v with VBox _ => True | _ => False end
  | TView => match v with VChars _ => True | _ => False end
  | TDeqIt => match v with VDeq _ _ => True | _ => False end
  | TBare => False
  | TPair a b => match v with VPair x y => has_type a x /\ has_type b y | _ => False end
  | TVec a | TList a => match v with VSeq l => (Z.of_nat (length l) < 2 ^ 31)%Z /\ Forall (has_type a) l | _ => False end
  | TRev a => has_type a v
  end.

(** Equal values; of an any or a function only the presence of a content is seen. *)
Fixpoint alike (t : ty) (v w : val) {struct t} : Prop :=
  match t with
  | TAny | TFun => match v, w with VBox (Some _), VBox (Some _) => True | VBox None, VBox None => True | _, _ => False end
  | TPair a b => match v, w with VPair v1 v2, VPair w1 w2 => alike a v1 w1 /\ alike b v2 w2 | _, _ => False end
  | TVec a | TList a => match v, w with VSeq l, VSeq r => Forall2 (alike a) l r | _, _ => False end
  | TRev a => alike a v w
  | _ => v = w
  end.
