(** What the properties of set and multiset (estl/set.hpp, estl/rb_tree.hpp) speak about. *)
From stdpp Require Import gmap list.
From Coq Require Import ZArith.
From Verif Require Import Base RbModel.

(** a strict weak order, as the comparison of set is meant to be *)
Record weak_order {A} (lt : A -> A -> bool) : Prop := {
  wo_irr : forall a, lt a a = false;
  wo_trans : forall a b c, lt a b = true -> lt b c = true -> lt a c = true;
  wo_neg : forall a b c, lt a c = true -> lt a b = true \/ lt b c = true
}.

Section spec.
Context {A : Type} (lt : A -> A -> bool).

(** neither comes before the other *)
Definition same (a b : A) : bool := negb (lt a b) && negb (lt b a).
Definition in_order (l : list A) : Prop :=
  forall i j a b, l !! i = Some a -> l !! j = Some b -> i < j -> lt b a = false.
Definition strictly_in_order (l : list A) : Prop :=
  forall i j a b, l !! i = Some a -> l !! j = Some b -> i < j -> lt a b = true.
(** the elements like [k], in the order they stand in *)
Definition like (k : A) (l : list A) : list A := List.filter (same k) l.

(** effect of the operations on the sequence of elements *)
Fixpoint place (v : A) (l : list A) : list A :=
  match l with [] => [v] | a :: l => if lt v a then v :: a :: l else a :: place v l end.
Inductive cmd :=
  | Add (v : A)
  | Del (n : nat)            (* erase(it), it the n-th from begin() *)
  | DelKey (k : A)
  | DelRange (i j : nat)     (* erase(first, last) *)
  | Clear.
Definition effect (unique : bool) (c : cmd) (l : list A) : list A :=
  match c with
  | Add v => if unique && existsb (same v) l then l else place v l
  | Del n => take n l ++ drop (S n) l
  | DelKey k => List.filter (fun a => negb (same k a)) l
  | DelRange i j => if (i <=? j) && (j <=? length l) then take i l ++ drop j l else l
  | Clear => []
  end.
Definition effects (unique : bool) (cs : list cmd) (l : list A) : list A := fold_left (fun l c => effect unique c l) cs l.
Definition is_add (c : cmd) : bool := match c with Add _ => true | _ => false end.
(** how many elements there can be at most *)
Definition adds (cs : list cmd) : nat := length (List.filter is_add cs).
(** every element added belongs at the end *)
Fixpoint appending (unique : bool) (cs : list cmd) (l : list A) : Prop :=
  match cs with
  | [] => True
  | c :: cs =>
      match c with Add v => forall a, In a l -> lt v a = false | _ => True end /\
      appending unique cs (effect unique c l)
  end.

(** the first node whose element passes the test, else [d] *)
Definition scan (g : A -> bool) (d : loc) (l : list (loc * A)) : loc :=
  match List.find (fun p => g (snd p)) l with Some (x, _) => x | None => d end.

(** red-black rules below a pointer: colour and number of black nodes on each way down *)
Inductive red_black (s : heap A) : option loc -> color -> nat -> Prop :=
  | rb_null : red_black s None Black 0
  | rb_red x n m : cells s !! x = Some n -> col n = Red ->
      red_black s (lf n) Black m -> red_black s (rt n) Black m -> red_black s (Some x) Red m
  | rb_black x n m cl cr : cells s !! x = Some n -> col n = Black ->
      red_black s (lf n) cl m -> red_black s (rt n) cr m -> red_black s (Some x) Black (S m).
(** nodes on the longest way down *)
Inductive tall (s : heap A) : option loc -> nat -> Prop :=
  | tall_null : tall s None 0
  | tall_node x n hl hr : cells s !! x = Some n -> tall s (lf n) hl -> tall s (rt n) hr -> tall s (Some x) (S (Nat.max hl hr)).
Definition top_of (t : tree) (s : heap A) : option loc := n ← cells s !! hd t; pa n.
Definition balanced (t : tree) (s : heap A) : Prop := exists m, red_black s (top_of t s) Black m.
End spec.
