(** What programs with iterators into a set or multiset should do: the elements stand in order, each
    with an identity; an iterator is the identity of its element, or the end. *)
From stdpp Require Import gmap list.
From Coq Require Import ZArith.
From Verif Require Import Base RbModel RbSpec RbIterModel.

Section spec.
Context {A : Type} (lt : A -> A -> bool).
Notation seq := (list (nat * A)).

(** [born]: the identity of the next element; 0 is the end. *)
Record world := { elts : seq; marks : gmap nat (option nat); born : nat }.
Definition world0 : world := {| elts := []; marks := ∅; born := 1 |}.

Fixpoint index (k : nat) (l : seq) : option nat :=
  match l with [] => None | p :: l => if Nat.eqb (fst p) k then Some 0 else S <$> index k l end.
(** Where an iterator stands; [None]: its element is gone. *)
Definition posn (l : seq) (m : option nat) : option nat :=
  match m with Some k => index k l | None => Some (length l) end.
Definition mark_of (l : seq) (p : nat) : option nat := fst <$> l !! p.
Definition seek (g : A -> bool) (l : seq) : option nat := fst <$> List.find (fun p => g (snd p)) l.
Fixpoint splace (x : nat) (v : A) (l : seq) : seq :=
  match l with [] => [(x, v)] | p :: l => if lt v (snd p) then (x, v) :: p :: l else p :: splace x v l end.

Definition point (j : nat) (m : option nat) (w : world) : world :=
  {| elts := elts w; marks := <[j := m]> (marks w); born := born w |}.
Definition keep (l : seq) (w : world) : world := {| elts := l; marks := marks w; born := born w |}.

(** [None]: a precondition is not met (iterator never set or its element gone, ++ or erase of the end, --
    of the beginning, range the wrong way round). Inserting what is there already leaves the iterator
    [j] unspecified (C26). *)
Definition sstep (u : bool) (c : icmd A) (w : world) : option world :=
  match c with
  | IAdd v j =>
      if u && existsb (same lt v) (elts w).*2 then
        Some {| elts := elts w; marks := delete j (marks w); born := S (born w) |}
      else Some {| elts := splace (born w) v (elts w); marks := <[j := Some (born w)]> (marks w); born := S (born w) |}
  | IDel i j =>
      m ← marks w !! i; p ← posn (elts w) m; _ ← elts w !! p;
      Some (point j (mark_of (elts w) (S p)) (keep (take p (elts w) ++ drop (S p) (elts w)) w))
  | IDelRange i k =>
      m ← marks w !! i; n ← marks w !! k; p ← posn (elts w) m; q ← posn (elts w) n;
      if Nat.leb p q then Some (keep (take p (elts w) ++ drop q (elts w)) w) else None
  | IDelKey k => Some (keep (List.filter (fun p => negb (same lt k (snd p))) (elts w)) w)
  | IClear => Some (keep [] w)
  | IBegin j => Some (point j (mark_of (elts w) 0) w)
  | IEnd j => Some (point j None w)
  | IFind k j => Some (point j (seek (same lt k) (elts w)) w)
  | ILower k j => Some (point j (seek (fun a => negb (lt a k)) (elts w)) w)
  | IUpper k j => Some (point j (seek (lt k) (elts w)) w)
  | INext i => m ← marks w !! i; p ← posn (elts w) m; _ ← elts w !! p; Some (point i (mark_of (elts w) (S p)) w)
  | IPrev i =>
      m ← marks w !! i; p ← posn (elts w) m;
      match p with O => None | S p => Some (point i (mark_of (elts w) p) w) end
  end.
Fixpoint srun (u : bool) (cs : list (icmd A)) (w : world) : option world :=
  match cs with [] => Some w | c :: cs => w ← sstep u c w; srun u cs w end.

Definition is_iadd (c : icmd A) : bool := match c with IAdd _ _ => true | _ => false end.
(** how many elements there can be at most *)
Definition iadds (cs : list (icmd A)) : nat := length (List.filter is_iadd cs).
(** every element added belongs at the end *)
Fixpoint iappending (u : bool) (cs : list (icmd A)) (w : world) : Prop :=
  match cs with
  | [] => True
  | c :: cs =>
      match c with IAdd v _ => forall p, In p (elts w) -> lt v (snd p) = false | _ => True end /\
      match sstep u c w with Some w => iappending u cs w | None => True end
  end.
(** the iterators a command sets *)
Definition sets (c : icmd A) (i : nat) : Prop :=
  match c with
  | IAdd _ j | IDel _ j | IBegin j | IEnd j | IFind _ j | ILower _ j | IUpper _ j | INext j | IPrev j => i = j
  | _ => False
  end.
(** commands that take elements away *)
Definition erases (c : icmd A) : bool := match c with IDel _ _ | IDelRange _ _ | IDelKey _ | IClear => true | _ => false end.
(** commands that go through the element of an iterator *)
Definition uses (c : icmd A) (i : nat) : Prop := match c with INext j | IPrev j | IDel j _ => i = j | _ => False end.
End spec.
Arguments world : clear implicits.
