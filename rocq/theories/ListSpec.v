(** What histories of list operations should do: lists are sequences of elements, each element with an
    identity; an iterator is the identity of its element or the end of a list. *)
From stdpp Require Import gmap list.
From Coq Require Import ZArith.
From Verif Require Import Base ListModel.

Section spec.
Context {A : Type}.
Notation seq := (list (nat * A)).

Inductive mark := At (k : nat) | End (x : nat).
(** [born]: how many elements have been created; new ones are numbered from there. *)
Record world := { seqs : gmap nat seq; marks : gmap nat mark; born : nat }.
Definition world0 : world := {| seqs := ∅; marks := ∅; born := 0 |}.

(** Position of an iterator in list [x]; [None]: it does not stand in [x]. *)
Fixpoint find (k : nat) (l : seq) : option nat :=
  match l with
  | [] => None
  | e :: l => if Nat.eqb (fst e) k then Some 0 else S <$> find k l
  end.
Definition pos (x : nat) (l : seq) (m : mark) : option nat :=
  match m with At k => find k l | End y => if Nat.eqb x y then Some (length l) else None end.
(** The iterator at position [p]. *)
Definition mark_at (x : nat) (l : seq) (p : nat) : mark :=
  match l !! p with Some e => At (fst e) | None => End x end.

Fixpoint number (k : nat) (l : list A) : seq := match l with [] => [] | a :: l => (k, a) :: number (S k) l end.

Definition set_seq (x : nat) (l : seq) (w : world) : world :=
  {| seqs := <[x := l]> (seqs w); marks := marks w; born := born w |}.
Definition set_mark (i : nat) (m : mark) (w : world) : world :=
  {| seqs := seqs w; marks := <[i := m]> (marks w); born := born w |}.
Definition add_born (n : nat) (w : world) : world :=
  {| seqs := seqs w; marks := marks w; born := born w + n |}.

(** The value iterator [i], standing in [x], designates. *)
Definition deref (w : world) (i x : nat) : option A :=
  l ← seqs w !! x; m ← marks w !! i; p ← pos x l m; snd <$> l !! p.
Definition arg_value (w : world) (a : larg A) : option A :=
  match a with AVal v => Some v | AIter i x => deref w i x end.

Definition new (x : nat) (l : list A) (w : world) : option world :=
  match x, seqs w !! x with
  | S _, None => Some (add_born (length l) (set_seq x (number (born w) l) w))
  | _, _ => None
  end.

(** [None]: a precondition is not met (name unknown or in use, iterator not into that list, ++ of the
    end, -- of the beginning, range the wrong way round, swap of a list with itself). *)
Definition sstep (w : world) (c : lcmd A) : option world :=
  match c with
  | LNew x => new x [] w
  | LInit x l => new x l w
  | LCopy x y => l ← seqs w !! y; new x (snd <$> l) w
  | LMove x y => l ← seqs w !! y; w ← new x [] w; Some (set_seq x l (set_seq y [] w))
  | LDestroy x => _ ← seqs w !! x; Some {| seqs := delete x (seqs w); marks := marks w; born := born w |}
  | LPushBack x a =>
      l ← seqs w !! x; v ← arg_value w a; Some (add_born 1 (set_seq x (l ++ [(born w, v)]) w))
  | LPushFront x a =>
      l ← seqs w !! x; v ← arg_value w a; Some (add_born 1 (set_seq x ((born w, v) :: l) w))
  | LInsert x i a j =>
      l ← seqs w !! x; m ← marks w !! i; p ← pos x l m; v ← arg_value w a;
      Some (set_mark j (At (born w)) (add_born 1 (set_seq x (take p l ++ (born w, v) :: drop p l) w)))
  | LErase x i j =>
      l ← seqs w !! x; m ← marks w !! i; p ← pos x l m; _ ← l !! p;
      Some (set_mark j (mark_at x l (S p)) (set_seq x (take p l ++ drop (S p) l) w))
  | LEraseRange x i k j =>
      l ← seqs w !! x; m ← marks w !! i; n ← marks w !! k; p ← pos x l m; q ← pos x l n;
      if Nat.leb p q then Some (set_mark j n (set_seq x (take p l ++ drop q l) w)) else None
  | LPopBack x => l ← seqs w !! x; Some (set_seq x (take (length l - 1) l) w)
  | LPopFront x => l ← seqs w !! x; Some (set_seq x (drop 1 l) w)
  | LClear x => _ ← seqs w !! x; Some (set_seq x [] w)
  | LSwap x y =>
      l ← seqs w !! x; k ← seqs w !! y;
      if Nat.eqb x y then None else Some (set_seq y l (set_seq x k w))
  | LAssign x y =>
      _ ← seqs w !! x; l ← seqs w !! y;
      Some (add_born (length l) (set_seq x (number (born w) (snd <$> l)) w))
  | LMoveAssign x y =>
      _ ← seqs w !! x; l ← seqs w !! y; Some (set_seq x l (set_seq y [] w))
  | LBegin i x => l ← seqs w !! x; Some (set_mark i (mark_at x l 0) w)
  | LEnd i x => _ ← seqs w !! x; Some (set_mark i (End x) w)
  | LNext i x =>
      l ← seqs w !! x; m ← marks w !! i; p ← pos x l m; _ ← l !! p; Some (set_mark i (mark_at x l (S p)) w)
  | LPrev i x =>
      l ← seqs w !! x; m ← marks w !! i; p ← pos x l m;
      match p with O => None | S p => Some (set_mark i (mark_at x l p) w) end
  | LWrite i x v =>
      l ← seqs w !! x; m ← marks w !! i; p ← pos x l m; e ← l !! p;
      Some (set_seq x (<[p := (fst e, v)]> l) w)
  end.
Fixpoint srun (w : world) (cs : list (lcmd A)) : option world :=
  match cs with [] => Some w | c :: cs => w ← sstep w c; srun w cs end.

(** What can be seen of list [x] in the memory: size, both directions of iteration, first and last. *)
Definition shows (lax : bool) (s : heap A) (x : nat) (l : list A) : Prop :=
  size x s = Ok (Z.of_nat (length l)) /\
  (forall fuel, (length l <= fuel)%nat -> forward lax fuel x s = Ok l /\ backward lax fuel x s = Ok (reverse l)) /\
  (forall a, head l = Some a -> front lax x s = Ok a) /\
  (forall a, last l = Some a -> back lax x s = Ok a).
End spec.
Arguments world : clear implicits.
