(** Sequences once more: what every program over lists and iterators does, right or wrong. *)
From stdpp Require Import gmap list.
From Coq Require Import ZArith.
From Verif Require Import Base ListModel ListSpec.

Section spec.
Context {A : Type}.

(** The list is a ring: ++ takes the end to the beginning, -- the beginning to the end. All else that
    misses a precondition of [sstep] is undefined ([None]): erase of the end, a range whose end does
    not follow its beginning, the value at the end, and every use of a list that does not exist, of an
    iterator that was never set, or of one whose element or list is gone. *)
Definition xstep (w : world A) (c : lcmd A) : option (world A) :=
  match c with
  | LNext i x =>
      l ← seqs w !! x; m ← marks w !! i; p ← pos x l m;
      Some (set_mark i (mark_at x l (if Nat.eqb p (length l) then 0 else S p)) w)
  | LPrev i x =>
      l ← seqs w !! x; m ← marks w !! i; p ← pos x l m;
      Some (set_mark i (mark_at x l (match p with O => length l | S p => p end)) w)
  | _ => sstep w c
  end.
Fixpoint xrun (w : world A) (cs : list (lcmd A)) : option (world A) :=
  match cs with [] => Some w | c :: cs => w ← xstep w c; xrun w cs end.

(** Iterator [i] stands in no list but [x]. *)
Definition here (w : world A) (i x : nat) : bool :=
  match marks w !! i with
  | None => true
  | Some m => forallb (fun yl => match pos (fst yl) (snd yl) m with Some _ => Nat.eqb (fst yl) x | None => true end)
                (map_to_list (seqs w))
  end.
Definition arg_here (w : world A) (a : larg A) : bool :=
  match a with AVal _ => true | AIter i x => here w i x end.
Definition nonzero (x : nat) : bool := negb (Nat.eqb x 0).

(** An iterator is not used with a list while it stands in another, a list is not made from itself and
    not swapped with itself, and its name is not 0 (the parameter of operator=). *)
Definition formed (w : world A) (c : lcmd A) : bool :=
  match c with
  | LNew x | LInit x _ | LDestroy x | LPopBack x | LPopFront x | LClear x | LBegin _ x | LEnd _ x => nonzero x
  | LCopy x y | LMove x y | LSwap x y => nonzero x && nonzero y && negb (Nat.eqb x y)
  | LAssign x y | LMoveAssign x y => nonzero x && nonzero y
  | LPushBack x a | LPushFront x a => nonzero x && arg_here w a
  | LInsert x i a _ => here w i x && arg_here w a
  | LEraseRange x i k _ => here w i x && here w k x
  | LErase x i _ | LNext i x | LPrev i x | LWrite i x _ => here w i x
  end.
Fixpoint formed_run (w : world A) (cs : list (lcmd A)) : bool :=
  match cs with
  | [] => true
  | c :: cs => formed w c && match xstep w c with Some w => formed_run w cs | None => true end
  end.
End spec.
