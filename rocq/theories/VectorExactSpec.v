(** Sequences once more: what every history of vector operations does, right or wrong. An element
    is a value or, after a move out of it, unspecified. *)
From stdpp Require Import gmap list.
From Coq Require Import ZArith.
From Verif Require Import Base ObjModel VectorModel VectorSpec.
Local Open Scope Z_scope.

Section spec.
Context {A : Type} (dflt : A) (smk : bool).
Notation store := (gmap nat (list (option A))).

(** What is left by erase(begin() + i, begin() + j) for i <= j <= size: with nothing to erase every
    later element is moved onto itself. *)
Definition xerase (i j : Z) (l : list (option A)) : list (option A) :=
  if smk || (i <? j) then ztake i l ++ zdrop j l
  else ztake i l ++ replicate (Z.to_nat (zlen l - j)) None.

(** [None]: undefined. Sizes are not negative and iterators are between begin() and end()
    ([formed]). erase(end()) takes the last element away if there is one. *)
Definition xstep (s : store) (c : vcmd A) : option store :=
  match c with
  | CNew x => new s x []
  | CInit x l => new s x (Some <$> l)
  | CFill x n a => new s x (replicate (Z.to_nat n) (Some a))
  | CSized x n => new s x (replicate (Z.to_nat n) (Some dflt))
  | CCopy x y => match s !! y with Some l => new s x l | None => None end
  | CMove x y => match s !! y with Some l => new (<[y := []]> s) x l | None => None end
  | CDestroy x => match s !! x with Some _ => Some (delete x s) | None => None end
  | CPushBack x a | CEmplaceBack x a => on s x (fun l => Some (l ++ [Some a]))
  | CPushFront x a => on s x (fun l => Some (Some a :: l))
  | CInsert x i a | CEmplace x i a => on s x (fun l => Some (ztake i l ++ Some a :: zdrop i l))
  | CSet x i a => on s x (fun l => when (i <? zlen l) (ztake i l ++ Some a :: zdrop (i + 1) l))
  | CErase x i =>
      on s x (fun l => when (0 <? zlen l)
        (if i <? zlen l then ztake i l ++ zdrop (i + 1) l else ztake (zlen l - 1) l))
  | CEraseRange x i j => on s x (fun l => when (i <=? j) (xerase i j l))
  | CPopBack x => on s x (fun l => when (0 <? zlen l) (ztake (zlen l - 1) l))
  | CPopFront x => on s x (fun l => when (0 <? zlen l) (zdrop 1 l))
  | CResize x n => on s x (fun l => Some (pad (Some dflt) n l))
  | CReserve x n => on s x Some
  | CClear x => on s x (fun _ => Some [])
  | CAssign x y => match s !! y with Some l => on s x (fun _ => Some l) | None => None end
  | CMoveAssign x y => match s !! y with Some l => on (<[y := []]> s) x (fun _ => Some l) | None => None end
  | CSwap x y =>
      match s !! x, s !! y with Some l, Some k => Some (<[y := l]> (<[x := k]> s)) | _, _ => None end
  end.
Fixpoint xrun (s : store) (cs : list (vcmd A)) : option store :=
  match cs with
  | [] => Some s
  | c :: cs' => match xstep s c with Some s' => xrun s' cs' | None => None end
  end.

(** Sizes and indices are unsigned; an iterator argument is one of the vector's own. *)
Definition formed (s : store) (c : vcmd A) : Prop :=
  match c with
  | CFill _ n _ | CSized _ n | CResize _ n | CReserve _ n | CSet _ n _ => 0 <= n
  | CInsert x i _ | CEmplace x i _ | CErase x i => 0 <= i /\ forall l, s !! x = Some l -> i <= zlen l
  | CEraseRange x i j => 0 <= i /\ 0 <= j /\ forall l, s !! x = Some l -> i <= zlen l /\ j <= zlen l
  | _ => True
  end.
(** Every command is [formed] where it is reached, and no vector ever has, or is asked to reserve
    room for, more than [M] elements. *)
Fixpoint formed_run (M : Z) (s : store) (cs : list (vcmd A)) : Prop :=
  match cs with
  | [] => True
  | c :: cs' => formed s c /\ requested c <= M /\
      forall s', xstep s c = Some s' -> sizes_ok M s' /\ formed_run M s' cs'
  end.

(** What can be seen of a vector, moved-from elements included. *)
Definition xshows (v : vec) (m : mem A) (l : list (option A)) : Prop :=
  vsize v = Ok (zlen l) /\ vempty v = Ok (zlen l =? 0) /\ viter v m = Ok l /\
  (forall i x, l !! i = Some x -> vget (Z.of_nat i) v m = Ok x) /\
  (forall x, head l = Some x -> vfront v m = Ok x) /\ (l = [] -> vfront v m = UB) /\
  (forall x, last l = Some x -> vback v m = Ok x) /\ (l = [] -> vback v m = UB) /\
  (forall i, zlen l <= i -> vget i v m = UB).
End spec.
