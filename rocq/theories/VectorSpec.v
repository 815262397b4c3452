(** Sequences: what histories of vector operations should do. *)
From stdpp Require Import gmap list.
From Coq Require Import ZArith.
From Verif Require Import Base ObjModel VectorModel.
Local Open Scope Z_scope.

Section spec.
Context {A : Type} (dflt : A) (smk : bool).
Notation store := (gmap nat (list A)).

Definition zlen (l : list A) : Z := Z.of_nat (length l).
Definition ztake (i : Z) (l : list A) : list A := take (Z.to_nat i) l.
Definition zdrop (i : Z) (l : list A) : list A := drop (Z.to_nat i) l.
Definition on (s : store) (x : nat) (f : list A -> option (list A)) : option store :=
  match s !! x with
  | Some l => match f l with Some l' => Some (<[x := l']> s) | None => None end
  | None => None
  end.
Definition new (s : store) (x : nat) (l : list A) : option store :=
  match s !! x with Some _ => None | None => Some (<[x := l]> s) end.
Definition when (b : bool) (l : list A) : option (list A) := if b then Some l else None.
Definition pad (n : Z) (l : list A) : list A := ztake n l ++ replicate (Z.to_nat (n - zlen l)) dflt.

(** [None]: a precondition is not met (name in use or unknown, position outside, pop of an empty
    vector). erase(p, p) with elements behind p moves each of them onto itself, so it additionally
    needs an element type for which that is harmless. *)
Definition sstep (s : store) (c : vcmd A) : option store :=
  match c with
  | CNew x => new s x []
  | CInit x l => new s x l
  | CFill x n a => if 0 <=? n then new s x (replicate (Z.to_nat n) a) else None
  | CSized x n => if 0 <=? n then new s x (replicate (Z.to_nat n) dflt) else None
  | CCopy x y => match s !! y with Some l => new s x l | None => None end
  | CMove x y => match s !! y with Some l => new (<[y := []]> s) x l | None => None end
  | CDestroy x => match s !! x with Some _ => Some (delete x s) | None => None end
  | CPushBack x a | CEmplaceBack x a => on s x (fun l => Some (l ++ [a]))
  | CPushFront x a => on s x (fun l => Some (a :: l))
  | CInsert x i a | CEmplace x i a =>
      on s x (fun l => when ((0 <=? i) && (i <=? zlen l)) (ztake i l ++ a :: zdrop i l))
  | CSet x i a => on s x (fun l => when ((0 <=? i) && (i <? zlen l)) (ztake i l ++ a :: zdrop (i + 1) l))
  | CErase x i => on s x (fun l => when ((0 <=? i) && (i <? zlen l)) (ztake i l ++ zdrop (i + 1) l))
  | CEraseRange x i j =>
      on s x (fun l => when ((0 <=? i) && (i <=? j) && (j <=? zlen l) && (smk || (i <? j) || (j =? zlen l)))
                         (ztake i l ++ zdrop j l))
  | CPopBack x => on s x (fun l => when (0 <? zlen l) (ztake (zlen l - 1) l))
  | CPopFront x => on s x (fun l => when (0 <? zlen l) (zdrop 1 l))
  | CResize x n => on s x (fun l => when (0 <=? n) (pad n l))
  | CReserve x n => on s x (fun l => when (0 <=? n) l)
  | CClear x => on s x (fun _ => Some [])
  | CAssign x y => match s !! y with Some l => on s x (fun _ => Some l) | None => None end
  | CMoveAssign x y => match s !! y with Some l => on (<[y := []]> s) x (fun _ => Some l) | None => None end
  | CSwap x y =>
      match s !! x, s !! y with Some l, Some k => Some (<[y := l]> (<[x := k]> s)) | _, _ => None end
  end.
Fixpoint srun (s : store) (cs : list (vcmd A)) : option store :=
  match cs with
  | [] => Some s
  | c :: cs' => match sstep s c with Some s' => srun s' cs' | None => None end
  end.

(** No vector ever has, or is asked to reserve room for, more than [M] elements. *)
Definition requested (c : vcmd A) : Z := match c with CReserve _ n => n | _ => 0 end.
Definition sizes_ok (M : Z) (s : store) : Prop := forall x l, s !! x = Some l -> zlen l <= M.
Fixpoint within (M : Z) (s : store) (cs : list (vcmd A)) : Prop :=
  match cs with
  | [] => True
  | c :: cs' => requested c <= M /\ forall s', sstep s c = Some s' -> sizes_ok M s' /\ within M s' cs'
  end.

(** What can be seen of a vector: size, elements in order by iteration and by index, first and last. *)
Definition shows (v : vec) (m : mem A) (l : list A) : Prop :=
  vsize v = Ok (zlen l) /\ vempty v = Ok (zlen l =? 0) /\
  viter v m = Ok (Some <$> l) /\
  (forall i a, l !! i = Some a -> vget (Z.of_nat i) v m = Ok (Some a)) /\
  (forall a, head l = Some a -> vfront v m = Ok (Some a)) /\
  (forall a, last l = Some a -> vback v m = Ok (Some a)).
End spec.
