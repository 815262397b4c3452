(** What histories of deque, queue and stack operations should do. *)
From stdpp Require Import gmap list.
From Coq Require Import ZArith.
From Verif Require Import Base ObjModel DequeModel.

Section spec.
Context {A : Type}.

(** A sequence together with its place in storage: it starts at position [head] of [room] blocks of
    16 positions. Only the preconditions below look at the place. *)
Record sq := { elems : list A; room : nat; head : nat }.
Definition sq0 : sq := {| elems := []; room := 0; head := 0 |}.
Definition len (q : sq) : nat := length (elems q).

(** One more block at the end when the last position is used; 2^31 blocks are too many. *)
Definition spush_back (a : A) (q : sq) : option sq :=
  if Nat.eqb (room q) 0 then Some {| elems := elems q ++ [a]; room := 1; head := 0 |}
  else if Nat.ltb (head q + Nat.max (len q) 1) (16 * room q) then
    Some {| elems := elems q ++ [a]; room := room q; head := head q |}
  else if Z.ltb (Z.of_nat (room q) + 1) (2 ^ 31) then
    Some {| elems := elems q ++ [a]; room := S (room q); head := head q |}
  else None.
(** At the front a block can be added only once: with two or more blocks and nothing free before the
    first element there is no result. *)
Definition spush_front (a : A) (q : sq) : option sq :=
  if Nat.ltb 0 (head q) then
    Some {| elems := a :: elems q; room := room q; head := if Nat.eqb (len q) 0 then head q else head q - 1 |}
  else match room q with
  | 0 => Some {| elems := a :: elems q; room := 1; head := 15 |}
  | 1 => Some {| elems := a :: elems q; room := 2; head := if Nat.eqb (len q) 0 then 16 else 15 |}
  | _ => None
  end.
(** An emptied deque starts again in the middle. *)
Definition keep (l : list A) (r h : nat) : sq :=
  {| elems := l; room := r; head := match l with [] => r / 2 * 16 | _ => h end |}.
Definition spop_front (q : sq) : option sq :=
  match elems q with [] => None | _ :: l => Some (keep l (room q) (S (head q))) end.
Definition spop_back (q : sq) : option sq :=
  match elems q with [] => None | _ => Some (keep (take (len q - 1) (elems q)) (room q) (head q)) end.
Definition sclear (q : sq) : sq := match elems q with [] => q | _ => keep [] (room q) 0 end.
Fixpoint spush_all (l : list A) (q : sq) : option sq :=
  match l with
  | [] => Some q
  | a :: l' => match spush_back a q with Some q' => spush_all l' q' | None => None end
  end.
(** Copying an empty deque has no result. *)
Definition scopy (q : sq) : option sq := match elems q with [] => None | _ => spush_all (elems q) sq0 end.

Notation store := (gmap nat sq).
Definition on (s : store) (x : nat) (f : sq -> option sq) : option store :=
  match s !! x with
  | Some q => match f q with Some q' => Some (<[x := q']> s) | None => None end
  | None => None
  end.
Definition new (s : store) (x : nat) (q : sq) : option store :=
  match s !! x with Some _ => None | None => Some (<[x := q]> s) end.
Definition nth (q : sq) (i : Z) : option A := if Z.leb 0 i then elems q !! Z.to_nat i else None.
Definition sstep (s : store) (c : dcmd A) : option store :=
  match c with
  | DNew x => new s x sq0
  | DInit x l => match spush_all l sq0 with Some q => new s x q | None => None end
  | DCopy x y => match s !! y with Some q => match scopy q with Some q' => new s x q' | None => None end | None => None end
  | DMove x y => match s !! y with Some q => new (<[y := sq0]> s) x q | None => None end
  | DDestroy x => match s !! x with Some _ => Some (delete x s) | None => None end
  | DPushBack x a => on s x (spush_back a)
  | DPushFront x a => on s x (spush_front a)
  | DPushBackOf x i => on s x (fun q => match nth q i with Some a => spush_back a q | None => None end)
  | DPushFrontOf x i => on s x (fun q => match nth q i with Some a => spush_front a q | None => None end)
  | DPopBack x => on s x spop_back
  | DPopFront x => on s x spop_front
  | DClear x => on s x (fun q => Some (sclear q))
  | DAssign x y => match s !! y with Some q => match scopy q with Some q' => on s x (fun _ => Some q') | None => None end | None => None end
  | DMoveAssign x y => match s !! y with Some q => on (<[y := sq0]> s) x (fun _ => Some q) | None => None end
  | DSwap x y => match s !! x, s !! y with Some p, Some q => Some (<[y := p]> (<[x := q]> s)) | _, _ => None end
  end.
Fixpoint srun (s : store) (cs : list (dcmd A)) : option store :=
  match cs with
  | [] => Some s
  | c :: cs' => match sstep s c with Some s' => srun s' cs' | None => None end
  end.

(** What can be seen of a deque: size, emptiness, first, last, and (when not empty) the elements by
    iteration. *)
Definition value (a : A) : option (A + nat) := Some (inl a).
Definition shows (d : deq) (m : mem (A + nat)) (l : list A) : Prop :=
  dsize d = Z.of_nat (length l) /\ dempty d = match l with [] => true | _ => false end /\
  (l <> [] -> diter d m = Ok (value <$> l)) /\
  (forall a, list.head l = Some a -> dfront d m = Ok (value a)) /\
  (forall a, last l = Some a -> dback d m = Ok (value a)).

(** Queues and stacks: plain sequences. *)
Definition qon (s : gmap nat (list A)) (x : nat) (f : list A -> option (list A)) : option (gmap nat (list A)) :=
  match s !! x with
  | Some l => match f l with Some l' => Some (<[x := l']> s) | None => None end
  | None => None
  end.
Definition qnew (s : gmap nat (list A)) (x : nat) (l : list A) : option (gmap nat (list A)) :=
  match s !! x with Some _ => None | None => Some (<[x := l]> s) end.
Definition full (o : option (list A)) : option (list A) := match o with Some [] => None | _ => o end.
(** [None]: name in use or unknown, pop of an empty queue, copy of an empty queue. *)
Definition qspec (s : gmap nat (list A)) (c : qcmd A) : option (gmap nat (list A)) :=
  match c with
  | QNew x => qnew s x []
  | QCopy x y => match full (s !! y) with Some l => qnew s x l | None => None end
  | QMove x y => match s !! y with Some l => qnew (<[y := []]> s) x l | None => None end
  | QDestroy x => match s !! x with Some _ => Some (delete x s) | None => None end
  | QPush x a => qon s x (fun l => Some (l ++ [a]))
  | QPop x => qon s x (fun l => match l with [] => None | _ :: l' => Some l' end)
  | QAssign x y => match full (s !! y) with Some l => qon s x (fun _ => Some l) | None => None end
  | QSwap x y => match s !! x, s !! y with Some p, Some q => Some (<[y := p]> (<[x := q]> s)) | _, _ => None end
  end.
Fixpoint qspecs (s : gmap nat (list A)) (cs : list (qcmd A)) : option (gmap nat (list A)) :=
  match cs with
  | [] => Some s
  | c :: cs' => match qspec s c with Some s' => qspecs s' cs' | None => None end
  end.
Definition kspec (s : gmap nat (list A)) (c : kcmd A) : option (gmap nat (list A)) :=
  match c with
  | KNew x => qnew s x []
  | KCopy x y => match full (s !! y) with Some l => qnew s x l | None => None end
  | KMove x y => match s !! y with Some l => qnew (<[y := []]> s) x l | None => None end
  | KDestroy x => match s !! x with Some _ => Some (delete x s) | None => None end
  | KPush x a => qon s x (fun l => Some (l ++ [a]))
  | KPop x => qon s x (fun l => match l with [] => None | _ => Some (take (length l - 1) l) end)
  | KAssign x y => match full (s !! y) with Some l => qon s x (fun _ => Some l) | None => None end
  | KSwap x y => match s !! x, s !! y with Some p, Some q => Some (<[y := p]> (<[x := q]> s)) | _, _ => None end
  end.
Fixpoint kspecs (s : gmap nat (list A)) (cs : list (kcmd A)) : option (gmap nat (list A)) :=
  match cs with
  | [] => Some s
  | c :: cs' => match kspec s c with Some s' => kspecs s' cs' | None => None end
  end.
(** No stack ever holds more than [N] elements. *)
Fixpoint kwithin (N : nat) (s : gmap nat (list A)) (cs : list (kcmd A)) : Prop :=
  match cs with
  | [] => True
  | c :: cs' => forall s', kspec s c = Some s' -> (forall x l, s' !! x = Some l -> length l <= N) /\ kwithin N s' cs'
  end.
Definition qpushes (cs : list (qcmd A)) : nat := length (List.filter (fun c => match c with QPush _ _ => true | _ => false end) cs).

(** Deques as plain sequences. [None]: name in use or unknown, pop of an empty deque, no such element,
    copy of an empty deque. *)
Definition lstep (s : gmap nat (list A)) (c : dcmd A) : option (gmap nat (list A)) :=
  match c with
  | DNew x => qnew s x []
  | DInit x l => qnew s x l
  | DCopy x y => match full (s !! y) with Some l => qnew s x l | None => None end
  | DMove x y => match s !! y with Some l => qnew (<[y := []]> s) x l | None => None end
  | DDestroy x => match s !! x with Some _ => Some (delete x s) | None => None end
  | DPushBack x a => qon s x (fun l => Some (l ++ [a]))
  | DPushFront x a => qon s x (fun l => Some (a :: l))
  | DPushBackOf x i => qon s x (fun l => if Z.leb 0 i then match l !! Z.to_nat i with Some a => Some (l ++ [a]) | None => None end else None)
  | DPushFrontOf x i => qon s x (fun l => if Z.leb 0 i then match l !! Z.to_nat i with Some a => Some (a :: l) | None => None end else None)
  | DPopBack x => qon s x (fun l => match l with [] => None | _ => Some (take (length l - 1) l) end)
  | DPopFront x => qon s x (fun l => match l with [] => None | _ :: l' => Some l' end)
  | DClear x => qon s x (fun _ => Some [])
  | DAssign x y => match full (s !! y) with Some l => qon s x (fun _ => Some l) | None => None end
  | DMoveAssign x y => match s !! y with Some l => qon (<[y := []]> s) x (fun _ => Some l) | None => None end
  | DSwap x y => match s !! x, s !! y with Some p, Some q => Some (<[y := p]> (<[x := q]> s)) | _, _ => None end
  end.
Fixpoint lrun (s : gmap nat (list A)) (cs : list (dcmd A)) : option (gmap nat (list A)) :=
  match cs with
  | [] => Some s
  | c :: cs' => match lstep s c with Some s' => lrun s' cs' | None => None end
  end.
(** How many elements a command adds at the back; whether it adds at the front; whether it takes
    elements away. *)
Definition adds (c : dcmd A) : nat :=
  match c with DInit _ l => length l | DPushBack _ _ | DPushBackOf _ _ => 1 | _ => 0 end.
Definition fronts (c : dcmd A) : bool := match c with DPushFront _ _ | DPushFrontOf _ _ => true | _ => false end.
Definition takes (c : dcmd A) : bool := match c with DPopFront _ | DPopBack _ | DClear _ => true | _ => false end.

(** A queue in use: [Some a] pushes a, [None] pops. The largest number of pushes between two moments
    at which it is empty; [n] elements and [k] pushes so far. *)
Definition qops (l : list (option A)) : list (qcmd A) :=
  QNew 0 :: map (fun o => match o with Some a => QPush 0 a | None => QPop 0 end) l.
Fixpoint longest (n k : nat) (l : list (option A)) : nat :=
  match l with
  | [] => 0
  | Some _ :: l' => Nat.max (S k) (longest (S n) (S k) l')
  | None :: l' => longest (n - 1) (if Nat.eqb n 1 then 0 else k) l'
  end.
(** The largest number of elements held at once. *)
Fixpoint held (n : nat) (l : list (option A)) : nat :=
  match l with
  | [] => n
  | Some _ :: l' => Nat.max n (held (S n) l')
  | None :: l' => Nat.max n (held (n - 1) l')
  end.
End spec.
Arguments sq : clear implicits.
