(** What std::unique_ptr and std::tuple promise of deleters and of element arguments. *)
From stdpp Require Import gmap.
From Verif Require Import SpecialModel SpecialSpec.
Local Open Scope N_scope.

(** A tuple can be built when each element can be built from its argument. *)
Definition elements_built (l : list (caps * cat)) : Prop := Forall (fun x => cons (fst x) (from (snd x)) = true) l.

(** ** Histories of unique_ptrs with deleters *)
Section history.
  Context {X D : Type} (suits : D -> X -> bool) (init : option D).
  Inductive op :=
  | New (x : X)                          (* new x, not owned yet *)
  | Of (s : N) (p : option N)            (* unique_ptr s(p); *)
  | OfBoth (s : N) (p : option N) (d : D)(* unique_ptr s(p, d); *)
  | Move (s src : N)                     (* unique_ptr s(move(src)); *)
  | Assign (s src : N)                   (* s = move(src); *)
  | Null (s : N)                         (* s = nullptr; *)
  | Reset (s : N) (p : option N)         (* s.reset(p); *)
  | Release (s : N)                      (* s.release(); *)
  | Swap (a b : N)                       (* s.swap(b); *)
  | End (s : N).                         (* end of the life of s *)

  (** The objects, the address of the next one, what each unique_ptr owns and its deleter ([None]: unspecified, after a move), and which object was deleted
      by which deleter. *)
  Record book := Book { objs : gmap N X; next : N; pacts : gmap N (option N * option D); done : list (N * D) }.
  Definition blank : book := Book ∅ 1 ∅ [].
  Definition owned_by (p : N) (b : book) : Prop := exists s d, pacts b !! s = Some (Some p, d).

  (** An owner lets go of its object by deleting it; [None] if its deleter is unspecified or unfit. *)
  Definition dispose (o : option N * option D) (b : book) : option book :=
    match o with
    | (None, _) => Some b
    | (Some p, Some d) =>
        x ← objs b !! p;
        if suits d x then Some (Book (delete p (objs b)) (next b) (pacts b) ((p, d) :: done b)) else None
    | (Some p, None) => None
    end.
  Definition agree (s : N) (v : option N * option D) (b : book) : book :=
    Book (objs b) (next b) (<[s := v]> (pacts b)) (done b).
  (** An object may be given to an owner if it is there and nobody owns it. *)
  Definition owner_of (p : N) (b : book) : list N :=
    (map_to_list (pacts b)) ≫= (fun sv => match fst (snd sv) with Some q => if p =? q then [fst sv] else [] | None => [] end).
  Definition free_to_take (p : option N) (b : book) : bool :=
    match p with
    | None => true
    | Some p => match objs b !! p, owner_of p b with Some _, [] => true | _, _ => false end
    end.

  Definition keep (o : op) (b : book) : option book :=
    match o with
    | New x => Some (Book (<[next b := x]> (objs b)) (next b + 1) (pacts b) (done b))
    | Of s p =>
        match pacts b !! s with
        | None => if free_to_take p b then Some (agree s (p, init) b) else None
        | Some _ => None
        end
    | OfBoth s p d =>
        match pacts b !! s with
        | None => if free_to_take p b then Some (agree s (p, Some d) b) else None
        | Some _ => None
        end
    | Move s src =>
        match pacts b !! s, pacts b !! src with
        | None, Some v => Some (agree s v (agree src (None, None) b))
        | _, _ => None
        end
    | Assign s src =>
        if s =? src then None else
        match pacts b !! s, pacts b !! src with
        | Some v, Some v' => dispose v (agree s v' (agree src (None, None) b))
        | _, _ => None
        end
    | Null s => match pacts b !! s with Some v => dispose v (agree s (None, snd v) b) | None => None end
    | Reset s p =>
        match pacts b !! s with
        | Some v => if free_to_take p b then dispose v (agree s (p, snd v) b) else None
        | None => None
        end
    | Release s => match pacts b !! s with Some v => Some (agree s (None, snd v) b) | None => None end
    | Swap a c =>
        match pacts b !! a, pacts b !! c with
        | Some v, Some v' => Some (agree c v (agree a v' b))
        | _, _ => None
        end
    | End s =>
        match pacts b !! s with
        | Some v => dispose v (Book (objs b) (next b) (delete s (pacts b)) (done b))
        | None => None
        end
    end.
  Fixpoint keep_all (os : list op) (b : book) : option book :=
    match os with [] => Some b | o :: os => b' ← keep o b; keep_all os b' end.
End history.
Arguments op : clear implicits.
Arguments book : clear implicits.
