(** What owning handles promise, stated on values only: no heap, no pointers. *)
From stdpp Require Import gmap.
From Verif Require Import Base.
Local Open Scope N_scope.

Section any.
  Context {X : Type}.

  (** The operations a program performs on objects of type any or function. *)
  Inductive hop :=
  | HNew (s : N)                    (* T s;              *)
  | HOf (s : N) (x : X)             (* T s(x);           *)
  | HCopy (s src : N)               (* T s(src);         *)
  | HMove (s src : N)               (* T s(move(src));   *)
  | HDtor (s : N)                   (* end of life       *)
  | HSwap (a b : N)                 (* a.swap(b)         *)
  | HAssignCopy (s src : N)         (* s = src;          *)
  | HAssignMove (s src : N)         (* s = move(src);    *)
  | HAssignOf (s : N) (x : X)       (* s = x;            *)
  | HClear (s : N)                  (* s.clear()         *)
  | HEmplace (s : N) (x : X)        (* s.emplace<T>(x)   *)
  | HWrite (s : N) (f : X -> X).    (* modify the value in place *)

  (** Each object has a value of its own, or none. *)
  Notation store := (gmap N (option X)).

  (** A name that may be given to a new object; 0 is not a program name. *)
  Definition fresh_name (σ : store) (s : N) : bool :=
    negb (s =? 0) && match σ !! s with None => true | Some _ => false end.

  (** [None]: the program itself is wrong (it names an object that does not exist, builds an
      object over a live one, or writes to a value that is not there). *)
  Definition hspec (σ : store) (o : hop) : option store :=
    match o with
    | HNew s => if fresh_name σ s then Some (<[s := None]> σ) else None
    | HOf s x => if fresh_name σ s then Some (<[s := Some x]> σ) else None
    | HCopy s src =>
        if fresh_name σ s then match σ !! src with Some v => Some (<[s := v]> σ) | None => None end
        else None
    | HMove s src =>
        if fresh_name σ s then
          match σ !! src with Some v => Some (<[src := None]> (<[s := v]> σ)) | None => None end
        else None
    | HDtor s => match σ !! s with Some _ => Some (delete s σ) | None => None end
    | HSwap a b =>
        match σ !! a, σ !! b with
        | Some va, Some vb => Some (<[b := va]> (<[a := vb]> σ))
        | _, _ => None
        end
    | HAssignCopy s src =>
        match σ !! s, σ !! src with Some _, Some v => Some (<[s := v]> σ) | _, _ => None end
    | HAssignMove s src =>
        match σ !! s, σ !! src with
        | Some _, Some v => Some (<[s := v]> (<[src := None]> σ))
        | _, _ => None
        end
    | HAssignOf s x | HEmplace s x =>
        match σ !! s with Some _ => Some (<[s := Some x]> σ) | None => None end
    | HClear s => match σ !! s with Some _ => Some (<[s := None]> σ) | None => None end
    | HWrite s f =>
        match σ !! s with Some (Some x) => Some (<[s := Some (f x)]> σ) | _ => None end
    end.

  Fixpoint hspec_run (σ : store) (os : list hop) : option store :=
    match os with
    | [] => Some σ
    | o :: os => match hspec σ o with Some σ' => hspec_run σ' os | None => None end
    end.

  (** A history in which no empty object is copied. *)
  Fixpoint no_empty_copy (σ : store) (os : list hop) : Prop :=
    match os with
    | [] => True
    | o :: os =>
        match o with
        | HCopy _ src | HAssignCopy _ src => σ !! src <> Some None
        | _ => True
        end /\
        match hspec σ o with Some σ' => no_empty_copy σ' os | None => True end
    end.
End any.
Arguments hop : clear implicits.

(** unique_ptr: who owns which object, and which objects are in the program's own hands. *)
Section up.
  Context {X : Type}.

  Inductive uop :=
  | UMake (s : N) (x : X)           (* T s = make_unique(x) *)
  | UNull (s : N)                   (* T s(nullptr)      *)
  | UOf (s : N) (p : N)             (* T s(p), p owned by nobody *)
  | UMove (s src : N)               (* T s(move(src))    *)
  | UDtor (s : N)
  | UAssignMove (s src : N)         (* s = move(src)     *)
  | UAssignNull (s : N)             (* s = nullptr       *)
  | UReset (s : N) (p : option N)   (* s.reset(p)        *)
  | URelease (s : N)                (* s.release()       *)
  | USwap (a b : N)
  | URawNew (x : X)                 (* new T(x)          *)
  | URawDelete (p : N).             (* delete p          *)

  Record ustate := {
    owner : gmap N (option N);      (* handle -> object *)
    loose : gmap N X;               (* objects owned by no handle *)
    owned : gmap N X;               (* objects owned by a handle *)
    unext : N }.

  Definition uempty : ustate := {| owner := ∅; loose := ∅; owned := ∅; unext := 1 |}.

  Definition ufresh (u : ustate) (s : N) : bool :=
    match owner u !! s with None => true | Some _ => false end.
  Definition drop (m : gmap N X) (p : option N) : gmap N X :=
    match p with Some p => delete p m | None => m end.

  Definition uspec (u : ustate) (o : uop) : option ustate :=
    match o with
    | UMake s x =>
        if ufresh u s then
          Some {| owner := <[s := Some (unext u)]> (owner u); loose := loose u;
                  owned := <[unext u := x]> (owned u); unext := unext u + 1 |}
        else None
    | UNull s =>
        if ufresh u s then
          Some {| owner := <[s := None]> (owner u); loose := loose u; owned := owned u; unext := unext u |}
        else None
    | UOf s p =>
        if ufresh u s then
          match loose u !! p with
          | Some x => Some {| owner := <[s := Some p]> (owner u); loose := delete p (loose u);
                              owned := <[p := x]> (owned u); unext := unext u |}
          | None => None
          end
        else None
    | UMove s src =>
        if ufresh u s then
          match owner u !! src with
          | Some v => Some {| owner := <[src := None]> (<[s := v]> (owner u)); loose := loose u;
                              owned := owned u; unext := unext u |}
          | None => None
          end
        else None
    | UDtor s =>
        match owner u !! s with
        | Some v => Some {| owner := delete s (owner u); loose := loose u;
                            owned := drop (owned u) v; unext := unext u |}
        | None => None
        end
    | UAssignMove s src =>
        match owner u !! s, owner u !! src with
        | Some old, Some v =>
            if s =? src then Some u
            else Some {| owner := <[s := v]> (<[src := None]> (owner u)); loose := loose u;
                         owned := drop (owned u) old; unext := unext u |}
        | _, _ => None
        end
    | UAssignNull s | UReset s None =>
        match owner u !! s with
        | Some old => Some {| owner := <[s := None]> (owner u); loose := loose u;
                              owned := drop (owned u) old; unext := unext u |}
        | None => None
        end
    | UReset s (Some p) =>
        match owner u !! s, loose u !! p with
        | Some old, Some x => Some {| owner := <[s := Some p]> (owner u); loose := delete p (loose u);
                                      owned := <[p := x]> (drop (owned u) old); unext := unext u |}
        | _, _ => None
        end
    | URelease s =>
        match owner u !! s with
        | Some (Some p) =>
            match owned u !! p with
            | Some x => Some {| owner := <[s := None]> (owner u); loose := <[p := x]> (loose u);
                                owned := delete p (owned u); unext := unext u |}
            | None => None
            end
        | Some None => Some u
        | None => None
        end
    | USwap a b =>
        match owner u !! a, owner u !! b with
        | Some va, Some vb => Some {| owner := <[b := va]> (<[a := vb]> (owner u)); loose := loose u;
                                      owned := owned u; unext := unext u |}
        | _, _ => None
        end
    | URawNew x =>
        Some {| owner := owner u; loose := <[unext u := x]> (loose u); owned := owned u;
                unext := unext u + 1 |}
    | URawDelete p =>
        match loose u !! p with
        | Some _ => Some {| owner := owner u; loose := delete p (loose u); owned := owned u;
                            unext := unext u |}
        | None => None
        end
    end.

  Fixpoint uspec_run (u : ustate) (os : list uop) : option ustate :=
    match os with
    | [] => Some u
    | o :: os => match uspec u o with Some u' => uspec_run u' os | None => None end
    end.

  (** One owner per object, every handle's object alive, every object accounted for. *)
  Definition accounted (u : ustate) : Prop :=
    (forall a b p, owner u !! a = Some (Some p) -> owner u !! b = Some (Some p) -> a = b) /\
    (forall p, is_Some (owned u !! p) <-> exists s, owner u !! s = Some (Some p)) /\
    (forall p, is_Some (owned u !! p) -> loose u !! p = None).
End up.
Arguments uop : clear implicits.
Arguments ustate : clear implicits.

(** Scope guards: an action runs once when its guard dies unless dismissed. *)
Inductive dop :=
| DNew (s a : N)          (* defer s(action a)     *)
| DDismiss (s : N)
| DSwap (a b : N)
| DDtor (s : N)
| DMove (s src : N)
| DCopy (s src : N)
| DAssignMove (s src : N)
| DAssignCopy (s src : N).

(** The guard that holds action [a]; [None] in place of the action: dismissed or moved away. *)
Definition dspec (σ : gmap N (option N)) (o : dop) : option (gmap N (option N) * list N) :=
  match o with
  | DNew s a => match σ !! s with None => Some (<[s := Some a]> σ, []) | Some _ => None end
  | DDismiss s => match σ !! s with Some _ => Some (<[s := None]> σ, []) | None => None end
  | DSwap a b =>
      match σ !! a, σ !! b with
      | Some va, Some vb => Some (<[b := va]> (<[a := vb]> σ), [])
      | _, _ => None
      end
  | DDtor s =>
      match σ !! s with
      | Some v => Some (delete s σ, match v with Some a => [a] | None => [] end)
      | None => None
      end
  | DMove s src =>
      match σ !! s, σ !! src with
      | None, Some v => Some (<[src := None]> (<[s := v]> σ), [])
      | _, _ => None
      end
  | DCopy _ _ | DAssignCopy _ _ => None
  | DAssignMove s src =>
      match σ !! s, σ !! src with
      | Some old, Some v =>
          Some (<[s := v]> (<[src := None]> σ), match old with Some a => [a] | None => [] end)
      | _, _ => None
      end
  end.

Fixpoint dspec_run (σ : gmap N (option N)) (os : list dop) : option (gmap N (option N) * list N) :=
  match os with
  | [] => Some (σ, [])
  | o :: os =>
      match dspec σ o with
      | Some (σ', l) =>
          match dspec_run σ' os with Some (σ'', l') => Some (σ'', l ++ l') | None => None end
      | None => None
      end
  end.

Definition plain_dop (o : dop) : bool :=
  match o with DNew _ _ | DDismiss _ | DSwap _ _ | DDtor _ => true | _ => false end.
