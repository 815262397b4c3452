(** Object lifetimes as read off an event log, without reference to the memory model. *)
From stdpp Require Import list.
From Coq Require Import ZArith.
From Verif Require Import ObjModel.

Definition is_ctor (b : nat) (i : Z) (e : event) : bool :=
  match e with ECtor c j => Nat.eqb c b && Z.eqb j i | _ => false end.
Definition is_dtor (b : nat) (i : Z) (e : event) : bool :=
  match e with EDtor c j => Nat.eqb c b && Z.eqb j i | _ => false end.
Definition is_alloc (b : nat) (e : event) : bool := match e with EAlloc c _ => Nat.eqb c b | _ => false end.
Definition is_free (b : nat) (e : event) : bool := match e with EFree c => Nat.eqb c b | _ => false end.
Definition is_move (e : event) : bool := match e with EMove _ _ => true | _ => false end.
Definition count (f : event -> bool) (t : list event) : nat := length (List.filter f t).

(** The object in slot [i] of buffer [b] is alive after [t]. *)
Definition alive (t : list event) (b : nat) (i : Z) : Prop := count (is_ctor b i) t = S (count (is_dtor b i) t).
Definition dead (t : list event) (b : nat) (i : Z) : Prop := count (is_ctor b i) t = count (is_dtor b i) t.
Definition held (t : list event) (b : nat) : Prop := count (is_alloc b) t = 1 /\ count (is_free b) t = 0.

(** Event [e] is legal after [t] (latest first): buffers are returned once, with nothing alive in
    them; objects are created in free slots of held buffers; only living objects are destroyed,
    assigned to or moved from. *)
Definition legal (t : list event) (e : event) : Prop :=
  match e with
  | EAlloc b _ => count (is_alloc b) t = 0
  | EFree b => held t b /\ forall i, dead t b i
  | ECtor b i => held t b /\ dead t b i
  | EDtor b i | EAssign b i | EMove b i => held t b /\ alive t b i
  end.
Fixpoint legal_trace (t : list event) : Prop :=
  match t with
  | [] => True
  | e :: t' => legal t' e /\ legal_trace t'
  end.

(** Everything created has been destroyed, once. *)
Definition objects_gone (t : list event) : Prop := forall b i, dead t b i.
(** Every buffer has been returned, once; [nonempty] restricts this to buffers of at least one slot. *)
Definition buffers_gone (t : list event) : Prop := forall b, count (is_alloc b) t = count (is_free b) t.
Definition nonempty_buffers_gone (t : list event) : Prop :=
  forall b n, In (EAlloc b n) t -> (0 < n)%Z -> count (is_alloc b) t = 1 /\ count (is_free b) t = 1.
