(** Memory shared by the container models: buffers of object slots obtained from estd::allocator
    (estl/allocator.hpp). A slot is raw or holds a live object; a live object is a value or, after a
    move out of it, unspecified. Every allocation, construction, destruction, assignment and move is
    logged. What C++ leaves undefined, and overwriting or freeing a live object (it would never be
    destroyed), is [UB]. *)
From stdpp Require Import gmap list.
From Coq Require Import ZArith.
From Verif Require Import Base.
Local Open Scope Z_scope.
Local Open Scope outcome_scope.

(** model only: pointers, events and slots *)
Inductive ptr := Null | Ptr (b : nat) (i : Z).
(** model only: equality test *)
Definition ptr_eqb (p q : ptr) : bool :=
  match p, q with
  | Null, Null => true
  | Ptr b i, Ptr c j => Nat.eqb b c && (i =? j)
  | _, _ => false
  end.
(** Pointer arithmetic; bounds are checked on access. A null pointer only allows + 0. *)
Definition padd (p : ptr) (n : Z) : outcome ptr :=
  match p with
  | Null => if n =? 0 then Ok Null else UB
  | Ptr b i => Ok (Ptr b (i + n))
  end.
(** Pointer difference converted to size_t. *)
Definition psub (p q : ptr) : outcome Z :=
  match p, q with
  | Null, Null => Ok 0
  | Ptr b i, Ptr c j => if Nat.eqb b c then Ok ((i - j) mod 2 ^ 64) else UB
  | _, _ => UB
  end.

(** model only: pointers, events and slots *)
Inductive event :=
| EAlloc (b : nat) (n : Z)
| EFree (b : nat)
| ECtor (b : nat) (i : Z)
| EDtor (b : nat) (i : Z)
| EAssign (b : nat) (i : Z)
| EMove (b : nat) (i : Z).

Section mem.
Context {A : Type}.

(** model only: pointers, events and slots *)
Inductive cell := Raw | Live (v : option A).
(** [trace]: latest event first. *)
Record mem := { blocks : gmap nat (list cell); nextb : nat; trace : list event }.
(** model only: the state before anything happens *)
Definition mem0 : mem := {| blocks := ∅; nextb := 0%nat; trace := [] |}.

(** model only: pointers, events and slots *)
Definition upd (m : mem) (b : nat) (cs : list cell) (e : event) : mem :=
  {| blocks := <[b := cs]> (blocks m); nextb := nextb m; trace := e :: trace m |}.

(** Slot addressed by [p]. *)
Definition slot (m : mem) (p : ptr) : outcome (nat * Z * list cell * cell) :=
  match p with
  | Null => UB
  | Ptr b i =>
      cs <~ of_option (blocks m !! b) ;
      if 0 <=? i then c <~ of_option (cs !! Z.to_nat i) ; Ok (b, i, cs, c) else UB
  end.

(** allocator.hpp 33-35: new uint8_t[size * sizeof(T)]; a request of 2^63 bytes or more is [UB]. *)
Definition alloc_buf (esz n : Z) (m : mem) : outcome (ptr * mem) :=
  if (0 <=? n) && (n * esz <? 2 ^ 63) then
    Ok (Ptr (nextb m) 0,
        {| blocks := <[nextb m := replicate (Z.to_nat n) Raw]> (blocks m); nextb := S (nextb m);
           trace := EAlloc (nextb m) n :: trace m |})
  else UB.
(** model only: pointers, events and slots *)
Definition is_raw (c : cell) : bool := match c with Raw => true | Live _ => false end.
(** allocator.hpp 37-39: delete[]; deleting null does nothing. *)
Definition free_buf (p : ptr) (m : mem) : outcome mem :=
  match p with
  | Null => Ok m
  | Ptr b i =>
      cs <~ of_option (blocks m !! b) ;
      if (i =? 0) && forallb is_raw cs then
        Ok {| blocks := delete b (blocks m); nextb := nextb m; trace := EFree b :: trace m |}
      else UB
  end.

(** Value of a live object (copying from it). *)
Definition load (p : ptr) (m : mem) : outcome (option A) :=
  ' (_, _, _, c) <~ slot m p ;
  match c with Raw => UB | Live v => Ok v end.
(** allocator.hpp 6-9: placement new. *)
Definition ctor (p : ptr) (v : option A) (m : mem) : outcome mem :=
  ' (b, i, cs, c) <~ slot m p ;
  match c with Raw => Ok (upd m b (<[Z.to_nat i := Live v]> cs) (ECtor b i)) | Live _ => UB end.
(** allocator.hpp 11-16: explicit destructor call. *)
Definition dtor (p : ptr) (m : mem) : outcome mem :=
  ' (b, i, cs, c) <~ slot m p ;
  match c with Raw => UB | Live _ => Ok (upd m b (<[Z.to_nat i := Raw]> cs) (EDtor b i)) end.
(** Assignment to a live object. *)
Definition assign (p : ptr) (v : option A) (m : mem) : outcome mem :=
  ' (b, i, cs, c) <~ slot m p ;
  match c with Raw => UB | Live _ => Ok (upd m b (<[Z.to_nat i := Live v]> cs) (EAssign b i)) end.
(** Move out of a live object: the value is handed over, the object stays alive, unspecified. *)
Definition take_from (p : ptr) (m : mem) : outcome (option A * mem) :=
  ' (b, i, cs, c) <~ slot m p ;
  match c with
  | Raw => UB
  | Live v => Ok (v, upd m b (<[Z.to_nat i := Live None]> cs) (EMove b i))
  end.
(** *p = estd::move( *q). Moving an object onto itself keeps its value only if the element type says
    so ([smk]); otherwise it is unspecified afterwards. *)
Definition move_assign (smk : bool) (p q : ptr) (m : mem) : outcome mem :=
  if ptr_eqb p q then
    v <~ load q m ; assign p (if smk then v else None) m
  else
    ' (v, m1) <~ take_from q m ; assign p v m1.

(** An argument: a value from outside the container, a const reference to a slot, or an rvalue
    reference to a slot. It is read where the callee reads it. *)
Inductive arg := AVal (a : A) | ARef (p : ptr) | AMoveRef (p : ptr).
(** model only: an argument is read *)
Definition read_arg (a : arg) (m : mem) : outcome (option A * mem) :=
  match a with
  | AVal x => Ok (Some x, m)
  | ARef p => v <~ load p m ; Ok (v, m)
  | AMoveRef p => take_from p m
  end.

(** allocator.hpp 18-25: destory(first, end). *)
Fixpoint destroy_range (fuel : nat) (first last : ptr) (m : mem) : outcome mem :=
  match fuel with
  | O => Fuel
  | S f =>
      if ptr_eqb first last then Ok m
      else m1 <~ dtor first m ; p <~ padd first 1 ; destroy_range f p last m1
  end.
End mem.
Arguments cell : clear implicits.
Arguments mem : clear implicits.
Arguments arg : clear implicits.
