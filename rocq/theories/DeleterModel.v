(** Models of the deleters of unique_ptr: which deleter types and constructor calls compile, and which
    deleter is called for which object. *)
From stdpp Require Import gmap.
From Verif Require Import Base TraitsModel InvokeModel SpecialModel DeleterSpec.
Local Open Scope N_scope.
Local Open Scope outcome_scope.

(** ** Building a tuple from one argument for each element, of the element's own type *)

(** tuple.hpp:95: is_constructible_v<Args, T> asks whether the deduced Args (T& for a variable, const T& for a constant, T for a temporary)
    can be made from a temporary T. Not so for T&. *)
Definition binds_back (a : caps) (c : cat) : bool :=
  match c with LV => false | CLV => true | RV => cons a RV end.
(** model only: value category *)
Definition temporary (c : cat) : bool := match c with RV => true | _ => false end.
(** tuple.hpp:127-129 is on if 93-97 is, and better than 125 if there is a temporary among the arguments; it hands each element its argument.
    125 and then 93-97, which is always on for constants, copy every one. *)
Definition tuple_from (l : list (caps * cat)) : bool :=
  if forallb (fun x => binds_back (fst x) (snd x)) l && existsb (fun x => temporary (snd x)) l
  then forallb (fun x => cons (fst x) (snd x)) l
  else forallb (fun x => cons (fst x) CLV) l.

(** ** unique_ptr<T, D> *)

(** The deleter type: a class with or without a default constructor, a pointer to a function, or a reference to [t]. *)
Inductive dtype := DClass (a : caps) (default : bool) | DFun | DRef (t : ty).
(** model only: what the deleter type can do *)
Definition dcaps (d : dtype) : caps := match d with DClass a _ => a | _ => scalar end.
(** memory.hpp:87: the class contains a tuple_value<1, D>, which tuple.hpp:41-43 keep from being instantiated for a reference. *)
Definition holds (d : dtype) : bool := match d with DRef t => declares (TLref t) | _ => true end.
(** memory.hpp:70-71: the pointer is a variable here *)
Definition impl_from (d : dtype) (c : cat) : bool := holds d && tuple_from [(scalar, LV); (dcaps d, c)].
(** unique_ptr(p): 99-100, 66-68 *)
Definition from_pointer (d : dtype) : bool := holds d && match d with DClass _ b => b | _ => true end.
(** unique_ptr(p, d) with [d] of a category: 102-103 takes variables and constants, 104-107 temporaries *)
Definition from_both (d : dtype) (c : cat) : bool := impl_from d (match c with RV => RV | _ => CLV end).
(** unique_ptr(move(q)): 113-114 *)
Definition from_move (d : dtype) : bool := impl_from d RV.
(** q = move(r): 123-127 *)
Definition move_assign (d : dtype) : bool := holds d && asg (dcaps d) RV.

(** ** The calls of the deleters *)
Section calls.
  (** [X]: what was allocated (for example by new or by new[]); [D]: the values of the deleter type; [suits]: the deleter can be called for such an
      object; [mv]: what is left of a deleter that was moved from; [self]: of one moved to itself; [init]: the deleter of a unique_ptr that was given none, [None] if indeterminate. *)
  Context {X D : Type} (suits : D -> X -> bool) (mv self : D -> D) (init : option D).

  (** Live objects with their addresses, the next address, the unique_ptrs (pointer and deleter), and the calls so far, last first. *)
  Record st := St { live : gmap N X; nxt : N; hnd : gmap N (option N * option D); calls : list (N * D) }.
  (** model only: the state before anything happens *)
  Definition start : st := St ∅ 1 ∅ [].

  (** model only: a variable of the program *)
  Definition read (s : N) (w : st) : outcome (option N * option D) := of_option (hnd w !! s).
  (** model only: update of one component of the state *)
  Definition write (s : N) (v : option N * option D) (w : st) : st := St (live w) (nxt w) (<[s := v]> (hnd w)) (calls w).
  (** model only: a variable of the program *)
  Definition declare (s : N) (v : option N * option D) (w : st) : outcome st :=
    match hnd w !! s with None => Ok (write s v w) | Some _ => UB end.
  (** an expression new *)
  Definition raw_new (x : X) (w : st) : st := St (<[nxt w := x]> (live w)) (nxt w + 1) (hnd w) (calls w).
  (** deleter(p): memory.hpp:20-24 is delete, 43-47 delete[]; other deleters are the user's *)
  Definition call (d : option D) (p : N) (w : st) : outcome st :=
    match d, live w !! p with
    | Some d, Some x => if suits d x then Ok (St (delete p (live w)) (nxt w) (hnd w) ((p, d) :: calls w)) else UB
    | _, _ => UB
    end.

  (** 99-100 (189-190) *)
  Definition of_pointer (s : N) (p : option N) (w : st) : outcome st := declare s (p, init) w.
  (** 102-107 (192-195): the deleter is copied in both *)
  Definition of_both (s : N) (p : option N) (d : D) (w : st) : outcome st := declare s (p, Some d) w.
  (** 156-160 (238-242) *)
  Definition release (s : N) (w : st) : outcome (option N * st) :=
    ' (p, d) <~ read s w ; Ok (p, write s (None, d) w).
  (** 162-166 (248-252) *)
  Definition reset (s : N) (p : option N) (w : st) : outcome st :=
    ' (old, d) <~ read s w ;
    let w := write s (p, d) w in
    match old with Some a => call d a w | None => Ok w end.
  (** 113-114 (197-198): the deleter of the source is copied, see [tuple_from] *)
  Definition move_from (s src : N) (w : st) : outcome st :=
    ' (p, w) <~ release src w ;
    ' (_, d) <~ read src w ;
    declare s (p, d) w.
  (** 123-127 (207-211) *)
  Definition assign (s src : N) (w : st) : outcome st :=
    ' (p, w) <~ release src w ;
    w <~ reset s p w ;
    ' (_, e) <~ read src w ;
    ' (q, _) <~ read s w ;
    if s =? src then Ok (write s (q, option_map self e) w)
    else
      let w := write s (q, e) w in
      Ok (write src (fst (default (None, None) (hnd w !! src)), option_map mv e) w).
  (** 129-132 (213-216) *)
  Definition assign_null (s : N) (w : st) : outcome st := reset s None w.
  (** 116-121 (200-205) *)
  Definition destroy (s : N) (w : st) : outcome st :=
    ' (p, d) <~ read s w ;
    w <~ match p with Some a => call d a w | None => Ok w end ;
    Ok (St (live w) (nxt w) (delete s (hnd w)) (calls w)).

  (** *** swap: 168-170 (254-256) is utility.hpp:36-41 on unique_ptr_impl, whose moves are those of the tuple *)
  Notation data := (option N * option D)%type.
  (** tuple(tuple&&): what is built and what is left (tuple.hpp:123) *)
  Definition t_move (v : data) : data * data := (v, (fst v, option_map mv (snd v))).
  (** swap of two elements by utility.hpp:36-41, tuple.hpp:187-190; for two different tuples. The second components of the temporaries are dropped. *)
  Definition e_swap (a b : data) : data * data := (b, a).
  (** tuple.hpp:144-147: a = move(b) for different tuples: new values of a and b; and a = move(a) *)
  Definition t_assign (a b : data) : data * data := let (t, b) := t_move b in let (t, a) := e_swap t a in (a, b).
  (** as above, tuple.hpp:144-147 *)
  Definition t_assign_self (a : data) : data := let (t, a) := t_move a in let (t, a) := e_swap t a in a.
  (** memory.hpp:168-170 with the swap of utility.hpp *)
  Definition swap (a b : N) (w : st) : outcome st :=
    va <~ read a w ;
    let (tmp, va) := t_move va in
    let w := write a va w in
    vb <~ read b w ;
    let w := if a =? b then write a (t_assign_self va) w
             else let (va, vb) := t_assign va vb in write b vb (write a va w) in
    vb <~ read b w ;
    let (vb, tmp) := t_assign vb tmp in
    Ok (write b vb w).

  (** A program. *)
  Definition exec (o : op X D) (w : st) : outcome st :=
    match o with
    | New x => Ok (raw_new x w)
    | Of s p => of_pointer s p w
    | OfBoth s p d => of_both s p d w
    | Move s src => move_from s src w
    | Assign s src => assign s src w
    | Null s => assign_null s w
    | Reset s p => reset s p w
    | Release s => ' (_, w) <~ release s w ; Ok w
    | Swap a b => swap a b w
    | End s => destroy s w
    end.
  (** model only: the operations of a program in order *)
  Fixpoint run (os : list (op X D)) (w : st) : outcome st :=
    match os with [] => Ok w | o :: os => w <~ exec o w ; run os w end.
End calls.
Arguments st : clear implicits.
