(** C102: the members of the standard containers, iterators and pointers that give access to an element, as types.
    Everything is said for an element of any type; an expression is known by its type, whether that is const, and whether it is an lvalue. *)
From Coq Require Import List Bool.
Import ListNotations.

(** Containers of one element type; a multiset is written [Set_] as well. *)
Inductive kind := Arr | Vec | Lst | Deq | Que | Stk | Set_.
(** [Ptr c t], [UPtr c t], [SPtr c t], [It k c t], [RIt k c t]: pointers and iterators of containers of kind [k], through which
    a [t] is seen, const if [c] is true. An iterator of an array is a pointer. *)
Inductive ty :=
| Base (n : nat)
| Cont (k : kind) (t : ty)
| Pair (a b : ty)
| Ptr (c : bool) (t : ty)
| UPtr (c : bool) (t : ty)
| SPtr (c : bool) (t : ty)
| It (k : kind) (c : bool) (t : ty)
| RIt (k : kind) (c : bool) (t : ty).
Record expr := E { type : ty; const : bool; lvalue : bool }.
Definition ref (c : bool) (t : ty) : expr := E t c true.
Definition val (t : ty) : expr := E t false false.

(** What a program writes after an expression x: x.front(), x[i], *x, x->, ++x, x + n ..; [Name c]: [c auto v = x;], then v;
    [Reverse]: reverse_iterator of x. *)
Inductive use :=
| Front | Back | Top | Index | Data | Begin | End | Find | Lower | Upper
| Deref | Arrow | Get | Incr | Decr | PostIncr | PostDecr | Plus | Minus | First | Second
| Name (c : bool) | Reverse.

(** The iterator of a container: of a set always const, of an array a pointer *)
Definition iter_of (k : kind) (c : bool) (t : ty) : ty :=
  match k with Arr => Ptr c t | Set_ => It Set_ true t | _ => It k c t end.
Definition in_list (m : use) (l : list use) : bool :=
  existsb (fun x => match x, m with
    | Front, Front | Back, Back | Top, Top | Index, Index | Data, Data | Begin, Begin | End, End
    | Find, Find | Lower, Lower | Upper, Upper => true | _, _ => false end) l.
(** Which members there are: [container.requirements], [queue.defn], [stack.defn], [set.overview] *)
Definition members (k : kind) : list use :=
  match k with
  | Arr | Vec => [Front; Back; Index; Data; Begin; End]
  | Lst => [Front; Back; Begin; End]
  | Deq => [Front; Back; Index; Begin; End]
  | Que => [Front; Back]
  | Stk => [Top]
  | Set_ => [Begin; End; Find; Lower; Upper]
  end.
(** An element is as const as the container; begin() of a constant gives a const_iterator. *)
Definition of_container (k : kind) (t : ty) (m : use) (c : bool) : option expr :=
  if in_list m (members k) then
    match m with
    | Data => Some (val (Ptr c t))
    | Begin | End | Find | Lower | Upper => Some (val (iter_of k c t))
    | _ => Some (ref c t)
    end
  else None.
Definition random (k : kind) : bool := match k with Arr | Vec | Deq => true | _ => false end.
Definition bidirectional (k : kind) : bool := match k with Que | Stk => false | _ => true end.
(** An iterator or pointer of type [self] that shows a [t]; the constness [c] is that of the element, [e] is the iterator itself. *)
Definition of_iterator (self : ty) (rand builtin : bool) (t : ty) (c : bool) (e : expr) (m : use) : option expr :=
  match m with
  | Deref | Arrow => Some (ref c t)
  | Index => if rand then Some (ref c t) else None
  | Plus | Minus => if rand then Some (val self) else None
  | Incr | Decr => if const e || (builtin && negb (lvalue e)) then None else Some (ref false self)
  | PostIncr | PostDecr => if const e || (builtin && negb (lvalue e)) then None else Some (val self)
  | _ => None
  end.
Definition std_step (m : use) (e : expr) : option expr :=
  match m with
  | Name c => Some (ref c (type e))
  | _ =>
  match type e with
  | Base _ => None
  | Cont k t => of_container k t m (const e)
  | Pair a b => match m with First => Some (E a (const e) (lvalue e)) | Second => Some (E b (const e) (lvalue e)) | _ => None end
  | Ptr c t => match m with Reverse => Some (val (RIt Arr c t)) | _ => of_iterator (Ptr c t) true true t c e m end
  | UPtr c t | SPtr c t =>
      match m with Deref | Arrow => Some (ref c t) | Get => Some (val (Ptr c t)) | _ => None end
  | It k c t => match m with Reverse => if bidirectional k then Some (val (RIt k c t)) else None
                | _ => of_iterator (It k c t) (random k) false t c e m end
  | RIt k c t => match m with Reverse => None | _ => of_iterator (RIt k c t) (random k) false t c e m end
  end end.
(** A program that goes from element to element *)
Fixpoint std_path (l : list use) (e : expr) : option expr :=
  match l with [] => Some e | m :: l => match std_step m e with Some e => std_path l e | None => None end end.

(** ** Where estl differs: [Some r]: there it gives [r] instead *)
Definition differs (m : use) (e : expr) : option (option expr) :=
  match m, type e, const e with
  | Back, Cont Que _, _ => Some None                    (* queue has no back() *)
  | Front, Cont Que _, true => Some None                (* does not compile *)
  | Top, Cont Stk _, true => Some None                  (* does not compile *)
  | Data, Cont Arr _, true => Some None                 (* does not compile *)
  | Data, Cont Arr t, false => Some (Some (val (Ptr true t)))  (* the elements cannot be written *)
  | Data, Cont Vec t, true => Some (Some (val (Ptr false t)))  (* the elements of a constant can be written *)
  | Arrow, It Lst true _, _ => Some None                (* does not compile *)
  | Deref, It Lst false t, true => Some (Some (ref true t))    (* a constant iterator gives a constant *)
  | (Deref | Arrow), It Set_ _ _, true => Some None     (* no constant iterator of a set can be dereferenced *)
  | (Plus | Minus), It Deq _ _, true => Some None       (* nor a constant iterator of a deque be moved *)
  | Index, It Deq _ _, _ => Some None                   (* no operator[] *)
  | Reverse, It (Lst | Deq | Set_) _ _, _ => Some None  (* no iterator_category *)
  | _, _, _ => None
  end.

(** ** Const safety *)
(** A value that contains no pointer or iterator *)
Fixpoint plain (t : ty) : bool :=
  match t with Base _ => true | Cont _ t => plain t | Pair a b => plain a && plain b | _ => false end.

(** The types of estl that a program can name: an array's iterators are pointers, a queue and a stack have none, a set's are const,
    and only pointers and the iterators of a vector have reverse iterators. *)
Fixpoint exists_ (t : ty) : bool :=
  match t with
  | Base _ => true
  | Cont _ t => exists_ t
  | Pair a b => exists_ a && exists_ b
  | Ptr _ t | UPtr _ t | SPtr _ t => exists_ t
  | It k c t => match k with Vec | Lst | Deq => true | Set_ => c | _ => false end && exists_ t
  | RIt k _ t => match k with Arr | Vec => true | _ => false end && exists_ t
  end.
(** The same program with estl, one step and several *)
Definition estl_step (m : use) (e : expr) : option expr := match differs m e with Some r => r | None => std_step m e end.
Fixpoint estl_path (l : list use) (e : expr) : option expr :=
  match l with [] => Some e | m :: l => match estl_step m e with Some e => estl_path l e | None => None end end.
(** No step of the program is one of those that differ *)
Fixpoint usual (l : list use) (e : expr) : Prop :=
  match l with
  | [] => True
  | m :: l => differs m e = None /\ match std_step m e with Some e => usual l e | None => True end
  end.

(** Something happens at a step of the program *)
Fixpoint along (p : use -> expr -> bool) (l : list use) (e : expr) : bool :=
  match l with
  | [] => false
  | m :: l => p m e || match estl_step m e with Some e => along p l e | None => false end
  end.
(** Copying a plain value into a variable of its own: what follows is no access to the container. *)
Definition copies (m : use) (e : expr) : bool := match m with Name _ => plain (type e) | _ => false end.
(** data() of a constant vector *)
Definition leaks (m : use) (e : expr) : bool :=
  match m, type e with Data, Cont Vec _ => const e | _, _ => false end.
(** Steps after which the element is constant: into a set (as in the standard), data() of an array, * on a constant iterator of a list *)
Definition locks (m : use) (e : expr) : bool :=
  match m, type e with
  | (Begin | End | Find | Lower | Upper), Cont Set_ _ => true
  | Data, Cont Arr _ => true
  | Deref, It Lst _ _ => const e
  | _, _ => false
  end.
