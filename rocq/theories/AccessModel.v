(** The member functions of estl that give access to an element, as text, and the rules of C++ by which a compiler accepts
    them: C102. A template member is compiled when it is used; it is accepted if its body has a type that converts to the declared
    result and every member it calls is accepted.  Value categories other than lvalue, references as elements and private
    members are left out; comparisons inside the bodies are those of C96 and are left out as well. *)
From Coq Require Import List Bool Arith.
From Verif Require Import AccessSpec.
Import ListNotations.

(** ** Types *)
(** Those a program does not write: list.hpp:7-75 and 77-112, rb_tree.hpp:11-47 and 49-80, the tree under a set, T[N],
    unique_ptr_impl (memory.hpp:60-88), T* as pointed to by blocks_, numbers and void *)
Inductive inner :=
| ListBase (t : ty) | ListNode (t : ty) | TreeBase (t : ty) | TreeNode (t : ty) | Tree (t : ty)
| Array (t : ty) | Impl (c : bool) (t : ty) | Pointer (t : ty) | Int | Void.
(** [V]: written by the program; [I]: one of the others; [P c x]: pointer to one of the others *)
Inductive mty := V (t : ty) | I (x : inner) | P (c : bool) (x : inner).
(** model only: an expression: type, constant, lvalue *)
Record mexpr := ME { mt : mty; mc : bool; ml : bool }.

(** model only: equality test *)
Definition kind_eqb (a b : kind) : bool :=
  match a, b with Arr, Arr | Vec, Vec | Lst, Lst | Deq, Deq | Que, Que | Stk, Stk | Set_, Set_ => true | _, _ => false end.
(** model only: equality test *)
Fixpoint ty_eqb (a b : ty) : bool :=
  match a, b with
  | Base n, Base m => Nat.eqb n m
  | Cont k t, Cont l u => kind_eqb k l && ty_eqb t u
  | Pair a1 a2, Pair b1 b2 => ty_eqb a1 b1 && ty_eqb a2 b2
  | Ptr c t, Ptr d u | UPtr c t, UPtr d u | SPtr c t, SPtr d u => Bool.eqb c d && ty_eqb t u
  | It k c t, It l d u | RIt k c t, RIt l d u => kind_eqb k l && Bool.eqb c d && ty_eqb t u
  | _, _ => false
  end.
(** model only: equality test *)
Definition inner_eqb (a b : inner) : bool :=
  match a, b with
  | ListBase t, ListBase u | ListNode t, ListNode u | TreeBase t, TreeBase u | TreeNode t, TreeNode u
  | Tree t, Tree u | Array t, Array u | Pointer t, Pointer u => ty_eqb t u
  | Impl c t, Impl d u => Bool.eqb c d && ty_eqb t u
  | Int, Int | Void, Void => true
  | _, _ => false
  end.
(** model only: equality test *)
Definition mty_eqb (a b : mty) : bool :=
  match a, b with
  | V t, V u => ty_eqb t u
  | I x, I y => inner_eqb x y
  | P c x, P d y => Bool.eqb c d && inner_eqb x y
  | _, _ => false
  end.

(** ** Bodies *)
(** Members that only estl itself calls *)
Inductive fn :=
| F (m : use)
| GetValue | GetNext | GetPrv | CastToDriver | GetDriverPtr | GetObjPointer | MinNode | Root | Increment | Decrement | ImplPtr.
(** the data members named in the bodies (vector.hpp, list.hpp, deque.hpp, rb_tree.hpp, queue.hpp, stack.hpp, set.hpp, memory.hpp) *)
Inductive field :=
| M_start_ | M_finish_ | M_current_ | node_ | next_ | prv_ | value_ | current_ | blocks_ | deque_ | index_ | container_
| data_ | header_ | left_ | right_ | parent_ | node | value | tree_ | impl_ | ptr_ | tup0.
(** One local variable is enough: [Let t e b]: t it = e; b *)
Inductive body :=
| This | Local
| Fld (e : body) (f : field)
| Star (e : body) | Amp (e : body) | At (e : body)
| Op (m : use) (e : body)              (* e + n, e - n, ++e, --e, e++, e--, by the name of the operator; e += n of a number is written like ++ *)
| Assign (l r : body)
| Dot (e : body) (m : fn)
| Make (t : mty) (e : body)
| Cast (c : bool) (t : inner) (e : body)  (* static_cast to a pointer to a derived class *)
| Let (t : mty) (e b : body)
| Seq (a b : body).
(** Declared results *)
Inductive result := RRef (c : bool) (t : mty) | RVal (t : mty).
(** [m_this]: the class that declares the member *)
Record method := { m_const : bool; m_this : mty; m_ret : result; m_body : body }.

(** ** The classes *)
Definition meth (c : bool) (t : mty) (r : result) (b : body) : method := {| m_const := c; m_this := t; m_ret := r; m_body := b |}.
(** [both t r b]: the overloads for a variable and for a constant *)
Definition both (t : mty) (r : bool -> result) (b : bool -> body) : list method :=
  [meth false t (r false) (b false); meth true t (r true) (b true)].

(** array.hpp:18-74 *)
Definition array_members (t : ty) (m : fn) : list method :=
  let self := V (Cont Arr t) in
  match m with
  | F Begin => both self (fun c => RVal (V (Ptr c t))) (fun _ => Fld This data_)                     (* 18-23 *)
  | F End => both self (fun c => RVal (V (Ptr c t))) (fun _ => Op Plus (Fld This data_))               (* 29-35 *)
  | F Data => [meth true self (RVal (V (Ptr false t))) (Fld This data_);                             (* 45-47 *)
               meth false self (RVal (V (Ptr true t))) (Fld This data_)]                             (* 49-51 *)
  | F Front | F Back | F Index => both self (fun c => RRef c (V t)) (fun _ => At (Fld This data_))   (* 53-74 *)
  | _ => []
  end.
(** vector.hpp:220-242, 285-315; its iterators are normal_iterator (16-17) *)
Definition vector_members (t : ty) (m : fn) : list method :=
  let self := V (Cont Vec t) in
  match m with
  | F Data => both self (fun _ => RVal (V (Ptr false t))) (fun _ => Fld This M_start_)               (* 220-226 *)
  | F Front => both self (fun c => RRef c (V t)) (fun _ => Star (Fld This M_start_))                 (* 228-234 *)
  | F Back => both self (fun c => RRef c (V t)) (fun _ => Star (Op Minus (Dot This (F End))))           (* 236-242 *)
  | F Begin => both self (fun c => RVal (V (It Vec c t))) (fun c => Make (V (It Vec c t)) (Fld This M_start_))   (* 285, 293 *)
  | F End => both self (fun c => RVal (V (It Vec c t))) (fun c => Make (V (It Vec c t)) (Fld This M_finish_))    (* 289, 297 *)
  | F Index => both self (fun c => RRef c (V t)) (fun _ => Star (Op Plus (Fld This M_start_)))         (* 309-315 *)
  | _ => []
  end.
(** list.hpp:376-404 *)
Definition list_members (t : ty) (m : fn) : list method :=
  let self := V (Cont Lst t) in
  match m with
  | F Front => both self (fun c => RRef c (V t)) (fun _ => Star (Dot This (F Begin)))                (* 376-381 *)
  | F Back => both self (fun c => RRef c (V t)) (fun _ => Star (Op Decr (Dot This (F End))))             (* 383-388 *)
  | F Begin => both self (fun c => RVal (V (It Lst c t))) (fun c => Make (V (It Lst c t)) (Dot (Fld This node_) GetNext))      (* 390-396 *)
  | F End => both self (fun c => RVal (V (It Lst c t))) (fun c => Make (V (It Lst c t)) (Dot (Fld This node_) CastToDriver))  (* 398-404 *)
  | _ => []
  end.
(** list.hpp:52-71 *)
Definition list_base_members (t : ty) (m : fn) : list method :=
  let self := I (ListBase t) in
  match m with
  | CastToDriver => both self (fun c => RVal (P c (ListNode t))) (fun c => Cast c (ListNode t) (Amp This))                (* 52-58 *)
  | GetNext => both self (fun c => RVal (P c (ListNode t))) (fun _ => Dot (Star (Fld This next_)) CastToDriver)           (* 60-65 *)
  | GetPrv => both self (fun c => RVal (P c (ListNode t))) (fun _ => Dot (Star (Fld This prv_)) CastToDriver)             (* 66-71 *)
  | _ => []
  end.
(** list.hpp:97-102; the rest is inherited *)
Definition list_node_members (t : ty) (m : fn) : list method :=
  match m with
  | GetValue => both (I (ListNode t)) (fun c => RRef c (V t)) (fun _ => Fld This value_)
  | _ => list_base_members t m
  end.
(** list.hpp:118-166 ([c] false: list_iterator) and 173-221 (const_list_iterator) *)
Definition list_iterator_members (c : bool) (t : ty) (m : fn) : list method :=
  let self := V (It Lst c t) in
  let go := fun m => Assign (Fld This current_) (Dot (Star (Fld This current_)) m) in
  match m with
  | F Deref => [meth false self (RRef c (V t)) (Dot (Star (Fld This current_)) GetValue);                 (* 129-131, 184-186 *)
                meth true self (RRef true (V t)) (Dot (Star (Fld This current_)) GetValue)]               (* 133-135, 188-190 *)
  | F Arrow => [meth true self (RVal (V (Ptr false t))) (Amp (Dot (Star (Fld This current_)) GetValue))]  (* 137-139, 192-194 *)
  | F Incr => [meth false self (RRef false self) (Seq (go GetNext) This)]                                 (* 141-144, 196-199 *)
  | F PostIncr => [meth false self (RVal self) (Let self This (Seq (go GetNext) Local))]                  (* 145-149, 200-204 *)
  | F Decr => [meth false self (RRef false self) (Seq (go GetPrv) This)]                                  (* 151-154, 206-209 *)
  | F PostDecr => [meth false self (RVal self) (Let self This (Seq (go GetPrv) Local))]                   (* 156-160, 211-215 *)
  | _ => []
  end.
(** deque.hpp:149-171, 206-220, 333-335 *)
Definition deque_members (t : ty) (m : fn) : list method :=
  let self := V (Cont Deq t) in
  match m with
  | F Index => both self (fun c => RRef c (V t)) (fun _ => Star (Dot This GetObjPointer))                 (* 149-155 *)
  | F Front | F Back => both self (fun c => RRef c (V t)) (fun _ => At This)                              (* 157-171 *)
  | F Begin | F End => both self (fun c => RVal (V (It Deq c t))) (fun c => Make (V (It Deq c t)) (Amp This))   (* 206-220 *)
  | GetObjPointer => [meth true self (RVal (V (Ptr false t))) (Amp (At (At (Fld This blocks_))))]         (* 333-335 *)
  | _ => []
  end.
(** deque.hpp:27-85; const_reference is T& with const added to a reference, so T& (23); the iterators are deque_iterator<T> and deque_iterator<const T> *)
Definition deque_iterator_members (c : bool) (t : ty) (m : fn) : list method :=
  let self := V (It Deq c t) in
  match m with
  | F Deref => both self (fun _ => RRef c (V t)) (fun _ => At (Star (Fld This deque_)))                   (* 27-32 *)
  | F Arrow => both self (fun _ => RVal (V (Ptr c t))) (fun _ => Amp (At (Star (Fld This deque_))))       (* 34-40 *)
  | F Incr => [meth false self (RRef false self) (Seq (Op PostIncr (Fld This index_)) This)]              (* 46-49 *)
  | F Decr => [meth false self (RRef false self) (Seq (Op PostDecr (Fld This index_)) This)]              (* 57-60 *)
  | F PostIncr => [meth false self (RVal self) (Let self This (Seq (Op PostIncr (Fld This index_)) Local))]   (* 51-55 *)
  | F PostDecr => [meth false self (RVal self) (Let self This (Seq (Op PostDecr (Fld This index_)) Local))]   (* 61-65 *)
  | F Plus | F Minus =>
      [meth false self (RVal self) (Let self This (Seq (Op Incr (Fld Local index_)) Local))]                  (* 76-85 *)
  | _ => []
  end.
(** queue.hpp:48-54, stack.hpp:40-46 *)
Definition queue_members (t : ty) (m : fn) : list method :=
  match m with
  | F Front => both (V (Cont Que t)) (fun _ => RRef false (V t)) (fun _ => Dot (Fld This container_) (F Front))
  | _ => []
  end.
(** as above, queue.hpp:48-54; stack.hpp:40-46 *)
Definition stack_members (t : ty) (m : fn) : list method :=
  match m with
  | F Top => both (V (Cont Stk t)) (fun _ => RRef false (V t)) (fun _ => Dot (Fld This container_) (F Back))
  | _ => []
  end.
(** set.hpp:57-68, 110-132 and the same lines of multiset: iterator is const_iterator; only the constant form of
    upper_bound has that name (the other is uppper_bound) *)
Definition set_members (t : ty) (m : fn) : list method :=
  let self := V (Cont Set_ t) in
  match m with
  | F Begin | F End | F Find | F Lower => both self (fun _ => RVal (V (It Set_ true t))) (fun _ => Dot (Fld This tree_) m)
  | F Upper => [meth true self (RVal (V (It Set_ true t))) (Dot (Fld This tree_) m)]
  | _ => []
  end.
(** rb_tree.hpp:646-657, 678-705, 845-902, 905-913. An iterator is made from the node by the inherited constructor. *)
Definition tree_members (t : ty) (m : fn) : list method :=
  let self := I (Tree t) in
  match m with
  | F Begin => both self (fun c => RVal (V (It Set_ c t))) (fun _ => Dot This MinNode)                    (* 646-651 *)
  | F End => both self (fun c => RVal (V (It Set_ c t))) (fun _ => Fld This header_)                      (* 652-657 *)
  | F Find => both self (fun c => RVal (V (It Set_ c t)))
      (fun c => Seq (Let (P false (TreeBase t)) (Dot This Root) (Assign Local (Fld (Star Local) left_)))
                    (Seq (Dot This (F End)) (Make (V (It Set_ c t)) (Fld This header_))))                 (* 678-705 *)
  | F Lower | F Upper => both self (fun c => RVal (V (It Set_ c t)))
      (fun c => Let (P false (TreeBase t)) (Dot This Root) (Seq (Assign Local (Fld (Star Local) left_)) Local))   (* 845-902 *)
  | Root => [meth true self (RRef false (P false (TreeBase t))) (Fld (Star (Fld This header_)) parent_)]  (* 905-907 *)
  | MinNode => both self (fun c => RRef c (P false (TreeBase t))) (fun _ => Fld (Star (Fld This header_)) left_)  (* 908-913 *)
  | _ => []
  end.
(** rb_tree.hpp:15-21; value: 79 *)
Definition tree_base_members (t : ty) (m : fn) : list method :=
  match m with
  | GetDriverPtr => both (I (TreeBase t)) (fun c => RVal (P c (TreeNode t))) (fun c => Cast c (TreeNode t) (Amp This))
  | _ => []
  end.
(** rb_tree.hpp:155-203 (increment and decrement, reduced to one assignment), 205-246 ([c] false: rb_tree_iterator) and 249-298 (rb_tree_const_iterator) *)
Definition tree_iterator_members (c : bool) (t : ty) (m : fn) : list method :=
  let self := V (It Set_ c t) in
  let driver := Dot (Star (Fld This node)) GetDriverPtr in
  match m with
  | F Arrow => [meth false self (RVal (V (Ptr c t))) (Amp (Fld (Star driver) value))]                     (* 214-216, 264-266 *)
  | F Deref => [meth false self (RRef c (V t)) (Fld (Star driver) value)]                                 (* 218-220, 268-270 *)
  | F Incr => [meth false self (RRef false self) (Seq (Dot This Increment) This)]
  | F PostIncr => [meth false self (RVal self) (Let self This (Seq (Dot This Increment) Local))]
  | F Decr => [meth false self (RRef false self) (Seq (Dot This Decrement) This)]
  | F PostDecr => [meth false self (RVal self) (Let self This (Seq (Dot This Decrement) Local))]
  | Increment => [meth false self (RVal (I Void)) (Seq (Assign (Fld This node) (Fld (Star (Fld This node)) right_)) (Make (I Void) This))]
  | Decrement => [meth false self (RVal (I Void)) (Seq (Assign (Fld This node) (Fld (Star (Fld This node)) left_)) (Make (I Void) This))]
  | _ => []
  end.
(** iterator.hpp:95-141 *)
Definition normal_iterator_members (c : bool) (t : ty) (m : fn) : list method :=
  let self := V (It Vec c t) in
  let cur := Fld This M_current_ in
  match m with
  | F Deref => [meth true self (RRef c (V t)) (Star cur)]                              (* 95-97 *)
  | F Arrow => [meth true self (RVal (V (Ptr c t))) cur]                               (* 99-101 *)
  | F Incr => [meth false self (RRef false self) (Seq (Op Incr cur) This)]             (* 103-106 *)
  | F Decr => [meth false self (RRef false self) (Seq (Op Decr cur) This)]             (* 112-115 *)
  | F PostIncr => [meth false self (RVal self) (Make self (Op PostIncr cur))]          (* 108-110 *)
  | F PostDecr => [meth false self (RVal self) (Make self (Op PostDecr cur))]          (* 117-119 *)
  | F Index => [meth true self (RRef c (V t)) (At cur)]                                (* 121-123 *)
  | F Plus => [meth true self (RVal self) (Make self (Op Plus cur))]                   (* 130-132 *)
  | F Minus => [meth true self (RVal self) (Make self (Op Minus cur))]                 (* 139-141 *)
  | _ => []
  end.
(** The iterator in a reverse_iterator: a pointer or a normal_iterator *)
Definition base_iter (k : kind) (c : bool) (t : ty) : ty := match k with Arr => Ptr c t | _ => It k c t end.
(** iterator.hpp:228-280, 282-291; in 233-237 to_pointer returns a pointer as it is and calls operator-> of a class *)
Definition reverse_iterator_members (k : kind) (c : bool) (t : ty) (m : fn) : list method :=
  let self := V (RIt k c t) in
  let base := V (base_iter k c t) in
  match m with
  | F Deref => [meth true self (RRef c (V t)) (Let base (Fld This current_) (Star (Op Decr Local)))]       (* 228-231 *)
  | F Arrow => [meth true self (RVal (V (Ptr c t)))
      (Let base (Fld This current_) (Seq (Op Decr Local) (match k with Arr => Local | _ => Dot Local (F Arrow) end)))]   (* 232-237 *)
  | F Incr => [meth false self (RRef false self) (Seq (Op Decr (Fld This current_)) This)]             (* 239-242 *)
  | F Decr => [meth false self (RRef false self) (Seq (Op Incr (Fld This current_)) This)]             (* 256-259 *)
  | F PostIncr => [meth false self (RVal self) (Let self This (Seq (Op Decr (Fld This current_)) Local))]   (* 244-248 *)
  | F PostDecr => [meth false self (RVal self) (Let self This (Seq (Op Incr (Fld This current_)) Local))]   (* 250-254 *)
  | F Plus => [meth true self (RVal self) (Make self (Op Minus (Fld This current_)))]                  (* 261-263 *)
  | F Minus => [meth true self (RVal self) (Make self (Op Plus (Fld This current_)))]                  (* 269-271 *)
  | F Index => [meth true self (RRef c (V t)) (Star (Op Plus This))]                                     (* 278-280 *)
  | _ => []
  end.
(** memory.hpp:134-142, 73-78 (the tuple element is taken as a member), 630-640 *)
Definition unique_ptr_members (c : bool) (t : ty) (m : fn) : list method :=
  let self := V (UPtr c t) in
  match m with
  | F Deref => [meth true self (RRef c (V t)) (Star (Dot This (F Get)))]
  | F Arrow => [meth true self (RVal (V (Ptr c t))) (Dot This (F Get))]
  | F Get => [meth true self (RVal (V (Ptr c t))) (Dot (Fld This impl_) ImplPtr)]
  | _ => []
  end.
(** as above, memory.hpp:134-142, 73-78; 630-640 *)
Definition impl_members (c : bool) (t : ty) (m : fn) : list method :=
  match m with
  | ImplPtr => [meth false (I (Impl c t)) (RRef false (V (Ptr c t))) (Fld This tup0);
                meth true (I (Impl c t)) (RVal (V (Ptr c t))) (Fld This tup0)]
  | _ => []
  end.
(** as above, memory.hpp:134-142, 73-78; 630-640 *)
Definition shared_ptr_members (c : bool) (t : ty) (m : fn) : list method :=
  let self := V (SPtr c t) in
  match m with
  | F Deref => [meth true self (RRef c (V t)) (Star (Dot This (F Get)))]
  | F Arrow => [meth true self (RVal (V (Ptr c t))) (Dot This (F Get))]
  | F Get => [meth true self (RVal (V (Ptr c t))) (Fld This ptr_)]
  | _ => []
  end.
(** the members of each type, as above *)
Definition methods (x : mty) (m : fn) : list method :=
  match x with
  | V (Cont Arr t) => array_members t m
  | V (Cont Vec t) => vector_members t m
  | V (Cont Lst t) => list_members t m
  | V (Cont Deq t) => deque_members t m
  | V (Cont Que t) => queue_members t m
  | V (Cont Stk t) => stack_members t m
  | V (Cont Set_ t) => set_members t m
  | V (It Vec c t) => normal_iterator_members c t m
  | V (It Lst c t) => list_iterator_members c t m
  | V (It Deq c t) => deque_iterator_members c t m
  | V (It Set_ c t) => tree_iterator_members c t m
  | V (RIt k c t) => reverse_iterator_members k c t m
  | V (UPtr c t) => unique_ptr_members c t m
  | V (SPtr c t) => shared_ptr_members c t m
  | I (ListBase t) => list_base_members t m
  | I (ListNode t) => list_node_members t m
  | I (Tree t) => tree_members t m
  | I (TreeBase t) => tree_base_members t m
  | I (Impl c t) => impl_members c t m
  | _ => []
  end.
(** Data members: array.hpp:77, vector.hpp:341-343, list.hpp:73-74, 111, 168, 223, 469-470, deque.hpp:96-97, 345, queue.hpp:65, stack.hpp:67,
    rb_tree.hpp:43-46, 79, 202, set.hpp:135, iterator.hpp:150, 295, memory.hpp:87; shared_ptr's ptr_ *)
Definition field_type (x : mty) (f : field) : option mty :=
  match x, f with
  | V (Cont Arr t), data_ => Some (I (Array t))
  | V (Cont Vec t), (M_start_ | M_finish_) => Some (V (Ptr false t))
  | V (Cont Lst t), node_ => Some (I (ListBase t))
  | (I (ListBase t) | I (ListNode t)), (next_ | prv_) => Some (P false (ListBase t))
  | I (ListNode t), value_ => Some (V t)
  | V (It Lst c t), current_ => Some (P c (ListNode t))
  | V (Cont Deq t), blocks_ => Some (P false (Pointer t))
  | V (It Deq c t), deque_ => Some (V (Ptr c (Cont Deq t)))
  | V (It Deq c t), index_ => Some (I Int)
  | V (Cont Que t), container_ => Some (V (Cont Deq t))
  | V (Cont Stk t), container_ => Some (V (Cont Deq t))
  | V (Cont Set_ t), tree_ => Some (I (Tree t))
  | I (Tree t), header_ => Some (P false (TreeBase t))
  | (I (TreeBase t) | I (TreeNode t)), (left_ | right_ | parent_) => Some (P false (TreeBase t))
  | I (TreeNode t), value => Some (V t)
  | V (It Set_ _ t), node => Some (P false (TreeBase t))
  | V (It Vec c t), M_current_ => Some (V (Ptr c t))
  | V (RIt k c t), current_ => Some (V (base_iter k c t))
  | V (UPtr c t), impl_ => Some (I (Impl c t))
  | I (Impl c t), tup0 => Some (V (Ptr c t))
  | V (SPtr c t), ptr_ => Some (V (Ptr c t))
  | _, _ => None
  end.

(** ** The rules of the language *)
(** The object a pointer points to; a pointer element of blocks_ is an ordinary T* *)
Definition pointee (x : mty) : option (bool * mty) :=
  match x with
  | V (Ptr c t) => Some (c, V t)
  | P c (Pointer t) => Some (c, V (Ptr false t))
  | P c y => Some (c, I y)
  | _ => None
  end.
(** & *)
Definition pointer_to (c : bool) (x : mty) : option mty :=
  match x with V t => Some (V (Ptr c t)) | I y => Some (P c y) | P _ _ => None end.
(** Arrays decay ([conv.array]) *)
Definition decay (e : mexpr) : mty := match mt e with I (Array t) => V (Ptr (mc e) t) | x => x end.
(** Qualification conversions ([conv.qual]) and the constructors that are not explicit: rb_tree.hpp:154-155 (inherited: 211, 256), 259-260 *)
Definition implicit (from to : mty) : bool :=
  mty_eqb from to ||
  match from, to with
  | V (Ptr false t), V (Ptr true u) => ty_eqb t u
  | P false x, P true y => inner_eqb x y
  | P false (TreeBase t), V (It Set_ _ u) => ty_eqb t u
  | V (It Set_ false t), V (It Set_ true u) => ty_eqb t u
  | _, _ => false
  end.
(** Constructors called by name: iterator.hpp:85, 215, list.hpp:126, 181, deque.hpp:24; [I Void]: return; *)
Definition explicit (from to : mty) : bool :=
  implicit from to ||
  match from, to with
  | x, V (It Vec c t) => implicit x (V (Ptr c t))
  | x, V (It Lst c t) => implicit x (P c (ListNode t))
  | x, V (It Deq c t) => implicit x (V (Ptr c (Cont Deq t)))
  | x, V (RIt k c t) => implicit x (V (base_iter k c t))
  | _, I Void => true
  | _, _ => false
  end.
(** C++: a returned expression fits the declared result *)
Definition converts (e : mexpr) (r : result) : bool :=
  match r with
  | RRef c t => ml e && mty_eqb (mt e) t && implb (mc e) c
  | RVal t => implicit (decay e) t
  end.
(** C++: what a call yields *)
Definition given (r : result) : mexpr := match r with RRef c t => ME t c true | RVal t => ME t false false end.
(** Overloads: a constant calls the const member, anything else prefers the other *)
Definition choose (c : bool) (l : list method) : option method :=
  match filter (fun m => negb (m_const m)) l, filter m_const l, c with
  | m :: _, _, false => Some m
  | _, m :: _, _ => Some m
  | _, _, _ => None
  end.
(** model only: sequencing of results that may be missing *)
Definition ibind {A B} (x : option A) (f : A -> option B) : option B := match x with Some a => f a | None => None end.
(** Operators on built-in types; for a class the member is called *)
Definition builtin (x : mty) : bool := match x with V (Ptr _ _) | P _ _ | I Int | I (Array _) => true | _ => false end.
(** The type of an expression in the body of [f]; [rec m e]: that of e.m(); [loc]: that of the local variable *)
Fixpoint typ (rec : fn -> mexpr -> option mexpr) (f : method) (loc : mty) (b : body) {struct b} : option mexpr :=
  match b with
  | This => Some (ME (m_this f) (m_const f) true)
  | Local => Some (ME loc false true)
  | Fld e g => ibind (typ rec f loc e) (fun e => ibind (field_type (mt e) g) (fun t => Some (ME t (mc e) true)))
  | Star e => ibind (typ rec f loc e) (fun e =>
      if builtin (mt e) then ibind (pointee (decay e)) (fun ct => Some (ME (snd ct) (fst ct) true)) else rec (F Deref) e)
  | At e => ibind (typ rec f loc e) (fun e =>
      if builtin (mt e) then ibind (pointee (decay e)) (fun ct => Some (ME (snd ct) (fst ct) true)) else rec (F Index) e)
  | Amp e => ibind (typ rec f loc e) (fun e =>
      if ml e then ibind (pointer_to (mc e) (mt e)) (fun t => Some (ME t false false)) else None)
  | Op m e => ibind (typ rec f loc e) (fun e =>
      if builtin (mt e) then
        match m with
        | Plus | Minus => Some (ME (decay e) false false)
        | Incr | Decr => if ml e && negb (mc e) then Some e else None
        | PostIncr | PostDecr => if ml e && negb (mc e) then Some (ME (mt e) false false) else None
        | _ => None
        end
      else rec (F m) e)
  | Assign l r => ibind (typ rec f loc l) (fun l => ibind (typ rec f loc r) (fun r =>
      if builtin (mt l) && ml l && negb (mc l) && implicit (decay r) (mt l) then Some l else None))
  | Dot e m => ibind (typ rec f loc e) (fun e => rec m e)
  | Make t e => ibind (typ rec f loc e) (fun e => if explicit (decay e) t then Some (ME t false false) else None)
  | Cast c t e => ibind (typ rec f loc e) (fun e =>
      match mt e, t with
      | P d (ListBase u), ListNode v | P d (TreeBase u), TreeNode v =>
          if implb d c && ty_eqb u v then Some (ME (P c t) false false) else None
      | _, _ => None
      end)
  | Let t e b => ibind (typ rec f loc e) (fun e => if explicit (decay e) t then typ rec f t b else None)
  | Seq a b => ibind (typ rec f loc a) (fun _ => typ rec f loc b)
  end.
(** [call n m e]: the type of e.m(), if it and all it calls (at most [n] deep) compile *)
Fixpoint call (n : nat) (m : fn) (e : mexpr) {struct n} : option mexpr :=
  match n with
  | O => None
  | S n =>
      ibind (choose (mc e) (methods (mt e) m)) (fun f =>
      ibind (typ (call n) f (I Void) (m_body f)) (fun b =>
      if converts b (m_ret f) then Some (given (m_ret f)) else None))
  end.

(** ** What the program writes *)
Definition outer (x : option mexpr) : option expr :=
  ibind x (fun e => match mt e with V t => Some (E t (mc e) (ml e)) | _ => None end).
(** Calls nest less than this deep *)
Definition deep : nat := 8.
(** iterator.hpp:38-70: what reverse_iterator asks of its iterator; only normal_iterator and pointers have an iterator_category
    (iterator.hpp:78; list.hpp:118-122, deque.hpp:14-23 and rb_tree.hpp:206-212, 251-257 do not name one) *)
Definition has_traits (t : ty) : option ty :=
  match t with Ptr c u => Some (RIt Arr c u) | It Vec c u => Some (RIt Vec c u) | _ => None end.
Definition step (m : use) (e : expr) : option expr :=
  let x := ME (V (type e)) (const e) (lvalue e) in
  match m with
  | Name c => Some (E (type e) c true)                     (* auto v = e; const auto v = e; *)
  | Reverse => ibind (has_traits (type e)) (fun t => Some (E t false false))   (* iterator.hpp:215 *)
  | _ =>
  match type e with
  | Pair a b => match m with First => Some (E a (const e) (lvalue e)) | Second => Some (E b (const e) (lvalue e)) | _ => None end   (* pair.hpp:43-44 *)
  | Ptr c t =>                                             (* built in *)
      match m with
      | Deref | Arrow | Index => Some (E t c true)
      | Plus | Minus => Some (E (Ptr c t) false false)
      | Incr | Decr => if lvalue e && negb (const e) then Some e else None
      | PostIncr | PostDecr => if lvalue e && negb (const e) then Some (E (Ptr c t) false false) else None
      | _ => None
      end
  | _ =>
      match m with
      | Arrow => outer (ibind (call deep (F Arrow) x) (fun p => ibind (pointee (mt p)) (fun ct => Some (ME (snd ct) (fst ct) true))))
      | _ => outer (call deep (F m) x)
      end
  end end.
(** model only: uses in a row *)
Fixpoint path (l : list use) (e : expr) : option expr :=
  match l with [] => Some e | m :: l => ibind (step m e) (path l) end.
