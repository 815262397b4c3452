(** Model of the comparison operators of estl: which expressions  x op y  compile in C++17, for operands that are
    variables, constants or temporaries, and what they answer.

    The rules of the language used are those for binding a parameter ([dcl.init.ref], [temp.deduct.call],
    [over.match.funcs] for the implied object), for the built-in operators reached by a conversion
    function ([over.built], [over.best.ics]), and that C++17 rewrites no  !=  into  ==  (kernel/Makefile:2).
    A body that does not compile makes the expression that uses it ill-formed. Simplified: both operands have the
    same type up to const, or one is nullptr; volatile is left out; characters are numbers, a
    string_view its characters (reading them is C35); pointers are compared as addresses. *)
From Coq Require Import ZArith NArith List Bool.
From Verif Require Import Base.
Import ListNotations.
Local Open Scope outcome_scope.

(** C++: the operators *)
Inductive op := Eq | Ne | Lt | Le | Gt | Ge.
(** The operand: const or not; a temporary or not. *)
Record arg := Arg { cst : bool; tmp : bool }.
(** model only: kinds of operands *)
Definition variable : arg := Arg false false.
(** model only: kinds of operands *)
Definition constant : arg := Arg true false.
(** model only: kinds of operands *)
Definition temporary : arg := Arg false true.

(** The types compared. [TPtr]: T* and integers are built in; [TBare]: the classes with no comparison
    (deque.hpp, stack.hpp, queue.hpp, set.hpp, tuple.hpp, array.hpp, bitset.hpp and weak_ptr, memory.hpp:662-727). *)
Inductive ty :=
| TInt | TPtr | TUniq | TShared | TAny | TFun | TAtom | TView
| TVecIt | TDeqIt | TListIt | TListCIt | TTreeIt | TTreeCIt
| TBare | TPair (a b : ty) | TVec (a : ty) | TList (a : ty) | TRev (a : ty).

(** A parameter: const X&; X&; the object of a const and of a non-const member. *)
Inductive par := ByCRef | ByRef | OnConst | OnAny.
(** C++: which operand binds to which parameter *)
Definition binds (p : par) (x : arg) : bool :=
  match p with
  | ByCRef | OnConst => true
  | ByRef => negb (cst x) && negb (tmp x)
  | OnAny => negb (cst x)
  end.

(** What an operator is: built in, reached through a conversion function, or declared, with two parameters; or none. *)
Inductive decl := None_ | Builtin | Converted | Declared (l r : par).
(** C++: the operators *)
Definition relational (o : op) : bool := match o with Eq | Ne => false | _ => true end.
Definition declares (t : ty) (o : op) : decl :=
  match t with
  | TInt | TPtr => Builtin
  | TUniq => Declared ByCRef ByCRef                                     (* memory.hpp:296-324 *)
  | TShared => Declared ByRef ByRef                                     (* memory.hpp:750-778 *)
  | TAny => Converted                                                   (* any.hpp:51-53, not explicit *)
  | TFun => Converted                                                   (* functional.hpp:144-146, not explicit *)
  | TAtom => Converted                                                  (* atomic.hpp:124-129 *)
  | TView => Declared ByCRef ByCRef                                     (* string_view.hpp:106-134 *)
  | TVecIt => Declared ByCRef ByCRef                                    (* iterator.hpp:151-185 *)
  | TDeqIt => if relational o then None_ else Declared OnAny ByCRef     (* deque.hpp:87-93 *)
  | TListIt => if relational o then None_ else Declared OnAny ByCRef    (* list.hpp:161-166 *)
  | TListCIt => if relational o then None_ else Declared OnAny ByCRef   (* list.hpp:217-222 *)
  | TTreeIt => if relational o then None_ else Declared OnConst ByCRef  (* rb_tree.hpp:245-250 *)
  | TTreeCIt => if relational o then None_ else Declared OnAny ByCRef   (* rb_tree.hpp:298-304 *)
  | TBare => None_
  | TPair _ _ => Declared ByCRef ByCRef                                 (* pair.hpp:45-73 *)
  | TVec _ => match o with Eq => Declared OnConst ByCRef | _ => None_ end (* vector.hpp:208-218 *)
  | TList _ => if relational o then None_ else Declared OnAny ByCRef    (* list.hpp:269-288 *)
  | TRev _ => Declared ByCRef ByCRef                                    (* iterator.hpp:298-370 *)
  end.

(** The expression compiles: the operator takes the operands, and so do the operators its body uses. *)
Fixpoint compiles (t : ty) (o : op) (x y : arg) : bool :=
  match declares t o with
  | None_ => false
  | Builtin => true
  | Converted => true      (* the conversion functions are const; the built-in operator takes promoted values *)
  | Declared l r =>
      binds l x && binds r y &&
      match t with
      | TPair a b =>
          let eq := compiles a Eq constant constant && compiles b Eq constant constant in
          let lt := compiles a Lt constant constant && compiles b Lt constant constant in
          match o with
          | Eq | Ne => eq                 (* 47, 62 *)
          | Lt | Gt | Ge => lt            (* 52, 67, 72 *)
          | Le => lt && eq                (* 57 *)
          end
      | TVec a => compiles a Ne variable constant     (* 213: data() const gives T*; rhs[i] is const *)
      | TList a => compiles a Ne variable constant    (* 277: begin() of this list, begin() const of the other *)
      | TRev a => compiles a o temporary temporary    (* iterator.hpp:224-226: base() returns a copy *)
      | _ => true                                     (* pointers and numbers *)
      end
  end.
(** x op nullptr  and  nullptr op x: memory.hpp:276-294, 730-748. *)
Definition compiles_null (t : ty) (o : op) : bool :=
  match t with TPtr | TUniq | TShared => negb (relational o) | _ => false end.

(** ** Values *)
Inductive val :=
| VInt (z : Z) | VAdr (a : N) | VBox (o : option val) | VChars (s : list Z) | VDeq (d : N) (i : Z)
| VPair (v w : val) | VSeq (l : list val).

(** C++: the built-in comparison *)
Definition zop (o : op) (x y : Z) : bool :=
  match o with Eq => x =? y | Ne => negb (x =? y) | Lt => x <? y | Le => x <=? y | Gt => y <? x | Ge => y <=? x end%Z.
(** the conversion to bool (any.hpp, functional.hpp, memory.hpp) *)
Definition presence (o : option val) : Z := match o with Some _ => 1 | None => 0 end.
(** string_view.hpp:78-94 *)
Fixpoint chars_compare (s t : list Z) : Z :=
  match s, t with
  | a :: s, b :: t => if (a <? b)%Z then (-1)%Z else if (b <? a)%Z then 1%Z else chars_compare s t
  | _, _ => 0%Z
  end.
(** as above, string_view.hpp:78-94 *)
Definition view_compare (s t : list Z) : Z :=
  if (length s <? length t)%nat then (-1)%Z else if (length t <? length s)%nat then 1%Z else chars_compare s t.
(** vector.hpp:209-217, list.hpp:270-284: the index is an int; what remains of both sequences. *)
Fixpoint seq_loop (ne : val -> val -> outcome bool) (i : Z) (l r : list val) : outcome bool :=
  match l, r with
  | v :: l, w :: r => b <~ ne v w; if b then Ok false else if (i + 1 <? 2 ^ 31)%Z then seq_loop ne (i + 1)%Z l r else UB
  | _, _ => Ok true
  end.
(** as above, vector.hpp:209-217; list.hpp:270-284 *)
Definition seq_eq (ne : val -> val -> outcome bool) (l r : list val) : outcome bool :=
  if (length l =? length r)%nat then seq_loop ne 0%Z l r else Ok false.

(** The answer of  v op w. Values of another type: [UB], does not happen. *)
Fixpoint answer (t : ty) (o : op) (v w : val) {struct t} : outcome bool :=
  match t with
  | TInt | TAtom => match v, w with VInt x, VInt y => Ok (zop o x y) | _, _ => UB end
  | TPtr | TUniq | TShared | TVecIt | TListIt | TListCIt | TTreeIt | TTreeCIt =>
      match v, w with VAdr x, VAdr y => Ok (zop o (Z.of_N x) (Z.of_N y)) | _, _ => UB end
  | TAny | TFun => match v, w with VBox x, VBox y => Ok (zop o (presence x) (presence y)) | _, _ => UB end
  | TView => match v, w with VChars s, VChars u => Ok (zop o (view_compare s u) 0) | _, _ => UB end
  | TDeqIt =>
      match v, w with
      | VDeq d i, VDeq e j => let b := ((d =? e)%N && (i =? j)%Z)%bool in
          match o with Eq => Ok b | Ne => Ok (negb b) | _ => UB end
      | _, _ => UB
      end
  | TBare => UB
  | TPair a b =>
      match v, w with
      | VPair v1 v2, VPair w1 w2 =>
          let eq := c <~ answer a Eq v1 w1; if c then answer b Eq v2 w2 else Ok false in
          let lt := c <~ answer a Lt v1 w1; if c then answer a Lt v1 w1 else answer b Lt v2 w2 in
          let gt := c <~ answer a Lt w1 v1; if c then answer a Lt w1 v1 else answer b Lt w2 v2 in
          match o with
          | Eq => eq
          | Ne => c <~ eq; Ok (negb c)
          | Lt => lt
          | Le => c <~ lt; if c then Ok true else eq
          | Gt => gt
          | Ge => c <~ lt; Ok (negb c)
          end
      | _, _ => UB
      end
  | TVec a => match v, w, o with VSeq l, VSeq r, Eq => seq_eq (answer a Ne) l r | _, _, _ => UB end
  | TList a =>
      match v, w, o with
      | VSeq l, VSeq r, Eq => seq_eq (answer a Ne) l r
      | VSeq l, VSeq r, Ne => b <~ seq_eq (answer a Ne) l r; Ok (negb b)
      | _, _, _ => UB
      end
  | TRev a => answer a o v w
  end.
(** With nullptr: the stored pointer is compared with pointer(). *)
Definition answer_null (o : op) (v : val) : outcome bool :=
  match v, o with
  | VAdr a, Eq => Ok (a =? 0)%N
  | VAdr a, Ne => Ok (negb (a =? 0)%N)
  | _, _ => UB
  end.

(** A set can be filled with elements of the type. less<T> (utility.hpp:134-139) compares two constants. The key of a
    pair is its first member (rb_tree.hpp:100-109, type_traits.hpp:657-664), which rb_tree::get_key (917-922) has to
    return as a reference to a pair: no pair is made from one member, so that does not compile. *)
Definition pair_type (t : ty) : bool := match t with TPair _ _ => true | _ => false end.
(** as above, utility.hpp:134-139 *)
Definition can_be_key (t : ty) : bool := compiles t Lt constant constant && negb (pair_type t).
