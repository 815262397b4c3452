(** Model of estl/type_traits.hpp (26-652) and of forward and move (estl/utility.hpp:6-22) over the types of the language.
    A class template with partial specialisations is a function that tries the patterns of the specialisations on its argument.
    Simplified: the compiler's own predicates (__is_class and the like) are taken by their meaning; classes, unions and
    enumerations are numbered. *)
From stdpp Require Import list.
From Coq Require Import NArith.
Local Open Scope N_scope.

(** ** Types *)
Inductive basic :=
| Void | Bool | Char | SChar | UChar | WChar | Char16 | Char32 | Short | UShort | Int | UInt | Long | ULong | LLong | ULLong
| Float | Double | LDouble | NullPtr | Class (n : N) | Union (n : N) | Enum (n : N).
(** C++: qualifiers and types *)
Record quals := Q { is_c : bool; is_v : bool }.
(** C++: qualifiers and types *)
Definition none : quals := Q false false.
(** C++: qualifiers and types *)
Inductive refq := NoRef | LRef | RRef.
Inductive ty :=
| TBase (q : quals) (b : basic)
| TPtr (q : quals) (t : ty)
| TMem (q : quals) (t : ty) (cls : N)                       (* T C::* *)
| TLref (t : ty) | TRref (t : ty)
| TArr (t : ty) (n : option N)
| TFun (ret : ty) (args : list ty) (dots : bool) (q : quals) (r : refq) (noexc : bool).

(** The qualifiers of an array are those of its elements; references and functions have none. *)
Fixpoint quals_of (t : ty) : quals :=
  match t with TBase q _ | TPtr q _ | TMem q _ _ => q | TArr t _ => quals_of t | _ => none end.
(** C++: qualifiers and types *)
Fixpoint map_q (f : quals -> quals) (t : ty) : ty :=
  match t with
  | TBase q b => TBase (f q) b | TPtr q t => TPtr (f q) t | TMem q t c => TMem (f q) t c
  | TArr t n => TArr (map_q f t) n
  | _ => t
  end.
(** C++: qualifiers and types *)
Definition yes_c (q : quals) := Q true (is_v q).
(** C++: qualifiers and types *)
Definition yes_v (q : quals) := Q (is_c q) true.
(** C++: qualifiers and types *)
Definition no_c (q : quals) := Q false (is_v q).
(** C++: qualifiers and types *)
Definition no_v (q : quals) := Q (is_c q) false.
(** a function type with cv- or ref-qualifier: no pointer or reference to it can be formed *)
Definition abominable (t : ty) : bool :=
  match t with
  | TFun _ _ _ q r _ => is_c q || is_v q || match r with NoRef => false | _ => true end
  | _ => false
  end.
(** C++: qualifiers and types *)
Definition is_void_ty (t : ty) : bool := match t with TBase _ Void => true | _ => false end.
(** T&, T&& with reference collapsing, T*; [None]: ill-formed *)
Definition lref (t : ty) : option ty :=
  match t with
  | TLref u | TRref u => Some (TLref u)
  | _ => if is_void_ty t || abominable t then None else Some (TLref t)
  end.
(** C++: qualifiers and types *)
Definition rref (t : ty) : option ty :=
  match t with
  | TLref u => Some (TLref u) | TRref u => Some (TRref u)
  | _ => if is_void_ty t || abominable t then None else Some (TRref t)
  end.
(** C++: qualifiers and types *)
Definition ptr (t : ty) : option ty :=
  match t with TLref _ | TRref _ => None | _ => if abominable t then None else Some (TPtr none t) end.

(** ** Patterns *)
Definition as_const (t : ty) : option ty := if is_c (quals_of t) then Some (map_q no_c t) else None.          (* T const *)
Definition as_volatile (t : ty) : option ty := if is_v (quals_of t) then Some (map_q no_v t) else None.       (* T volatile *)
(** 26-99: the 24 specialisations of is_function. None has noexcept, which is part of the type in C++17. *)
Definition function_patterns : list (bool * quals * refq) :=
  [(false, none, NoRef); (false, none, LRef); (false, none, RRef); (true, none, NoRef); (true, none, LRef); (true, none, RRef);
   (false, Q true false, NoRef); (false, Q true false, LRef); (false, Q true false, RRef);
   (true, Q true false, NoRef); (true, Q true false, LRef); (true, Q true false, RRef);
   (false, Q false true, NoRef); (false, Q false true, LRef); (false, Q false true, RRef);
   (true, Q false true, NoRef); (true, Q false true, LRef); (true, Q false true, RRef);
   (false, Q true true, NoRef); (false, Q true true, LRef); (false, Q true true, RRef);
   (true, Q true true, NoRef); (true, Q true true, LRef); (true, Q true true, RRef)].
(** model only: equality test *)
Definition refq_eqb (a b : refq) : bool := match a, b with NoRef, NoRef | LRef, LRef | RRef, RRef => true | _, _ => false end.
(** one pattern of is_function fits (26-99) *)
Definition fits (t : ty) (p : bool * quals * refq) : bool :=
  match t with
  | TFun _ _ d q r e =>
      let '(d', q', r') := p in
      Bool.eqb d d' && Bool.eqb (is_c q) (is_c q') && Bool.eqb (is_v q) (is_v q') && refq_eqb r r' && negb e
  | _ => false
  end.
(** as above, 26-99 *)
Definition is_function (t : ty) : bool := existsb (fits t) function_patterns.
Definition is_const (t : ty) : bool := match as_const t with Some _ => true | None => false end.           (* 105-109 *)
Definition is_volatile (t : ty) : bool := match as_volatile t with Some _ => true | None => false end.     (* 115-119 *)
Definition remove_const (t : ty) : ty := match as_const t with Some u => u | None => t end.                (* 124-132 *)
Definition remove_volatile (t : ty) : ty := match as_volatile t with Some u => u | None => t end.          (* 138-146 *)
Definition remove_cv (t : ty) : ty := remove_const (remove_volatile t).                                    (* 152-155 *)
Definition remove_reference (t : ty) : ty := match t with TLref u => u | TRref u => u | _ => t end.        (* 160-173 *)
Definition add_const (t : ty) : ty := map_q yes_c t.                                                       (* 179-182 *)
Definition add_volatile (t : ty) : ty := map_q yes_v t.                                                    (* 187-190 *)
Definition add_cv (t : ty) : ty := add_volatile (add_const t).                                             (* 196-199 *)
Definition is_lvalue_reference (t : ty) : bool := match t with TLref _ => true | _ => false end.           (* 204-208 *)
Definition is_rvalue_reference (t : ty) : bool := match t with TRref _ => true | _ => false end.           (* 213-217 *)
Definition is_pointer (t : ty) : bool := match remove_cv t with TPtr q _ => negb (is_c q || is_v q) | _ => false end.  (* 231-238 *)
Definition is_array (t : ty) : bool := match t with TArr _ _ => true | _ => false end.                     (* 255-262 *)
(** 280-300 *)
Definition is_member_object_pointer (t : ty) : bool :=
  match remove_cv t with TMem q u _ => negb (is_c q || is_v q) && negb (is_function u) | _ => false end.
(** as above, 280-300 *)
Definition is_member_function_pointer (t : ty) : bool :=
  match remove_cv t with TMem q u _ => negb (is_c q || is_v q) && is_function u | _ => false end.
(** 332-353 *)
Definition add_rvalue_reference (t : ty) : option ty := if is_rvalue_reference t then Some t else rref t.
(** as above, 332-353 *)
Definition add_lvalue_reference (t : ty) : option ty := if is_lvalue_reference t then Some t else lref t.
Definition add_pointer (t : ty) : option ty := ptr (remove_reference t).                                   (* 358-361 *)
Definition remove_extent (t : ty) : ty := match t with TArr u _ => u | _ => t end.                         (* 366-379 *)
Fixpoint remove_all_extent (t : ty) : ty := match t with TArr u _ => remove_all_extent u | _ => t end.     (* 384-397 *)
(** 402-423; [None]: no specialisation or ill-formed *)
Definition decay (t : ty) : option ty :=
  let u := remove_reference t in
  match is_array u, is_function u with
  | false, false => Some (remove_cv u)
  | true, false => ptr (remove_extent u)
  | false, true => add_pointer u
  | true, true => None
  end.

(** ** Categories *)
(** 524-552 with type.hpp:4-21: the eight types named, after remove_cv *)
Definition plain_base (b : basic) (t : ty) : bool :=
  match t with TBase (Q false false) b' => match b, b' with
    | Void, Void | Char, Char | UChar, UChar | Short, Short | UShort, UShort | Int, Int | UInt, UInt | LLong, LLong | ULLong, ULLong
    | Float, Float | Double, Double | LDouble, LDouble => true | _, _ => false end
  | _ => false end.
(** as above, 524-552; type.hpp:4-21 *)
Definition is_integral (t : ty) : bool :=
  existsb (fun b => plain_base b (remove_cv t)) [Char; Short; Int; LLong; UChar; UShort; UInt; ULLong].
Definition is_float (t : ty) : bool := existsb (fun b => plain_base b (remove_cv t)) [Float; Double; LDouble].   (* 557-570 *)
Definition is_void (t : ty) : bool := plain_base Void (remove_cv t).                                             (* 575-582 *)
Definition is_enum (t : ty) : bool := match t with TBase _ (Enum _) => true | _ => false end.                    (* 507 *)
Definition is_class (t : ty) : bool := match t with TBase _ (Class _) => true | _ => false end.                  (* 510 *)
Definition is_union (t : ty) : bool := match t with TBase _ (Union _) => true | _ => false end.                  (* 513 *)

(** ** Logic: 431-468, over the values of the arguments *)
Fixpoint or_ (l : list bool) : bool :=
  match l with [] => false | [a] => a | a :: l => if a then a else or_ l end.
(** as above, 431-468 *)
Fixpoint and_ (l : list bool) : bool :=
  match l with [] => true | [a] => a | a :: l => if a then a else and_ l end.
(** as above, 431-468 *)
Definition not_ (b : bool) : bool := negb b.
Definition conjunction (l : list bool) : bool := and_ l.       (* 494-495 *)
Definition disconjunction (l : list bool) : bool := or_ l.     (* 497-498 *)

(** ** is_convertible: 470-477. [T(declval<A>())] with one argument is a cast in functional notation, which allows whatever a C-style
    cast does. Modelled for arithmetic types and pointers to objects or void. *)
Definition arithmetic (t : ty) : bool :=
  match t with TBase _ (Void | NullPtr | Class _ | Union _ | Enum _) => false | TBase _ _ => true | _ => false end.
(** C++: the cast T(a) *)
Definition integer (t : ty) : bool := arithmetic t && match t with TBase _ (Float | Double | LDouble) => false | _ => true end.
(** C++: the cast T(a) *)
Definition object_pointer (t : ty) : bool :=
  match t with TPtr _ (TFun _ _ _ _ _ _) => false | TPtr _ _ => true | _ => false end.
(** a pointer fits only into a type of 8 bytes *)
Definition eight_bytes (t : ty) : bool := match t with TBase _ (Long | ULong | LLong | ULLong) => true | _ => false end.
(** C++: the cast T(a) *)
Definition c_cast (to from : ty) : option bool :=
  if arithmetic to && arithmetic from then Some true
  else if object_pointer to && object_pointer from then Some true
  else if object_pointer to && arithmetic from then Some (integer from)
  else if arithmetic to && object_pointer from then Some (eight_bytes to || match to with TBase _ Bool => true | _ => false end)
  else None.
(** 470-477 *)
Definition is_convertible (T A : ty) : option bool := c_cast T A.

(** ** nth_type: 623-631, 651-652; [None]: no such type *)
Fixpoint nth_type_from (N0 I : N) (l : list ty) : option ty :=
  match l with
  | [] => None
  | t :: l => if N0 =? I then Some t else nth_type_from (N0 + 1) I l
  end.
(** as above, 623-631, 651-652 *)
Definition nth_type (I : N) (l : list ty) : option ty := nth_type_from 0 I l.

(** ** forward and move *)
(** An expression has a type without reference and a value category. *)
Inductive cat := LValue | XValue | PRValue.
(** the type and category of a call that returns [t] *)
Definition call_expr (t : ty) : ty * cat := match t with TLref u => (u, LValue) | TRref u => (u, XValue) | _ => (t, PRValue) end.
(** deduction of T for a parameter T&& (no cv): U& from an lvalue of type U, U from an rvalue *)
Definition deduce (e : ty * cat) : ty := match e with (u, LValue) => TLref u | (u, _) => u end.
(** utility.hpp:6-17: forward<T>(e); the second overload refuses lvalue references. [None]: does not compile. *)
Definition forward (T : ty) (e : ty * cat) : option (ty * cat) :=
  match snd e with
  | LValue => option_map call_expr (rref T)
  | _ => if is_lvalue_reference T then None else option_map call_expr (rref T)
  end.
(** utility.hpp:19-22: T deduced from the argument *)
Definition move (e : ty * cat) : option (ty * cat) := option_map call_expr (rref (remove_reference (deduce e))).

(** ** default_deleter<T> from default_deleter<U>: memory.hpp:17-18 *)
Definition deleter_converts (T U : ty) : option bool := is_convertible (TPtr none U) (TPtr none T).
