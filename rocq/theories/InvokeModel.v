(** Model of invoke, of function's wrapper and of make_tuple as the compiler sees them (estl/functional.hpp:6-127,
    estl/tuple.hpp:36-60, 83-130, 182-185): which specialisation is chosen and whether the code in it compiles.
    The types are those of TraitsModel.v. Simplified: an argument is taken to fit the parameter it is passed to, so what is decided is
    whether the callee can be called at all; classes have no bases and no conversions to a pointer; volatile call operators do not exist. *)
From stdpp Require Import list.
From Coq Require Import NArith.
From Verif Require Import TraitsModel.
Local Open Scope N_scope.

(** The call operators of the classes: [any_op n], class [n] has one; [const_op n], one that is const. *)
Record classes := Classes { any_op : N -> bool; const_op : N -> bool }.
(** model only: type and value category *)
Definition expr : Type := ty * cat.

(** ** What the language allows *)
(** an object of class [n] with qualifiers [q] can be called *)
Definition class_call (env : classes) (q : quals) (n : N) : bool :=
  negb (is_v q) && (if is_c q then const_op env n else any_op env n).
(** e(args...) for an lvalue e of type [t] *)
Definition call_ok (env : classes) (t : ty) : bool :=
  match t with
  | TFun _ _ _ _ _ _ => true
  | TPtr _ (TFun _ _ _ _ _ _) => true
  | TBase q (Class n) => class_call env q n
  | _ => false
  end.
(** the call of what e points to: ( *e)(args...) *)
Definition deref_call_ok (env : classes) (t : ty) : bool :=
  match t with
  | TFun _ _ _ _ _ _ => true
  | TPtr _ t | TArr t _ => call_ok env t
  | _ => false
  end.
(** the object: (obj.*fn)(...) or (obj->*fn)(...) for an lvalue obj of type [o] and fn of type [t] *)
Definition object_of (o : ty) : option (quals * N) :=
  match o with TBase q (Class n) | TPtr _ (TBase q (Class n)) => Some (q, n) | _ => None end.
(** C++: a member function may be called for the object *)
Definition covers (fn obj : quals) : bool := implb (is_c obj) (is_c fn) && implb (is_v obj) (is_v fn).
(** C++: a member function may be called for the object *)
Definition member_call_ok (t o : ty) : bool :=
  match t, object_of o with
  | TMem _ (TFun _ _ _ q r _) c, Some (qo, n) => (c =? n) && covers q qo && match r with RRef => false | _ => true end
  | _, _ => false
  end.

(** ** invoke *)
Inductive how := Plain | Deref | Member.
(** functional.hpp:7-20: the specialisation is chosen when decay_t<Fn> exists and is a pointer *)
Definition invoke_function (Fn : ty) : how :=
  match decay Fn with Some t => if is_pointer t then Deref else Plain | None => Plain end.
(** 36-43 *)
Definition invoke_helper (Fn T : ty) : how :=
  match is_member_function_pointer Fn, is_member_object_pointer T with
  | false, false => invoke_function Fn
  | _, _ => Member
  end.
(** 45-52 *)
Definition invoke_impl (Fn : ty) (Args : list ty) : how :=
  match Args with [] => invoke_function Fn | T :: _ => invoke_helper Fn T end.
(** the parameter fn of call: [const Fn&] in 10 and 17, [Fn&&] with its own deduction in 24 and 30; as an expression it is an lvalue *)
Definition const_param (Fn : ty) : option ty := option_map remove_reference (lref (add_const Fn)).
(** 54-57; [Some false]: the chosen function does not compile; [None]: the declaration itself is ill-formed.
    In [Member] the first argument is named obj, an lvalue, whatever was passed. *)
Definition invoke_how (f : expr) (args : list expr) : how := invoke_impl (deduce f) (map deduce args).
(** as above, 54-57 *)
Definition invoke (env : classes) (f : expr) (args : list expr) : bool :=
  match invoke_how f args with
  | Plain => match const_param (deduce f) with Some t => call_ok env t | None => false end
  | Deref => match const_param (deduce f) with Some t => deref_call_ok env t | None => false end
  | Member => match args with a :: _ => member_call_ok (fst f) (fst a) | [] => false end
  end.

(** ** A class with the two constructors X(const T&) and X(T&&) *)
(** functional.hpp:81-85 and tuple.hpp:41-43: the parameter types after reference collapsing. Two constructors with the same parameter
    type are a redeclaration, which no class may contain. *)
Definition two_constructors (T : ty) : option (ty * ty) :=
  match lref (add_const T), rref T with Some a, Some b => Some (a, b) | _, _ => None end.
(** model only: equality test *)
Definition quals_eqb (a b : quals) : bool := Bool.eqb (is_c a) (is_c b) && Bool.eqb (is_v a) (is_v b).
(** the same type *)
Definition refq_same (a b : refq) : bool := match a, b with NoRef, NoRef | LRef, LRef | RRef, RRef => true | _, _ => false end.
(** model only: equality test *)
Definition basic_same (a b : basic) : bool :=
  match a, b with
  | Class m, Class n | Union m, Union n | Enum m, Enum n => m =? n
  | Void, Void | Bool, Bool | Char, Char | SChar, SChar | UChar, UChar | WChar, WChar | Char16, Char16 | Char32, Char32
  | Short, Short | UShort, UShort | Int, Int | UInt, UInt | Long, Long | ULong, ULong | LLong, LLong | ULLong, ULLong
  | Float, Float | Double, Double | LDouble, LDouble | NullPtr, NullPtr => true
  | _, _ => false
  end.
(** model only: equality test *)
Fixpoint same_type (a b : ty) {struct a} : bool :=
  match a, b with
  | TBase q b, TBase q' b' => quals_eqb q q' && basic_same b b'
  | TPtr q t, TPtr q' t' => quals_eqb q q' && same_type t t'
  | TMem q t c, TMem q' t' c' => quals_eqb q q' && same_type t t' && (c =? c')
  | TLref t, TLref t' | TRref t, TRref t' => same_type t t'
  | TArr t n, TArr t' n' => same_type t t' && match n, n' with None, None => true | Some m, Some m' => m =? m' | _, _ => false end
  | TFun r l d q f e, TFun r' l' d' q' f' e' =>
      same_type r r' &&
      (fix same l l' := match l, l' with [], [] => true | x :: l, y :: l' => same_type x y && same l l' | _, _ => false end) l l' &&
      Bool.eqb d d' && quals_eqb q q' && refq_same f f' && Bool.eqb e e'
  | _, _ => false
  end.
(** the two constructors of functional.hpp:81-85 and tuple.hpp:41-43 can be declared side by side *)
Definition declares (T : ty) : bool :=
  match two_constructors T with Some (a, b) => negb (same_type a b) | None => false end.

(** ** function<R(Args...)>(Fn&& f): functional.hpp:113-115 *)
(** function_helper<Fn, R, Args...> is instantiated with its virtual operator() (93-95): f_ is a member of type Fn, the arguments are
    [const Args&] and so lvalues *)
Definition named (A : ty) : expr := (remove_reference (add_const A), LValue).
(** as above, 93-95 *)
Definition function_from (env : classes) (f : expr) (Args : list ty) : bool :=
  let Fn := deduce f in
  declares Fn && invoke env (remove_reference Fn, LValue) (map named Args).
(** 125-127: operator() const calls invoke(impl_, args...); impl_ is a pointer to the class interface, numbered [n] here; the arguments are named *)
Definition function_call (env : classes) (n : N) (Args : list ty) : bool :=
  invoke env (TPtr (Q true false) (TBase none (Class n)), LValue) (map (fun A => (remove_reference A, LValue)) Args).

(** ** make_tuple: tuple.hpp:182-185 *)
(** tuple<Args...> contains a tuple_value<I, T> for each T of Args; the specialisation for empty classes (62-81) is not chosen for a reference
    and declares only one of the two constructors *)
Definition tuple_value (empty : N -> bool) (T : ty) : bool :=
  match T with
  | TBase _ (Class n) => if empty n then true else declares T
  | _ => declares T
  end.
(** as above, 62-81 *)
Definition make_tuple (empty : N -> bool) (args : list expr) : bool := forallb (fun e => tuple_value empty (deduce e)) args.

(** ** apply: 59-68: invoke(fn, get<I>(t)...) with fn and t named; the elements are lvalues, const when the tuple is *)
Definition apply (env : classes) (f : expr) (const_tuple : bool) (Ts : list ty) : bool :=
  invoke env (fst f, LValue) (map (fun T => (remove_reference (if const_tuple then add_const T else T), LValue)) Ts).
