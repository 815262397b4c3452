(** What invoke, function and make_tuple are expected to accept: the rules of INVOKE in the C++ standard, [func.require], and the
    plain sentence that a callable or a value may be handed over whether or not it has a name. Nothing of InvokeModel.v is used but the
    table of call operators and the name for expressions. *)
From stdpp Require Import list.
From Coq Require Import NArith.
From Verif Require Import TraitsModel InvokeModel.
Local Open Scope N_scope.

(** an object of that class can be called with parentheses *)
Definition callable_object (env : classes) (q : quals) (n : N) : Prop :=
  is_v q = false /\ (if is_c q then const_op env n = true else any_op env n = true).
(** f(args...) is meaningful for f of type [u]: a function, a pointer to one, a function object *)
Inductive callable (env : classes) : ty -> Prop :=
| call_function r l d q f e : callable env (TFun r l d q f e)
| call_pointer q r l d q' f e : callable env (TPtr q (TFun r l d q' f e))
| call_object q n : callable_object env q n -> callable env (TBase q (Class n)).
(** [o] is an object of class [n], or a pointer to one, with qualifiers [q] *)
Inductive designates : ty -> quals -> N -> Prop :=
| by_object q n : designates (TBase q (Class n)) q n
| by_pointer p q n : designates (TPtr p (TBase q (Class n))) q n.
Definition qualified_enough (fn obj : quals) : Prop := (is_c obj = true -> is_c fn = true) /\ (is_v obj = true -> is_v fn = true).
(** an rvalue-qualified member function needs an rvalue object, an lvalue-qualified one an lvalue; what a pointer points to is an lvalue *)
Definition category_fits (r : refq) (o : expr) : Prop :=
  match r with
  | NoRef => True
  | LRef => snd o = LValue \/ exists p t, fst o = TPtr p t
  | RRef => snd o <> LValue /\ forall p t, fst o <> TPtr p t
  end.
(** INVOKE(f, args...) *)
Inductive standard (env : classes) : expr -> list expr -> Prop :=
| inv_member_function q r l d qf rf e c k o qo args :
    designates (fst o) qo c -> qualified_enough qf qo -> category_fits rf o ->
    standard env (TMem q (TFun r l d qf rf e) c, k) (o :: args)
| inv_member_object q t c k o qo :
    (forall r l d qf rf e, t <> TFun r l d qf rf e) -> designates (fst o) qo c ->
    standard env (TMem q t c, k) [o]
| inv_call u k args : callable env u -> standard env (u, k) args.

(** The calls that the standard accepts and this invoke does not *)
Inductive trouble (env : classes) : expr -> list expr -> Prop :=
| named_member q t c args : trouble env (TMem q t c, LValue) args                     (* the pointer to member has a name *)
| data_member q t c k args : (forall r l d qf rf e, t <> TFun r l d qf rf e) -> trouble env (TMem q t c, k) args
| noexcept_member q r l d qf rf c k args : trouble env (TMem q (TFun r l d qf rf true) c, k) args
| rvalue_member q r l d qf e c k args : trouble env (TMem q (TFun r l d qf RRef e) c, k) args
(* the first argument is a nameless pointer to a data member or to a noexcept member function *)
| member_first u k q t c k' args :
    callable env u -> k' <> LValue -> (forall r l d qf rf, t <> TFun r l d qf rf false) ->
    trouble env (u, k) ((TMem q t c, k') :: args)
(* a nameless function object whose call operator is not const *)
| mutable_object q n k args : k <> LValue -> const_op env n = false -> trouble env (TBase q (Class n), k) args.

(** An expression has no reference type and is not void; only lvalues are functions; an abominable type is nobody's; the elements of an
    array are objects. *)
Definition expression (e : expr) : Prop :=
  (forall t, fst e <> TLref t) /\ (forall t, fst e <> TRref t) /\ is_void_ty (fst e) = false /\ abominable (fst e) = false /\
  (snd e <> LValue -> forall r l d q f x, fst e <> TFun r l d q f x) /\
  (forall t n, fst e = TArr t n -> (forall u, t <> TLref u) /\ (forall u, t <> TRref u) /\ forall r l d q f x, t <> TFun r l d q f x).
(** a class that is callable when const is callable *)
Definition sensible (env : classes) : Prop := forall n, const_op env n = true -> any_op env n = true.

(** What is accepted besides: calling what a pointer or an array of function objects or of pointers to functions begins with *)
Inductive through (env : classes) : ty -> Prop :=
| through_pointer p t : callable env t -> through env (TPtr p t)
| through_array t n : callable env t -> through env (TArr t n).
Inductive extension (env : classes) : expr -> list expr -> Prop :=
| ext_through u k args : through env u -> extension env (u, k) args
(* an lvalue-qualified member function on an object without a name *)
| ext_lvalue_member q r l d qf e c k o qo args :
    designates (fst o) qo c -> qualified_enough qf qo -> extension env (TMem q (TFun r l d qf LRef e) c, k) (o :: args).
