(** What the type traits should say: the standard's wording, independent of the templates. *)
From stdpp Require Import list.
From Coq Require Import NArith.
From Verif Require Import TraitsModel.
Local Open Scope N_scope.

(** [u] is [t] with its top-level qualifiers changed as [R] says; for an array those of its elements; nothing for references and functions *)
Inductive requalified (R : quals -> quals -> Prop) : ty -> ty -> Prop :=
| rq_base q q' b : R q q' -> requalified R (TBase q b) (TBase q' b)
| rq_ptr q q' t : R q q' -> requalified R (TPtr q t) (TPtr q' t)
| rq_mem q q' t c : R q q' -> requalified R (TMem q t c) (TMem q' t c)
| rq_arr t u n : requalified R t u -> requalified R (TArr t n) (TArr u n)
| rq_lref t : requalified R (TLref t) (TLref t)
| rq_rref t : requalified R (TRref t) (TRref t)
| rq_fun r a d q f e : requalified R (TFun r a d q f e) (TFun r a d q f e).
Definition drops (c v : bool) (q q' : quals) : Prop :=
  is_c q' = (if c then false else is_c q) /\ is_v q' = (if v then false else is_v q).
Definition adds (c v : bool) (q q' : quals) : Prop :=
  is_c q' = (if c then true else is_c q) /\ is_v q' = (if v then true else is_v q).

Definition referred (t : ty) : ty := match t with TLref u | TRref u => u | _ => t end.
(** types that references and pointers can be made to *)
Definition referenceable (t : ty) : Prop :=
  match referred t with
  | TBase _ Void => False
  | TFun _ _ _ q r _ => q = none /\ r = NoRef
  | _ => True
  end.
Definition pointable (t : ty) : Prop := match referred t with TLref _ | TRref _ => False | TFun _ _ _ q r _ => q = none /\ r = NoRef | _ => True end.

(** the type of a by-value parameter initialised from a [t] *)
Inductive by_value : ty -> ty -> Prop :=
| bv_base q b : by_value (TBase q b) (TBase none b)
| bv_ptr q t : by_value (TPtr q t) (TPtr none t)
| bv_mem q t c : by_value (TMem q t c) (TMem none t c)
| bv_arr t n : by_value (TArr t n) (TPtr none t)
| bv_fun r a d e : by_value (TFun r a d none NoRef e) (TPtr none (TFun r a d none NoRef e)).
Definition decays (t u : ty) : Prop := by_value (referred t) u.
Definition noexcept_function (t : ty) : Prop := match t with TFun _ _ _ _ _ true => True | _ => False end.

(** the primary categories of the standard *)
Inductive category :=
| CVoid | CNull | CIntegral | CFloat | CArray | CEnum | CUnion | CClass | CFunction | CPointer | CLref | CRref | CMemObj | CMemFun.
Definition category_of (t : ty) : category :=
  match t with
  | TBase _ Void => CVoid | TBase _ NullPtr => CNull
  | TBase _ (Float | Double | LDouble) => CFloat
  | TBase _ (Enum _) => CEnum | TBase _ (Union _) => CUnion | TBase _ (Class _) => CClass
  | TBase _ _ => CIntegral
  | TPtr _ _ => CPointer
  | TMem _ (TFun _ _ _ _ _ _) _ => CMemFun | TMem _ _ _ => CMemObj
  | TLref _ => CLref | TRref _ => CRref | TArr _ _ => CArray | TFun _ _ _ _ _ _ => CFunction
  end.
(** the trait of each category *)
Definition trait (c : category) : ty -> bool :=
  match c with
  | CVoid => is_void | CNull => fun _ => false | CIntegral => is_integral | CFloat => is_float | CArray => is_array | CEnum => is_enum
  | CUnion => is_union | CClass => is_class | CFunction => is_function | CPointer => is_pointer | CLref => is_lvalue_reference
  | CRref => is_rvalue_reference | CMemObj => is_member_object_pointer | CMemFun => is_member_function_pointer
  end.
(** the types the header has forgotten *)
Definition forgotten (t : ty) : Prop :=
  match t with
  | TBase _ (Bool | SChar | WChar | Char16 | Char32 | Long | ULong | NullPtr) => True
  | TFun _ _ _ _ _ true => True
  | TMem _ (TFun _ _ _ _ _ true) _ => True
  | _ => False
  end.

(** implicit conversions of the language, for arithmetic types and object pointers; [derived a b]: class [a] is derived from class [b] *)
Definition more_qualified (q q' : quals) : Prop := (is_c q = true -> is_c q' = true) /\ (is_v q = true -> is_v q' = true).
Inductive implicit (derived : N -> N -> Prop) : ty -> ty -> Prop :=
| im_arith t u : arithmetic t = true -> arithmetic u = true -> implicit derived t u
| im_qual p q t u : requalified more_qualified t u -> object_pointer (TPtr p t) = true -> implicit derived (TPtr p t) (TPtr q u)
| im_void p q t q' : more_qualified (quals_of t) q' -> object_pointer (TPtr p t) = true -> implicit derived (TPtr p t) (TPtr q (TBase q' Void))
| im_base p q a b q0 q1 : derived a b -> more_qualified q0 q1 -> implicit derived (TPtr p (TBase q0 (Class a))) (TPtr q (TBase q1 (Class b))).

(** casts of the language between the same types: static_cast for numbers, reinterpret_cast for pointers and numbers (a pointer has 8 bytes and is not
    narrowed, and goes into no floating type), and the test for null *)
Definition integer_bytes (b : basic) : option N :=
  match b with
  | Bool | Char | SChar | UChar => Some 1 | Char16 | Short | UShort => Some 2 | WChar | Char32 | Int | UInt => Some 4
  | Long | ULong | LLong | ULLong => Some 8
  | _ => None
  end.
Inductive castable : ty -> ty -> Prop :=
| ca_arith t u : arithmetic t = true -> arithmetic u = true -> castable t u
| ca_pointer t u : object_pointer t = true -> object_pointer u = true -> castable t u
| ca_to_pointer q b n u : integer_bytes b = Some n -> object_pointer u = true -> castable (TBase q b) u
| ca_from_pointer t q b n : object_pointer t = true -> integer_bytes b = Some n -> 8 <= n -> castable t (TBase q b)
| ca_null t q : object_pointer t = true -> castable t (TBase q Bool).
Definition number_or_pointer (t : ty) : Prop := arithmetic t = true \/ object_pointer t = true.

(** an expression whose type can be referred to (expressions never have reference type) *)
Definition proper (e : ty * cat) : Prop := match fst e with TLref _ | TRref _ => False | _ => referenceable (fst e) end.
