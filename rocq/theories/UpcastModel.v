(** Model of the conversions between the smart pointers: the constructors of unique_ptr, shared_ptr and weak_ptr of one argument,
    estl/memory.hpp:91-114, 546-586, 653-655, 671-695.
    Simplified: default deleters (those convert as their pointers do, 10-19, and the tuple that keeps them adds nothing), pointees that are not arrays; an argument is given by its kind, pointee and value category.
    When several constructors can be called the one overload resolution takes comes first. *)
From stdpp Require Import list.
From Coq Require Import NArith.
From Verif Require Import TraitsModel.
Local Open Scope N_scope.

(** a complete object type: qualifiers and a basic type other than void *)
Record obj := Obj { oq : quals; ob : basic }.
(** the classes of a program: [base a b], class [a] is a base of class [b] in any way; [reach a b], moreover a public and unambiguous one *)
Record hierarchy := { base : N -> N -> bool; reach : N -> N -> bool }.

(** type_traits.hpp:599-603: __is_base_of; qualifiers do not matter, every class is its own base, other types have none *)
Definition is_base_of (h : hierarchy) (T U : obj) : bool :=
  match ob T, ob U with Class a, Class b => (a =? b) || base h a b | _, _ => false end.
(** the implicit conversion of U* to T* (language) *)
Definition same_basic (a b : basic) : bool :=
  match a, b with
  | Class x, Class y | Union x, Union y | Enum x, Enum y => x =? y
  | Bool, Bool | Char, Char | SChar, SChar | UChar, UChar | WChar, WChar | Char16, Char16 | Char32, Char32 | Short, Short | UShort, UShort
  | Int, Int | UInt, UInt | Long, Long | ULong, ULong | LLong, LLong | ULLong, ULLong | Float, Float | Double, Double | LDouble, LDouble
  | NullPtr, NullPtr | Void, Void => true
  | _, _ => false
  end.
(** C++: U* converts to T* *)
Definition ptr_converts (h : hierarchy) (U T : obj) : bool :=
  (negb (is_c (oq U)) || is_c (oq T)) && (negb (is_v (oq U)) || is_v (oq T)) &&
  (same_basic (ob U) (ob T) || match ob U, ob T with Class a, Class b => reach h b a | _, _ => false end).
(** model only: equality test *)
Definition same_type (T U : obj) : bool :=
  Bool.eqb (is_c (oq T)) (is_c (oq U)) && Bool.eqb (is_v (oq T)) (is_v (oq U)) && same_basic (ob T) (ob U).

Inductive source :=
| SNull                                    (* nullptr *)
| SRaw (U : obj)                           (* U* *)
| SUnique (U : obj) (rvalue : bool)        (* unique_ptr<U>, a temporary or a variable *)
| SShared (U : obj) (rvalue : bool)
| SWeak (U : obj) (rvalue : bool).
(** model only: what is made *)
Inductive target := PUnique (T : obj) | PShared (T : obj) | PWeak (T : obj).
(** What becomes of a constructor that is called: the body compiles, does not, or the constructor may not be used. *)
Inductive call := Good | Bad | Private | Deleted.
(** a constructor that can be called with the argument *)
Record cand := Cand { explicit_ : bool; outcome_ : call }.
(** model only: whether the body compiles *)
Definition body (ok : bool) : call := if ok then Good else Bad.

Definition unique_ctors (h : hierarchy) (T : obj) (s : source) : list cand :=
  match s with
  | SNull => [Cand true Good]                                                                   (* 99-100 *)
  | SRaw U => if ptr_converts h U T then [Cand true Good] else []                               (* 99-100 *)
  | SUnique U rv =>
      if same_type T U then [Cand false (if rv then Good else Deleted)]                         (* 113-114 *)
      else if rv && is_base_of h T U then [Cand false (body (ptr_converts h U T))] else []      (* 109-111 *)
  | _ => []
  end.
Definition shared_ctors (h : hierarchy) (T : obj) (s : source) : list cand :=
  match s with
  | SNull => [Cand false Good]                                                                  (* 564-568 *)
  | SRaw U =>
      if same_type T U then [Cand false Good]                                                   (* 564-568 is more special *)
      else if is_base_of h T U then [Cand false (body (ptr_converts h U T))]                    (* 570-576 *)
      else if ptr_converts h U T then [Cand false Good] else []                                 (* 564-568 *)
  | SShared U _ =>
      if same_type T U then [Cand false Good]                                                   (* 556-562 *)
      else if is_base_of h T U then [Cand false (body (ptr_converts h U T))] else []            (* 578-586 *)
  | SWeak U _ => if same_type T U then [Cand false Private] else []                             (* 653-655 *)
  | SUnique _ _ => []
  end.
(** the conversion to a parameter shared_ptr<T> const&: not by explicit constructors *)
Definition implicitly (cs : list cand) : option call :=
  match List.filter (fun c => negb (explicit_ c)) cs with c :: _ => Some (outcome_ c) | [] => None end.
(** [direct]: weak_ptr<T> w(e), otherwise weak_ptr<T> w = e, which allows only one user-defined conversion *)
Definition weak_ctors (h : hierarchy) (T : obj) (s : source) (direct : bool) : list cand :=
  match s with
  | SWeak U _ => if same_type T U then [Cand false Good] else []                                (* 681-687 *)
  | SShared U _ =>
      if same_type T U then [Cand false Good]                                                   (* 689-691 *)
      else if is_base_of h T U then [Cand false (body (ptr_converts h U T))] else []            (* 693-695 *)
  | SUnique _ _ => []
  | _ => if direct then match implicitly (shared_ctors h T s) with Some o => [Cand false o] | None => [] end else []   (* 689-691 with a temporary shared_ptr *)
  end.
(** model only: the candidates of each class *)
Definition ctors (h : hierarchy) (t : target) (s : source) (direct : bool) : list cand :=
  match t with PUnique T => unique_ctors h T s | PShared T => shared_ctors h T s | PWeak T => weak_ctors h T s direct end.

(** model only: what the compiler says *)
Inductive verdict := NoConversion | Compiles | HardError.
(** P<T> p(e) if [direct], P<T> p = e otherwise *)
Definition converts (h : hierarchy) (direct : bool) (s : source) (t : target) : verdict :=
  let cs := ctors h t s direct in
  match (if direct then match cs with c :: _ => Some (outcome_ c) | [] => None end else implicitly cs) with
  | None => NoConversion
  | Some Good => Compiles
  | Some (Deleted | Private) => NoConversion
  | Some Bad => HardError
  end.
