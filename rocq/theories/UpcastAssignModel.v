(** Model of p = e for smart pointers: estl/memory.hpp:123-132, 173, 588-604, 709-712; arguments as in UpcastModel.v. *)
From stdpp Require Import list.
From Coq Require Import NArith.
From Verif Require Import TraitsModel UpcastModel.
Local Open Scope N_scope.

(** The parameter is of the class itself, so the argument must convert implicitly. *)
Definition by_parameter (h : hierarchy) (s : source) (t : target) : verdict := converts h false s t.
(** 123-127: unique_ptr&&; 129-132: nullptr_t; 173: const unique_ptr&, deleted *)
Definition unique_assign (h : hierarchy) (s : source) (T : obj) : verdict :=
  match s with
  | SNull => Compiles
  | _ => by_parameter h s (PUnique T)
  end.
(** 588-591; 601-604: nullptr_t; 593-599 fits better for another shared_ptr whose pointee has T as a base: reset, then ptr_ = rhs.ptr_ *)
Definition shared_assign (h : hierarchy) (s : source) (T : obj) : verdict :=
  match s with
  | SNull => Compiles
  | SShared U _ =>
      if same_type T U then by_parameter h s (PShared T)
      else if is_base_of h T U then if ptr_converts h U T then Compiles else HardError
      else by_parameter h s (PShared T)
  | _ => by_parameter h s (PShared T)
  end.
(** 709-712 *)
Definition weak_assign (h : hierarchy) (s : source) (T : obj) : verdict := by_parameter h s (PWeak T).
(** p = e *)
Definition assigns (h : hierarchy) (s : source) (t : target) : verdict :=
  match t with PUnique T => unique_assign h s T | PShared T => shared_assign h s T | PWeak T => weak_assign h s T end.
