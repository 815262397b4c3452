(** Model of unique_ptr<T[]> and default_deleter<T[]>: estl/memory.hpp:27-48, 179-264, 271-274; types as in UpcastModel.v.
    Simplified: default deleters; an array is given by the type of its elements. *)
From stdpp Require Import list.
From Coq Require Import NArith.
From Verif Require Import TraitsModel UpcastModel.
Local Open Scope N_scope.

(** What is handed to the constructor: nullptr, what new U[n] yields, or another unique_ptr<U[]>. *)
Inductive asource := ANull | ANew (U : obj) | AUnique (U : obj) (rvalue : bool).
(** [direct]: unique_ptr<T[]> p(e), otherwise unique_ptr<T[]> p = e; 188-189 is explicit, 196-197 moves, 259 is deleted *)
Definition array_converts (h : hierarchy) (direct : bool) (s : asource) (T : obj) : bool :=
  match s with
  | ANull => direct
  | ANew U => direct && ptr_converts h U T
  | AUnique U rv => rv && same_type T U
  end.
(** C++: delete[] through a pointer to [S] of an array whose elements were created as [U]; qualifiers do not matter *)
Definition delete_array (S U : obj) : bool := same_basic (ob S) (ob U).
(** 43-47, called from 199-204 with the T* that is stored: U is deduced as T, so the array is deleted as one of T.
    [elems]: the type the elements were created with; nothing if the pointer is null. [false]: undefined. *)
Definition destroy (T : obj) (elems : option obj) : bool :=
  match elems with None => true | Some U => delete_array T U end.
(** The array that is held afterwards. *)
Definition holds (s : asource) : option obj := match s with ANull => None | ANew U => Some U | AUnique U _ => Some U end.
Inductive array_verdict := Rejected | Undefined | Fine.
(** { unique_ptr<T[]> p(e); } or { unique_ptr<T[]> p = e; } *)
Definition array_life (h : hierarchy) (direct : bool) (s : asource) (T : obj) : array_verdict :=
  if array_converts h direct s T then if destroy T (holds s) then Fine else Undefined else Rejected.
(** 271-274: make_unique<T[]>(n) is such an owner of new T[n]() *)
Definition make_array (h : hierarchy) (T : obj) : array_verdict := array_life h true (ANew T) T.
