(** Random-access iterators: pointers into an array, normal_iterator (estl/iterator.hpp:72-198), reverse_iterator over it
    (estl/iterator.hpp:200-296), deque_iterator (estl/deque.hpp:12-98).
    A pointer into an array of [len] elements is its position; forming one outside 0..len is undefined. *)
From stdpp Require Import list.
From Coq Require Import ZArith.
From Verif Require Import Base DequeModel.
Local Open Scope Z_scope.
Local Open Scope outcome_scope.

(** The operations that move an iterator. *)
Inductive step := PreInc | PostInc | PreDec | PostDec | AddEq (n : Z) | SubEq (n : Z) | Plus (n : Z) | Minus (n : Z).
(** [Do s] evaluates [s] on the variable; [Set s] also assigns the value of the expression to the variable. *)
Inductive command := Do (s : step) | Set_ (s : step).

(** ** Pointers *)
Definition p_add (len p n : Z) : outcome Z := if (0 <=? p + n) && (p + n <=? len) then Ok (p + n) else UB.
(** C++: reading through a pointer into an array *)
Definition p_read {A} (l : list A) (p : Z) : outcome A := if p <? 0 then UB else of_option (l !! Z.to_nat p).

(** ** normal_iterator: 103-141. The value of the expression and M_current_ afterwards. *)
Definition n_exec (len : Z) (s : step) (p : Z) : outcome (Z * Z) :=
  match s with
  | PreInc => q <~ p_add len p 1 ; Ok (q, q)              (* 103-106 *)
  | PostInc => q <~ p_add len p 1 ; Ok (p, q)             (* 108-110 *)
  | PreDec => q <~ p_add len p (-1) ; Ok (q, q)           (* 112-115 *)
  | PostDec => q <~ p_add len p (-1) ; Ok (p, q)          (* 117-119 *)
  | AddEq n => q <~ p_add len p n ; Ok (q, q)             (* 125-128 *)
  | Plus n => q <~ p_add len p n ; Ok (q, p)              (* 130-132, 193-198 *)
  | SubEq n => q <~ p_add len p (- n) ; Ok (q, q)         (* 134-137 *)
  | Minus n => q <~ p_add len p (- n) ; Ok (q, p)         (* 139-141 *)
  end.
(** 95-101, 121-123: M_current_[n] is *(M_current_ + n) *)
Definition n_read {A} (l : list A) (p : Z) : outcome A := p_read l p.
(** as above, 95-101, 121-123 *)
Definition n_index {A} (l : list A) (p n : Z) : outcome A := q <~ p_add (Z.of_nat (length l)) p n ; p_read l q.
(** 151-191 *)
Definition n_eq (p q : Z) : bool := p =? q.
(** as above, 151-191 *)
Definition n_ne (p q : Z) : bool := negb (p =? q).
(** as above, 151-191 *)
Definition n_lt (p q : Z) : bool := p <? q.
(** as above, 151-191 *)
Definition n_le (p q : Z) : bool := p <=? q.
(** as above, 151-191 *)
Definition n_gt (p q : Z) : bool := q <? p.
(** as above, 151-191 *)
Definition n_ge (p q : Z) : bool := q <=? p.
(** as above, 151-191 *)
Definition n_diff (p q : Z) : Z := p - q.

(** ** reverse_iterator over a normal_iterator: current_ is its position *)
Definition r_exec (len : Z) (s : step) (p : Z) : outcome (Z * Z) :=
  match s with
  | PreInc => ' (_, q) <~ n_exec len PreDec p ; Ok (q, q)        (* 239-242 *)
  | PostInc => ' (_, q) <~ n_exec len PreDec p ; Ok (p, q)       (* 244-248 *)
  | PostDec => ' (_, q) <~ n_exec len PreInc p ; Ok (p, q)       (* 250-254 *)
  | PreDec => ' (_, q) <~ n_exec len PreInc p ; Ok (q, q)        (* 256-259 *)
  | Plus n => ' (v, _) <~ n_exec len (Minus n) p ; Ok (v, p)     (* 261-263 *)
  | AddEq n => ' (_, q) <~ n_exec len (SubEq n) p ; Ok (q, q)    (* 265-268 *)
  | Minus n => ' (v, _) <~ n_exec len (Plus n) p ; Ok (v, p)     (* 269-271 *)
  | SubEq n => ' (_, q) <~ n_exec len (AddEq n) p ; Ok (q, q)    (* 273-276 *)
  end.
(** 228-237: tmp = current_; *--tmp *)
Definition r_read {A} (l : list A) (p : Z) : outcome A := ' (v, _) <~ n_exec (Z.of_nat (length l)) PreDec p ; n_read l v.
(** 278-280 *)
Definition r_index {A} (l : list A) (p n : Z) : outcome A := ' (v, _) <~ r_exec (Z.of_nat (length l)) (Plus n) p ; r_read l v.

(** ** deque_iterator: index_ is an int64_t *)
(** conversion to int64_t *)
Definition s64 (x : Z) : Z := (x + 2 ^ 63) mod 2 ^ 64 - 2 ^ 63.
(** index_++ and index_-- are signed *)
Definition signed (x : Z) : outcome Z := if (- 2 ^ 63 <=? x) && (x <? 2 ^ 63) then Ok x else UB.
(** index_ += n and -= n with n of type size_t are computed without sign *)
Definition d_exec (s : step) (i : Z) : outcome (Z * Z) :=
  match s with
  | PreInc => j <~ signed (i + 1) ; Ok (j, j)              (* 46-49 *)
  | PostInc => j <~ signed (i + 1) ; Ok (i, j)             (* 51-55 *)
  | PreDec => j <~ signed (i - 1) ; Ok (j, j)              (* 57-60 *)
  | PostDec => j <~ signed (i - 1) ; Ok (i, j)             (* 61-65 *)
  | AddEq n => let j := s64 (w64 (w64 i + w64 n)) in Ok (j, j)     (* 67-70 *)
  | SubEq n => let j := s64 (w64 (w64 i - w64 n)) in Ok (j, j)     (* 71-74 *)
  | Plus n => let j := s64 (w64 (w64 i + w64 n)) in Ok (j, i)      (* 76-80 *)
  | Minus n => let j := s64 (w64 (w64 i - w64 n)) in Ok (j, i)     (* 81-85 *)
  end.
(** 24-25 with deque.hpp:206-220: begin() and end() *)
Definition d_begin (d : deq) : Z := s64 (dbegin d).
(** as above, 24-25; deque.hpp:206-220 *)
Definition d_end (d : deq) : Z := s64 (dend d).
(** 27-40: operator[] of the deque takes a size_t *)
Definition d_read {A} (i : Z) (d : deq) (m : ObjModel.mem (A + nat)) : outcome (option (A + nat)) := dget (w64 i) d m.
(** 42-44 *)
Definition d_diff (i j : Z) : outcome Z := signed (i - j).
(** 87-93, two iterators of the same deque *)
Definition d_eq (i j : Z) : bool := i =? j.

(** ** Programs over any of them *)
Definition act (exec : step -> Z -> outcome (Z * Z)) (c : command) (p : Z) : outcome Z :=
  match c with
  | Do s => ' (_, q) <~ exec s p ; Ok q
  | Set_ s => ' (v, _) <~ exec s p ; Ok v
  end.
(** model only: the operations of a program in order *)
Fixpoint acts (exec : step -> Z -> outcome (Z * Z)) (cs : list command) (p : Z) : outcome Z :=
  match cs with
  | [] => Ok p
  | c :: cs => q <~ act exec c p ; acts exec cs q
  end.
