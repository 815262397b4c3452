(** Model of the comparison operators of estl/pair.hpp (lines 45-73), of
    estl/string_view.hpp (lines 7-134) and of reverse iterators, estl/iterator.hpp:200-332. *)
From stdpp Require Import gmap.
From Coq Require Import ZArith.
From Verif Require Import Base.
Local Open Scope Z_scope.
Local Open Scope outcome_scope.

(** ** pair.hpp.  The component types come with their own < and == . *)
Section pair.
  Context {A B : Type} (lt1 eq1 : A -> A -> bool) (lt2 eq2 : B -> B -> bool).

  (** pair.hpp:45-48 *)
  Definition pair_eq (x y : A * B) : bool := eq1 x.1 y.1 && eq2 x.2 y.2.
  (** pair.hpp:50-53 *)
  Definition pair_lt (x y : A * B) : bool :=
    if lt1 x.1 y.1 then lt1 x.1 y.1 else lt2 x.2 y.2.
  (** pair.hpp:55-58 *)
  Definition pair_le (x y : A * B) : bool := pair_lt x y || pair_eq x y.
  (** pair.hpp:60-63 *)
  Definition pair_ne (x y : A * B) : bool := negb (pair_eq x y).
  (** pair.hpp:65-68 *)
  Definition pair_gt (x y : A * B) : bool := pair_lt y x.
  (** pair.hpp:70-73 *)
  Definition pair_ge (x y : A * B) : bool := negb (pair_lt x y).
End pair.

(** ** string_view.hpp.  A view is a start address and a length; characters are the
    (signed or unsigned) integer values of T stored in memory, one per address.
    Reading an address that holds no character is undefined. *)
Notation chars := (gmap N Z) (only parsing).
(** string_view.hpp:100-101 *)
Record view := { sv_data : N; sv_size : N }.

(** string_view.hpp:50-56 *)
Definition sv_at (m : chars) (v : view) (pos : N) : outcome Z := of_option (m !! (sv_data v + pos)%N).

(** string_view.hpp:69-71; size_ - pos is computed in size_t; the pointer sum is not wrapped. *)
Definition sv_substr (v : view) (pos len : N) : view :=
  let rest := Z.to_N ((Z.of_N (sv_size v) - Z.of_N pos) mod 2 ^ 64) in
  {| sv_data := (sv_data v + pos)%N; sv_size := if (rest <? len)%N then rest else len |}.
(** string_view.hpp:97 *)
Definition npos : N := (2 ^ 64 - 1)%N.

(** string_view.hpp:85-92: [k] characters remain, [i] is the loop index. *)
Fixpoint compare_loop (k : nat) (i : N) (m : chars) (x y : view) : outcome Z :=
  match k with
  | O => Ok 0
  | S k' =>
      a <~ sv_at m x i;
      b <~ sv_at m y i;
      if a <? b then Ok (-1)
      else if b <? a then Ok 1
      else compare_loop k' (i + 1)%N m x y
  end.
(** string_view.hpp:78-94 *)
Definition sv_compare (m : chars) (x y : view) : outcome Z :=
  if (sv_size x <? sv_size y)%N then Ok (-1)
  else if (sv_size y <? sv_size x)%N then Ok 1
  else compare_loop (N.to_nat (sv_size x)) 0 m x y.
(** string_view.hpp:106-134 *)
Definition sv_eq (m : chars) (x y : view) : outcome bool := omap (fun c => c =? 0) (sv_compare m x y).
(** as above, string_view.hpp:106-134 *)
Definition sv_ne (m : chars) (x y : view) : outcome bool := omap (fun c => negb (c =? 0)) (sv_compare m x y).
(** as above, string_view.hpp:106-134 *)
Definition sv_lt (m : chars) (x y : view) : outcome bool := omap (fun c => c <? 0) (sv_compare m x y).
(** as above, string_view.hpp:106-134 *)
Definition sv_gt (m : chars) (x y : view) : outcome bool := omap (fun c => 0 <? c) (sv_compare m x y).
(** as above, string_view.hpp:106-134 *)
Definition sv_le (m : chars) (x y : view) : outcome bool := omap (fun c => c <=? 0) (sv_compare m x y).
(** as above, string_view.hpp:106-134 *)
Definition sv_ge (m : chars) (x y : view) : outcome bool := omap (fun c => 0 <=? c) (sv_compare m x y).

(** ** iterator.hpp.  A random-access position in a sequence is an index; a reverse iterator
    holds the index [current_] of the element behind the one it designates. *)
Record riter := { current : Z }.

(** Dereferencing a forward position: undefined outside the sequence. *)
Definition deref {A} (l : list A) (i : Z) : outcome A :=
  if i <? 0 then UB else of_option (l !! Z.to_nat i).

(** iterator.hpp:228-231 *)
Definition r_deref {A} (l : list A) (r : riter) : outcome A := deref l (current r - 1).
(** iterator.hpp:239-242; decrementing the first position is undefined *)
Definition r_incr (r : riter) : outcome riter :=
  if current r <=? 0 then UB else Ok {| current := current r - 1 |}.
(** iterator.hpp:256-259; [n] is the length of the sequence *)
Definition r_decr (n : Z) (r : riter) : outcome riter :=
  if n <=? current r then UB else Ok {| current := current r + 1 |}.
(** iterator.hpp:261-271; 278-280 *)
Definition r_plus (r : riter) (n : Z) : riter := {| current := current r - n |}.
(** as above, iterator.hpp:261-271; 278-280 *)
Definition r_minus (r : riter) (n : Z) : riter := {| current := current r + n |}.
(** as above, iterator.hpp:261-271; 278-280 *)
Definition r_index {A} (l : list A) (r : riter) (n : Z) : outcome A := r_deref l (r_plus r n).
(** The reverse iterators made from end() and begin() by iterator.hpp:215; no container of estl
    defines rbegin itself. *)
Definition r_begin {A} (l : list A) : riter := {| current := Z.of_nat (length l) |}.
(** iterator.hpp:215 *)
Definition r_end {A} (l : list A) : riter := {| current := 0 |}.
(** iterator.hpp:298-370 *)
Definition r_eq (x y : riter) : bool := current x =? current y.
(** as above, iterator.hpp:298-370 *)
Definition r_ne (x y : riter) : bool := negb (current x =? current y).
(** as above, iterator.hpp:298-370 *)
Definition r_lt (x y : riter) : bool := current x <? current y.
(** as above, iterator.hpp:298-370 *)
Definition r_le (x y : riter) : bool := current x <=? current y.
(** as above, iterator.hpp:298-370 *)
Definition r_gt (x y : riter) : bool := current y <? current x.
(** as above, iterator.hpp:298-370 *)
Definition r_ge (x y : riter) : bool := current y <=? current x.

(** The usual loop: for (r = rbegin; r != rend; ++r) visit *r; *)
Fixpoint r_walk {A} (fuel : nat) (l : list A) (r : riter) : outcome (list A) :=
  if r_ne r (r_end l) then
    match fuel with
    | O => Fuel
    | S f => x <~ r_deref l r; r' <~ r_incr r; xs <~ r_walk f l r'; Ok (x :: xs)
    end
  else Ok [].
