(** Model of estl/bitset.hpp (lines 7-57).

    [data_] is a list of 64-bit words.  bit_mask (lines 43-45) shifts the int literal 1:
    a shift by 32 or more is undefined; a shift by 31 gives INT_MIN (as gcc defines it),
    which becomes 0xffffffff80000000 when converted to uint64_t.
    The number of positions is not near 2^64 (line 13 does not wrap). *)
From stdpp Require Import list.
From Coq Require Import NArith.
From Verif Require Import Base.
Local Open Scope N_scope.
Local Open Scope outcome_scope.

(** bitset.hpp:13 *)
Definition words (n : N) : N := (n + 64 - 1) / 64.

(** bitset.hpp:39-41 *)
Definition type_offset (pos : N) : nat := N.to_nat (pos / 64).

(** bitset.hpp:43-45 *)
Definition bit_mask (pos : N) : outcome N :=
  let k := pos mod 64 in
  if k <? 31 then Ok (2 ^ k)
  else if k =? 31 then Ok (2 ^ 64 - 2 ^ 31)
  else UB.

(** bitset.hpp:17-25: every word becomes full or empty. *)
Definition bs_reset (data : list N) (flag : bool) : list N :=
  map (fun _ => if flag then 2 ^ 64 - 1 else 0) data.
(** bitset.hpp:12-25: an array of words, then reset *)
Definition bs_make (n : N) (flag : bool) : list N :=
  bs_reset (replicate (N.to_nat (words n)) 0) flag.

(** bitset.hpp:27-29 *)
Definition bs_set (data : list N) (pos : N) : outcome (list N) :=
  w <~ of_option (data !! type_offset pos);
  m <~ bit_mask pos;
  Ok (<[type_offset pos := N.lor w m]> data).

(** bitset.hpp:31-33; ~ is taken in 64 bits. *)
Definition bs_clear (data : list N) (pos : N) : outcome (list N) :=
  w <~ of_option (data !! type_offset pos);
  m <~ bit_mask pos;
  Ok (<[type_offset pos := N.land w (N.lnot m 64)]> data).

(** bitset.hpp:35-37 and 47-49 *)
Definition bs_test (data : list N) (pos : N) : outcome bool :=
  w <~ of_option (data !! type_offset pos);
  m <~ bit_mask pos;
  Ok (negb (N.land w m =? 0)).

(** bitset.hpp:51-53 *)
Definition bs_count (n : N) : N := n.

(** model only: the operations a program may use *)
Inductive bs_op := BSet (pos : N) | BClear (pos : N) | BReset (flag : bool).

(** model only: one operation of a program *)
Definition bs_step (data : list N) (o : bs_op) : outcome (list N) :=
  match o with
  | BSet p => bs_set data p
  | BClear p => bs_clear data p
  | BReset f => Ok (bs_reset data f)
  end.
(** model only: the operations of a program in order *)
Fixpoint bs_run (data : list N) (os : list bs_op) : outcome (list N) :=
  match os with
  | [] => Ok data
  | o :: os' => d <~ bs_step data o; bs_run d os'
  end.
