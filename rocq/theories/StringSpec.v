(** What memmove, memcpy, strcpy and strlen are expected to do, stated address by address
    and without reference to the loops of the model. *)
From stdpp Require Import gmap.
Local Open Scope N_scope.

(** Every byte of [a, a+n) exists. *)
Definition mapped (m : gmap N N) (a n : N) : Prop :=
  forall i, i < n -> is_Some (m !! (a + i)).

(** [m'] is [m] with the n bytes at src (as they were in [m]) placed at dest,
    and every other address unchanged. *)
Definition moved (m : gmap N N) (dest src n : N) (m' : gmap N N) : Prop :=
  forall a, m' !! a = if (dest <=? a) && (a <? dest + n) then m !! (src + (a - dest)) else m !! a.

(** The ranges [a, a+n) and [b, b+k) have no address in common. *)
Definition disjoint_ranges (a n b k : N) : Prop := a + n <= b \/ b + k <= a.

(** A C string of [len] characters starts at [a]. *)
Definition cstring_at (m : gmap N N) (a len : N) : Prop :=
  m !! (a + len) = Some 0 /\
  forall i, i < len -> exists b, m !! (a + i) = Some b /\ b <> 0.
