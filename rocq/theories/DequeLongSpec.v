(** Histories of any length over deques and queues that fit into storage. *)
From stdpp Require Import gmap list.
From Coq Require Import ZArith.
From Verif Require Import DequeModel DequeSpec.

Section long.
Context {A : Type}.
(** Before every command that can be given, no deque has so many elements or blocks that the command could bring
    2^31 of them about. *)
Definition within (cs : list (dcmd A)) : Prop :=
  forall n s c, srun ∅ (take n cs) = Some s -> cs !! n = Some c ->
    (Z.of_nat (adds c) + 2 < 2 ^ 31)%Z /\
    forall x q, s !! x = Some q -> (Z.of_nat (len q + adds c) + 2 < 2 ^ 31 /\ Z.of_nat (room q + adds c) + 2 < 2 ^ 31)%Z.

(** For every queue the number of elements pushed since it was last empty. A copy has had its elements pushed. *)
Definition count (ls : gmap nat (list A)) (x : nat) : nat := default 0 (length <$> ls !! x).
Definition since (ks : gmap nat nat) (x : nat) : nat := default 0 (ks !! x).
Definition qsince (ks : gmap nat nat) (ls : gmap nat (list A)) (c : qcmd A) : gmap nat nat :=
  match c with
  | QNew x => <[x := 0]> ks
  | QCopy x y | QAssign x y => <[x := count ls y]> ks
  | QMove x y => <[x := since ks y]> (<[y := 0]> ks)
  | QDestroy x => delete x ks
  | QPush x _ => <[x := S (since ks x)]> ks
  | QPop x => <[x := if Nat.eqb (count ls x) 1 then 0 else since ks x]> ks
  | QSwap x y => <[y := since ks x]> (<[x := since ks y]> ks)
  end.
(** No queue ever gets more than [P] elements without being empty in between. *)
Fixpoint qwithin (P : nat) (ks : gmap nat nat) (ls : gmap nat (list A)) (cs : list (qcmd A)) : Prop :=
  match cs with
  | [] => True
  | c :: cs' => forall ls', qspec ls c = Some ls' ->
      (forall x k, qsince ks ls c !! x = Some k -> k <= P) /\ qwithin P (qsince ks ls c) ls' cs'
  end.
End long.
