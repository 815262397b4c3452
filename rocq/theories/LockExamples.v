(** Cases for LockSpec.v. *)
From stdpp Require Import list list_numbers.
From Coq Require Import ZArith.
From Verif Require Import Base ThreadsModel ThreadsSpec LockSpec.

(** The handles of thread 0 come and go while thread 1 is inside lock(), after its exchange. *)
Definition busy : list (nat * action) :=
  [(0, CopyWS); (0, GiveW 1); (1, LockW); (1, Go); (0, CopyS); (1, Go); (0, DropS); (0, DropS); (1, Deref)].
Lemma busy_runs : honest (fun _ => 0) busy (fresh 1) = true /\ undisturbed busy (fresh 1) = false /\
  match sched busy (fresh 1) with Some (Ok w) => alive w = true /\ shared_handles w = 1 /\ sc w = 1%Z | _ => False end.
Proof. vm_compute. repeat split. Qed.
(** A lock that counts nothing, and one that counts twice. *)
Definition short : list (nat * action) := [(0, CopyWS); (0, GiveW 1); (1, LockW); (0, CopyS); (1, Go)].
Definition long : list (nat * action) := [(0, CopyS); (0, CopyWS); (0, GiveW 1); (1, LockW); (1, Go); (0, DropS); (1, Go); (1, Go)].
Lemma short_long : drift short (fresh 1) = (-1)%Z /\ drift long (fresh 1) = 1%Z /\
  match sched short (fresh 1) with Some (Ok w) => shared_handles w = 3 /\ sc w = 2%Z | _ => False end /\
  match sched long (fresh 1) with Some (Ok w) => shared_handles w = 2 /\ sc w = 3%Z | _ => False end.
Proof. vm_compute. repeat split. Qed.
