(** C19: what every program over lists and iterators does. *)
From stdpp Require Import gmap list.
From Coq Require Import ZArith.
From Verif Require Import Base ListModel ListSpec ListExactSpec ListExact ListExactExamples.
Local Open Scope Z_scope.

(** Every program is decided, as long as no iterator is used with a list while it stands in another and
    no list is made from or swapped with itself: it leaves every list as [xrun] says, with exactly those
    elements in memory, or it is undefined. *)
Theorem C19_exact : forall (A : Type) (cs : list (lcmd A)),
  formed_run world0 cs = true ->
  match xrun world0 cs with
  | Some w => exists e s, lrun true (∅, heap0) cs = Ok (e, s) /\
      (forall x l, seqs w !! x = Some l -> shows true s x (snd <$> l)) /\
      (forall x, seqs w !! x = None -> sizes s !! x = None) /\
      (forall i, is_Some (cells s !! N i) <-> exists x l d, seqs w !! x = Some l /\ (i, d) ∈ l)
  | None => lrun true (∅, heap0) cs = UB
  end.
Proof. exact @xhistory. Qed.
Print Assumptions C19_exact.
(** Round the ring: ++ of the end is the beginning, -- of the beginning the end. *)
Example C19_exact_case : formed_run world0 ring_ok = true /\
  match xrun world0 ring_ok with Some w => option_map (map snd) (seqs w !! 2%nat) | None => None end = Some [11; 11; 30] /\
  srun world0 ring_ok = None /\ seen (lrun true (∅, heap0) ring_ok) 2 = Ok [11; 11; 30].
Proof. exact ring_runs. Qed.
(** An erased element, the end, a range the wrong way round, a list that is gone. *)
Example C19_undefined : forallb (formed_run world0) wrongs = true /\
  Forall (fun cs => xrun world0 cs = None /\ seen (lrun true (∅, heap0) cs) 1 = UB) wrongs.
Proof. exact wrongs_undefined. Qed.

(** Where the program is right by the specification of C19, this is what it says. *)
Theorem C19_agree : forall (A : Type) (cs : list (lcmd A)) w w', srun w cs = Some w' -> xrun w cs = Some w'.
Proof. exact @agree. Qed.
Print Assumptions C19_agree.
Example C19_agree_case : srun world0 [LInit 1 [1; 2]; LBegin 0 1; LNext 0 1; LErase 1 0 0] <> None.
Proof. vm_compute. discriminate. Qed.

(** An iterator of another list is not noticed: the element goes where the iterator stands, the size of
    the other list changes. *)
Theorem C19_alien_refuted : exists cs : list (lcmd Z), xrun world0 cs = None /\
  exists e s, lrun true (∅, heap0) cs = Ok (e, s) /\ forward true 10 1 s = Ok [5; 10] /\ size 1 s = Ok 1 /\
    forward true 10 2 s = Ok [20] /\ size 2 s = Ok 2.
Proof. exact (ex_intro _ alien (proj2 alien_runs)). Qed.
Print Assumptions C19_alien_refuted.
