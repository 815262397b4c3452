(** C102: the members of the containers, iterators and pointers that lead to an element compile and show the element const
    exactly where the standard library does. *)
From Coq Require Import List Bool.
From Verif Require Import AccessSpec AccessModel AccessProofs AccessConst.
Import ListNotations.

(** Every program that goes from element to element, through containers nested in any way, compiles with estl if and only if it does with the
    standard library, and reaches the same type with the same constness, unless a step is one of those of [differs]. *)
Theorem C102_access : forall l e, exists_ (type e) = true -> usual l e -> path l e = std_path l e.
Proof. exact path_usual. Qed.
Print Assumptions C102_access.

(** Exactly what each of those steps does, for every element type *)
Theorem C102_exact : forall l e, exists_ (type e) = true -> path l e = estl_path l e.
Proof. exact path_exact. Qed.
Print Assumptions C102_exact.

(** An element of a container (however deep) is constant exactly if the container is, or if the program went into a set or through one of the two members that
    say const where they need not; so a constant cannot be written through, except by data() of a vector. *)
Theorem C102_const : forall l t c v e', plain t = true ->
  along copies l (E t c v) = false -> along leaks l (E t c v) = false ->
  path l (E t c v) = Some e' -> plain (type e') = true ->
  const e' = c || along locks l (E t c v).
Proof. exact const_exact. Qed.
Print Assumptions C102_const.

(** A constant queue and stack cannot be looked at, nor -> be used on an element of a constant list, nor data() of a constant array,
    nor a constant iterator of a set be dereferenced, nor a list be walked backwards by a reverse_iterator; for no element type *)
Theorem C102_compiles_refuted : forall t, exists_ t = true ->
  Forall (fun le => path (fst le) (snd le) = None /\ std_path (fst le) (snd le) <> None)
    [([Front], ref true (Cont Que t)); ([Top], ref true (Cont Stk t)); ([Begin; Arrow], ref true (Cont Lst t));
     ([Data; Deref], ref true (Cont Arr t)); ([Begin; Name true; Deref], ref false (Cont Set_ t));
     ([Begin; Name true; Plus; Deref], ref false (Cont Deq t)); ([End; Reverse; Deref], ref false (Cont Lst t));
     ([Back], ref false (Cont Que t))].
Proof. intros t R. repeat (constructor; [split; [rewrite path_exact by exact R; reflexivity|discriminate]|]). constructor. Qed.
Print Assumptions C102_compiles_refuted.

(** The elements of a constant vector can be written; those of an array that is not constant cannot be written through data(). *)
Theorem C102_data_refuted : forall t, exists_ t = true ->
  path [Data; Deref] (ref true (Cont Vec t)) = Some (ref false t) /\
  std_path [Data; Deref] (ref true (Cont Vec t)) = Some (ref true t) /\
  path [Data; Deref] (ref false (Cont Arr t)) = Some (ref true t) /\
  std_path [Data; Deref] (ref false (Cont Arr t)) = Some (ref false t).
Proof. intros t R. rewrite !path_exact by exact R. repeat split. Qed.
Print Assumptions C102_data_refuted.

(** A constant vector of lists of pairs of a number and a set of numbers: v[i].begin(), ++, * , .second.find(x), * *)
Example C102_access_ex :
  let t := Cont Vec (Cont Lst (Pair (Base 0) (Cont Set_ (Base 1)))) in
  let l := [Index; Begin; Name false; Incr; Deref; Second; Find; PostIncr; Deref] in
  exists_ t = true /\ usual l (ref true t) /\ path l (ref true t) = Some (ref true (Base 1)).
Proof. cbn [usual std_step type]. vm_compute. repeat split. Qed.
(** q.front()[2].back() of a queue of vectors of lists can be written *)
Example C102_const_ex :
  let t := Cont Que (Cont Vec (Cont Lst (Base 0))) in
  let l := [Front; Index; End; Decr; Deref] in
  plain t = true /\ along copies l (ref false t) = false /\ along leaks l (ref false t) = false /\
  path l (ref false t) = Some (ref false (Base 0)) /\ along locks l (ref false t) = false /\
  along locks [Front; Begin; Name true; Deref] (ref false (Cont Que (Cont Lst (Base 0)))) = true.
Proof. vm_compute. repeat split. Qed.
