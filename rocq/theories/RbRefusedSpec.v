(** What programs with iterators into a set do when the iterator of a refused insertion is used: it designates
    the equal element or, [late], the next one (or the end behind the last). *)
From stdpp Require Import gmap list.
From Coq Require Import ZArith.
From Verif Require Import Base RbModel RbSpec RbIterModel RbIterSpec.

Section spec.
Context {A : Type} (lt : A -> A -> bool).
Notation seq := (list (nat * A)).

Fixpoint answer (late : bool) (v : A) (l : seq) : option nat :=
  match l with
  | [] => None
  | p :: l => if same lt v (snd p) then (if late then fst <$> head l else Some (fst p)) else answer late v l
  end.
(** [sstep] (RbIterSpec.v) but for the refused insertion *)
Definition sstep2 (u late : bool) (c : icmd A) (w : world A) : option (world A) :=
  match c with
  | IAdd v j =>
      if u && existsb (same lt v) (elts w).*2 then
        Some {| elts := elts w; marks := <[j := answer late v (elts w)]> (marks w); born := S (born w) |}
      else sstep lt u c w
  | _ => sstep lt u c w
  end.
Definition next_late (ls : list bool) : bool := match ls with b :: _ => b | [] => false end.
(** [ls]: which answers are late, one for each command *)
Fixpoint srun2 (u : bool) (ls : list bool) (cs : list (icmd A)) (w : world A) : option (world A) :=
  match cs with [] => Some w | c :: cs => w ← sstep2 u (next_late ls) c w; srun2 u (tail ls) cs w end.
Fixpoint iappending2 (u : bool) (ls : list bool) (cs : list (icmd A)) (w : world A) : Prop :=
  match cs with
  | [] => True
  | c :: cs =>
      match c with IAdd v _ => forall p, In p (elts w) -> lt v (snd p) = false | _ => True end /\
      match sstep2 u (next_late ls) c w with Some w => iappending2 u (tail ls) cs w | None => True end
  end.
End spec.
