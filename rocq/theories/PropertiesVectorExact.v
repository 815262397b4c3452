(** C09: what every history of vectors does. *)
From stdpp Require Import gmap list.
From Coq Require Import ZArith.
From Verif Require Import Base ObjModel VectorModel VectorSpec VectorExamples VectorExactSpec VectorExact VectorAgree VectorExactExamples.
Local Open Scope Z_scope.

(** Every history is decided: with unsigned sizes, iterators of the vector itself and arguments that are
    not elements, it leaves every vector as [xrun] says, or it is undefined. *)
Theorem C09_exact : forall (A : Type) (esz : Z) (dflt : A) (smk : bool) M cs,
  1 <= esz -> 2 * M * esz < 2 ^ 63 -> formed_run dflt smk M ∅ cs ->
  match xrun dflt smk ∅ cs with
  | Some s => exists e m, vrun esz dflt smk (∅, mem0) cs = Ok (e, m) /\ (forall x, s !! x = None <-> e !! x = None) /\
      forall x l v, s !! x = Some l -> e !! x = Some v -> xshows v m l
  | None => vrun esz dflt smk (∅, mem0) cs = UB
  end.
Proof. exact @xhistory. Qed.
Print Assumptions C09_exact.
(** erase(end()) takes the last element away; erase(p, p) empties what follows; a range whose end comes
    first is undefined, and so is erase(end()) on an empty vector. *)
Example C09_exact_case : formed_run 0 false 4 ∅ odd /\
  map_to_list <$> xrun 0 false ∅ odd = Some [(0%nat, [Some 1; None]); (1%nat, [Some 1; None; Some 9])] /\
  show (vrun 4 0 false (∅, mem0) odd) 1 = Ok [Some 1; None; Some 9].
Proof. exact odd_runs. Qed.
Example C09_undefined : formed_run 0 true 4 ∅ [CInit 0 [1; 2]; CEraseRange 0 2 1] /\
  vrun 4 0 true (∅, mem0) [CInit 0 [1; 2]; CEraseRange 0 2 1] = UB /\
  vrun 4 0 true (∅, mem0) [CNew 0; CErase 0 0] = UB /\ vrun 4 0 true (∅, mem0) [CSized 0 0; CPopBack 0] = UB.
Proof. exact undefined. Qed.

(** Where the history is right by the specification of C09, this is what it says. *)
Theorem C09_agree : forall (A : Type) (dflt : A) (smk : bool) M cs s,
  srun dflt smk ∅ cs = Some s -> within dflt smk M ∅ cs ->
  formed_run dflt smk M ∅ cs /\
  xrun dflt smk ∅ cs = Some ((fun l : list A => Some <$> l : list (option A)) <$> s : gmap nat (list (option A))).
Proof. exact @agree. Qed.
Print Assumptions C09_agree.
Example C09_agree_case : srun 0 false ∅ demo <> None /\ within 0 false 8 ∅ demo.
Proof. destruct demo_runs as (E & W & _). split; [rewrite E; discriminate|exact W]. Qed.
