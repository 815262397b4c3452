(** Concrete programs with iterators into sets and multisets. *)
From stdpp Require Import gmap list.
From Coq Require Import ZArith Lia.
From Verif Require Import Base RbModel RbSpec RbRun RbExamples RbIterModel RbIterSpec RbRefusedSpec.
Local Open Scope outcome_scope.

(** A multiset 1 3 3 5 7: iterator 0 at the first 3, iterator 1 at 7; both are kept while others come and go. *)
Definition build : list (icmd Z) := [IAdd 1%Z 9; IAdd 3%Z 0; IAdd 3%Z 8; IAdd 5%Z 7; IAdd 7%Z 1].
Definition change : list (icmd Z) := [IAdd 9%Z 2; IDelKey 1%Z; IDel 8 3; INext 3; IAdd 9%Z 4; IEnd 5; IPrev 5; IFind 5%Z 6; IUpper 7%Z 8; IAdd 9%Z 9].
Definition wview {A} (o : option (world A)) : option (list (nat * A) * list (option (option nat))) :=
  match o with Some w => Some (elts w, map (fun i => marks w !! i) (seq 0 10)) | None => None end.
Definition mview {A} (o : outcome (gmap nat loc * tree * heap A)) : outcome (list (nat * A) * list (option loc)) :=
  ' (e, T, s) <~ o ; l <~ forward 20 (hd T) s ; Ok (l, map (fun i => e !! i) (seq 0 10)).
Example kept_spec : wview (srun Z.ltb false (build ++ change) world0) =
  Some ([(2, 3%Z); (4, 5%Z); (5, 7%Z); (6, 9%Z); (7, 9%Z); (8, 9%Z)],
        [Some (Some 2); Some (Some 5); Some (Some 6); Some (Some 5); Some (Some 7); Some (Some 7); Some (Some 4); Some (Some 4); Some (Some 6); Some (Some 8)]).
Proof. vm_compute. reflexivity. Qed.
Example kept_model : mview (irun Z.ltb 20 false (build ++ change)) =
  Ok ([(2, 3%Z); (4, 5%Z); (5, 7%Z); (6, 9%Z); (7, 9%Z); (8, 9%Z)],
      [Some 2; Some 5; Some 6; Some 5; Some 7; Some 7; Some 4; Some 4; Some 6; Some 8]).
Proof. vm_compute. reflexivity. Qed.
Example kept_runs : match srun Z.ltb false build world0 with
  | Some w1 => marks w1 !! 0 = Some (Some 2) /\ In (2, 3%Z) (elts w1) /\ Forall (fun c => ~ sets c 0) change /\
      match srun Z.ltb false change w1 with Some w2 => In (2, 3%Z) (elts w2) | None => False end
  | None => False
  end.
Proof.
  split; [vm_compute; reflexivity|]. split; [vm_compute; auto|]. split; [|vm_compute; auto].
  unfold change. repeat constructor; cbn; lia.
Qed.
(** The element of iterator 8 was erased: using the iterator is undefined. *)
Definition dropped : list (icmd Z) := build ++ [IDelKey 3%Z].
Example dropped_spec : match srun Z.ltb false dropped world0 with
  | Some w => marks w !! 8 = Some (Some 3) /\ ~ In 3 (map fst (elts w))
  | None => False
  end.
Proof. split; [vm_compute; reflexivity|]. vm_compute. intros [?|[?|[?|[]]]]; lia. Qed.
Example dropped_model : mview (irun Z.ltb 20 false dropped) =
    Ok ([(1, 1%Z); (4, 5%Z); (5, 7%Z)], [Some 2; Some 5; None; None; None; None; None; Some 4; Some 3; Some 1]) /\
  mview (irun Z.ltb 20 false (dropped ++ [INext 8])) = UB.
Proof. vm_compute. auto. Qed.
(** Erasing through a good iterator need not end: a set of 3 2 1 0, iterator 0 at the 3 (compare C25). *)
Definition fours : list (icmd Z) := [IAdd 3%Z 0; IAdd 2%Z 1; IAdd 1%Z 2; IAdd 0%Z 3].
Definition four_env : gmap nat loc := <[3 := 4]> (<[2 := 3]> (<[1 := 2]> (<[0 := 1]> ∅))).
Lemma fours_run f : irun Z.ltb (6 + f) true fours = Ok (four_env, {| hd := 0; ct := 4 |}, four_heap).
Proof. vm_compute. reflexivity. Qed.
Lemma fours_hang : (exists w, srun Z.ltb true (fours ++ [IDel 0 4]) world0 = Some w /\ elts w = [(4, 0%Z); (3, 1%Z); (2, 2%Z)] /\ marks w !! 4 = Some None) /\
  forall fuel, 6 <= fuel -> irun Z.ltb fuel true (fours ++ [IDel 0 4]) = Fuel.
Proof.
  split.
  - eexists. split; [reflexivity|]. split; vm_compute; reflexivity.
  - intros fuel Hf. replace fuel with (6 + (fuel - 6)) by lia. generalize (fuel - 6) as f. clear fuel Hf. intros f.
    pose proof (fours_run f) as R. revert R. generalize (6 + f) as n. intros n R.
    unfold irun in *. destruct (tree_new no_heap) as [[T0 s0]| |]; cbn [obind] in *; try done.
    assert (forall cs1 cs2 st, isteps Z.ltb n true (cs1 ++ cs2) st = (st <~ isteps Z.ltb n true cs1 st ; isteps Z.ltb n true cs2 st)) as AP.
    { induction cs1 as [|c cs1 IH]; intros cs2 st; cbn [app isteps obind]; [done|]. destruct (istep Z.ltb n true c st); cbn [obind]; auto. }
    rewrite AP, R. cbn [obind isteps istep]. unfold iter. change (four_env !! 0) with (Some 1). cbn [of_option obind].
    by rewrite (proj2 (proj2 four_hangs) n).
Qed.
(** Inserting what is there already gives an iterator at the next element (compare C26). *)
Example dup_iter : match irun Z.ltb 20 true [IAdd 1%Z 0; IAdd 2%Z 1; IAdd 3%Z 2; IAdd 2%Z 3] with
  | Ok (e, T, s) => e !! 1 = Some 2 /\ e !! 3 = Some 3 /\ key 3 s = Ok 3%Z
  | _ => False
  end.
Proof. vm_compute. auto. Qed.

(** * the iterators of refused insertions *)
Definition again : list (icmd Z) := [IAdd 1 0; IAdd 2 1; IAdd 3 2; IAdd 2 3; IAdd 3 4]%Z.
Lemma again_runs :
  wview (srun2 Z.ltb true [false; false; false; true; false] again world0) =
    Some ([(1, 1%Z); (2, 2%Z); (3, 3%Z)], [Some (Some 1); Some (Some 2); Some (Some 3); Some (Some 3); Some (Some 3); None; None; None; None; None]) /\
  mview (irun Z.ltb 20 true again) = Ok ([(1, 1%Z); (2, 2%Z); (3, 3%Z)], [Some 1; Some 2; Some 3; Some 3; Some 3; None; None; None; None; None]).
Proof. split; vm_compute; reflexivity. Qed.
