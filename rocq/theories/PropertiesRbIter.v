(** C100: iterators into set and multiset. [lt] is any strict weak order, [u] tells set from multiset, and the
    bound on loops is any number above the number of insertions. *)
From stdpp Require Import gmap list.
From Coq Require Import ZArith.
From Verif Require Import Base RbModel RbSpec RbRun RbThms2 RbExamples RbIterModel RbIterSpec RbIter RbIterExamples RbRefusedSpec RbRefused.

(** C100, full statement: the first alternative always. What is missing: an erasure may not end, but
    only where an element was inserted elsewhere than at the end (C24, C25). *)
Theorem C100_exact_partial : forall A (lt : A -> A -> bool), weak_order lt -> forall fuel u cs w,
  srun lt u cs world0 = Some w -> iadds cs < fuel ->
  (exists e T s, irun lt fuel u cs = Ok (e, T, s) /\
     forward fuel (hd T) s = Ok (elts w) /\ backward fuel (hd T) s = Ok (rev (elts w)) /\ ct T = Z.of_nat (length (elts w)) /\
     (forall i, marks w !! i = Some None -> e !! i = Some (hd T)) /\
     (forall i k v, marks w !! i = Some (Some k) -> In (k, v) (elts w) -> e !! i = Some k /\ k <> hd T /\ key k s = Ok v)) \/
  (irun lt fuel u cs = Fuel /\ forallb is_iadd cs = false /\ ~ iappending lt u cs world0).
Proof. exact @iter_exact. Qed.
Print Assumptions C100_exact_partial.
Example C100_exact_example : weak_order Z.ltb /\ iadds (build ++ change) < 20 /\
  wview (srun Z.ltb false (build ++ change) world0) =
    Some ([(2, 3%Z); (4, 5%Z); (5, 7%Z); (6, 9%Z); (7, 9%Z); (8, 9%Z)],
          [Some (Some 2); Some (Some 5); Some (Some 6); Some (Some 5); Some (Some 7); Some (Some 7); Some (Some 4); Some (Some 4); Some (Some 6); Some (Some 8)]) /\
  mview (irun Z.ltb 20 false (build ++ change)) =
    Ok ([(2, 3%Z); (4, 5%Z); (5, 7%Z); (6, 9%Z); (7, 9%Z); (8, 9%Z)],
        [Some 2; Some 5; Some 6; Some 5; Some 7; Some 7; Some 4; Some 4; Some 6; Some 8]).
Proof. split; [exact Z_order|]. split; [vm_compute; repeat constructor|]. split; [exact kept_spec|exact kept_model]. Qed.

(** C100. Whatever else happens to the set, an iterator stays at its element, and the element keeps its
    value, until the element is erased; without erasures, always. *)
Theorem C100_stays : forall A (lt : A -> A -> bool), weak_order lt -> forall fuel u cs1 cs2 w1 w2 i k v e T s,
  srun lt u cs1 world0 = Some w1 -> srun lt u cs2 w1 = Some w2 ->
  marks w1 !! i = Some (Some k) -> In (k, v) (elts w1) -> Forall (fun c => ~ sets c i) cs2 -> iadds (cs1 ++ cs2) < fuel ->
  irun lt fuel u (cs1 ++ cs2) = Ok (e, T, s) ->
  e !! i = Some k /\
  (In (k, v) (elts w2) /\ key k s = Ok v \/
   ~ In k (map fst (elts w2)) /\ cells s !! k = None /\ existsb erases cs2 = true).
Proof. exact @iter_stays. Qed.
Print Assumptions C100_stays.
Example C100_stays_example : match srun Z.ltb false build world0 with
  | Some w1 => marks w1 !! 0 = Some (Some 2) /\ In (2, 3%Z) (elts w1) /\ Forall (fun c => ~ sets c 0) change /\
      match srun Z.ltb false change w1 with Some w2 => In (2, 3%Z) (elts w2) | None => False end
  | None => False
  end.
Proof. exact kept_runs. Qed.

(** C100. An iterator whose element was erased cannot be read, moved or erased through. *)
Theorem C100_stale : forall A (lt : A -> A -> bool), weak_order lt -> forall fuel u cs w i k c e T s,
  srun lt u cs world0 = Some w -> marks w !! i = Some (Some k) -> ~ In k (map fst (elts w)) ->
  iadds cs < fuel -> irun lt fuel u cs = Ok (e, T, s) ->
  e !! i = Some k /\ key k s = UB /\ (uses c i -> irun lt fuel u (cs ++ [c]) = UB).
Proof. exact @iter_stale. Qed.
Print Assumptions C100_stale.
Example C100_stale_example : match srun Z.ltb false dropped world0 with
  | Some w => marks w !! 8 = Some (Some 3) /\ ~ In 3 (map fst (elts w))
  | None => False
  end.
Proof. exact dropped_spec. Qed.
Example C100_stale_example_runs : mview (irun Z.ltb 20 false dropped) =
    Ok ([(1, 1%Z); (4, 5%Z); (5, 7%Z)], [Some 2; Some 5; None; None; None; None; None; Some 4; Some 3; Some 1]) /\
  mview (irun Z.ltb 20 false (dropped ++ [INext 8])) = UB.
Proof. exact dropped_model. Qed.

(** C100 without the second alternative is false: a set of 3, 2, 1, 0 and erase of the iterator to 3. *)
Theorem C100_hang_refuted :
  (exists w, srun Z.ltb true (fours ++ [IDel 0 4]) world0 = Some w /\ elts w = [(4, 0%Z); (3, 1%Z); (2, 2%Z)] /\ marks w !! 4 = Some None) /\
  forall fuel, 6 <= fuel -> irun Z.ltb fuel true (fours ++ [IDel 0 4]) = Fuel.
Proof. exact fours_hang. Qed.
Print Assumptions C100_hang_refuted.

(** C100 when the iterators of refused insertions are used too (C100_exact_partial leaves them unset): for each program there
    are answers, equal element or next one, with which it does what the specification says, after every prefix. *)
Theorem C100_refused : forall A (lt : A -> A -> bool), weak_order lt -> forall fuel u cs, iadds cs < fuel ->
  exists ls, forall n w, srun2 lt u ls (take n cs) world0 = Some w ->
  (exists e T s, irun lt fuel u (take n cs) = Ok (e, T, s) /\
     forward fuel (hd T) s = Ok (elts w) /\ backward fuel (hd T) s = Ok (rev (elts w)) /\ ct T = Z.of_nat (length (elts w)) /\
     (forall i, marks w !! i = Some None -> e !! i = Some (hd T)) /\
     (forall i k v, marks w !! i = Some (Some k) -> In (k, v) (elts w) -> e !! i = Some k /\ k <> hd T /\ key k s = Ok v)) \/
  (irun lt fuel u (take n cs) = Fuel /\ forallb is_iadd (take n cs) = false /\ ~ iappending2 lt u ls (take n cs) world0).
Proof. exact @iter_refused. Qed.
Print Assumptions C100_refused.
Example C100_refused_example : weak_order Z.ltb /\ iadds again < 20 /\
  wview (srun2 Z.ltb true [false; false; false; true; false] again world0) =
    Some ([(1, 1%Z); (2, 2%Z); (3, 3%Z)], [Some (Some 1); Some (Some 2); Some (Some 3); Some (Some 3); Some (Some 3); None; None; None; None; None]) /\
  mview (irun Z.ltb 20 true again) = Ok ([(1, 1%Z); (2, 2%Z); (3, 3%Z)], [Some 1; Some 2; Some 3; Some 3; Some 3; None; None; None; None; None]).
Proof. split; [exact Z_order|]. split; [vm_compute; repeat constructor|]. exact again_runs. Qed.
