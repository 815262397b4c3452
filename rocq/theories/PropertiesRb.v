(** C22-C27, C64: set and multiset over rb_tree. In all of them [lt] is any strict weak order and the
    bound on loops is any number above the number of insertions. *)
From stdpp Require Import gmap list.
From Coq Require Import ZArith.
From Verif Require Import Base RbModel RbSpec RbRun RbThms RbThms2 RbKey RbExamples.

(** C22. Insertion into a multiset. *)
Theorem C22_multiset : forall A (lt : A -> A -> bool), weak_order lt -> forall fuel vs, length vs < fuel ->
  exists T s l, run lt fuel false (Add <$> vs) = Ok (T, s) /\
    forward fuel (hd T) s = Ok l /\ backward fuel (hd T) s = Ok (rev l) /\ ct T = Z.of_nat (length vs) /\
    in_order lt l.*2 /\ (forall k, like lt k l.*2 = like lt k vs) /\ l.*2 ≡ₚ vs.
Proof. exact @iterate_multi. Qed.
Print Assumptions C22_multiset.
Example C22_multiset_example : weak_order tlt /\ length tagged < 10 /\
  values tlt 10 false (Add <$> tagged) = Ok [(1, 3); (3, 1); (3, 4); (5, 0); (5, 2); (5, 5)]%Z.
Proof. split; [exact tlt_order|]. split; [vm_compute; repeat constructor|exact tagged_multi]. Qed.
(** C22. Insertion into a set: of those that are alike the first stays. *)
Theorem C22_set : forall A (lt : A -> A -> bool), weak_order lt -> forall fuel vs, length vs < fuel ->
  exists T s l, run lt fuel true (Add <$> vs) = Ok (T, s) /\
    forward fuel (hd T) s = Ok l /\ backward fuel (hd T) s = Ok (rev l) /\ ct T = Z.of_nat (length l) /\
    strictly_in_order lt l.*2 /\ (forall k, like lt k l.*2 = take 1 (like lt k vs)).
Proof. exact @iterate_unique. Qed.
Print Assumptions C22_set.
Example C22_set_example : values tlt 10 true (Add <$> tagged) = Ok [(1, 3); (3, 1); (5, 0)]%Z.
Proof. exact tagged_set. Qed.

(** C23. After any program (insertions, erasures, clear) that ended, the searches give what a scan gives. *)
Theorem C23_searches : forall A (lt : A -> A -> bool), weak_order lt -> forall fuel0 u cs T s fuel k,
  run lt fuel0 u cs = Ok (T, s) -> adds cs < fuel0 -> adds cs < fuel ->
  exists l, forward fuel (hd T) s = Ok l /\
    lower_bound lt fuel (hd T) k s = Ok (scan (fun a => negb (lt a k)) (hd T) l) /\
    upper_bound lt fuel (hd T) k s = Ok (scan (lt k) (hd T) l) /\
    find lt fuel (hd T) k s = Ok (scan (same lt k) (hd T) l) /\
    equal_range_multi lt fuel (hd T) k s = Ok (scan (fun a => negb (lt a k)) (hd T) l, scan (lt k) (hd T) l) /\
    count_multi lt fuel (hd T) k s = Ok (Z.of_nat (length (like lt k l.*2))) /\
    (u = true ->
      count_unique lt fuel (hd T) k s = Ok (Z.of_nat (length (like lt k l.*2))) /\
      equal_range_unique lt fuel (hd T) k s =
        Ok (scan (same lt k) (hd T) l, if existsb (same lt k) l.*2 then scan (lt k) (hd T) l else hd T)).
Proof. exact @searches. Qed.
Print Assumptions C23_searches.
Example C23_example :
  match run Z.ltb 20 true some_set with
  | Ok (T, s) =>
      find Z.ltb 20 (hd T) 7%Z s = Ok 4 /\ key 4 s = Ok 7%Z /\ find Z.ltb 20 (hd T) 8%Z s = Ok (hd T) /\
      lower_bound Z.ltb 20 (hd T) 8%Z s = Ok 2 /\ key 2 s = Ok 9%Z /\ count_multi Z.ltb 20 (hd T) 9%Z s = Ok 1%Z
  | _ => False
  end.
Proof. exact set_searches. Qed.

(** C24, full statement: after any insertions [balanced]. False: 3, 2, 1 already break the rules. *)
Theorem C24_rules_refuted : exists T s, run Z.ltb 10 true (Add <$> [3; 2; 1]%Z) = Ok (T, s) /\ ~ balanced T s.
Proof. exact three_down. Qed.
Print Assumptions C24_rules_refuted.
(** Nor is the height logarithmic: n - 1, ..., 1, 0 make a tree of height n - 1. *)
Theorem C24_height_refuted : forall n fuel, 3 <= n -> n < fuel ->
  exists T s, run Z.ltb fuel false (Add <$> down n) = Ok (T, s) /\ tall s (top_of T s) (n - 1).
Proof. exact descending. Qed.
Print Assumptions C24_height_refuted.
Example C24_height_example :
  match run Z.ltb 10 true (Add <$> down 5) with
  | Ok (T, s) => obind (forward 10 (hd T) s) (fun l => Ok l.*2) = Ok [0; 1; 2; 3; 4]%Z
  | _ => False
  end.
Proof. exact five_down. Qed.
(** What is left: insertions that go to the end, mixed with any erasures, keep the rules and the height;
    missing are the insertions that do not go to the end. *)
Theorem C24_append_partial : forall A (lt : A -> A -> bool), weak_order lt -> forall fuel u cs,
  adds cs < fuel -> appending lt u cs [] ->
  exists T s h, run lt fuel u cs = Ok (T, s) /\ balanced T s /\ tall s (top_of T s) h /\
    h <= 2 * Nat.log2 (S (length (effects lt u cs []))).
Proof. exact @append_balanced. Qed.
Print Assumptions C24_append_partial.
Example C24_append_example : appending Z.ltb false mixed [] /\ adds mixed = 9.
Proof. exact mixed_appends. Qed.
(** The rules give the height. *)
Theorem C24_height : forall A (lt : A -> A -> bool), weak_order lt -> forall fuel0 u cs T s,
  run lt fuel0 u cs = Ok (T, s) -> adds cs < fuel0 -> balanced T s ->
  forall h, tall s (top_of T s) h -> h <= 2 * Nat.log2 (S (length (effects lt u cs []))).
Proof. exact @balanced_log. Qed.
Print Assumptions C24_height.
Example C24_rules_example : exists T s h, run Z.ltb 10 false mixed = Ok (T, s) /\ balanced T s /\ tall s (top_of T s) h /\
  h <= 2 * Nat.log2 (S (length (effects Z.ltb false mixed []))).
Proof. exact mixed_balanced. Qed.

(** C25, full statement: as [C25_erase_partial] without the second case, in which the rebalancing loop does
    not end. *)
Theorem C25_erase_partial : forall A (lt : A -> A -> bool), weak_order lt -> forall fuel0 u cs T s fuel,
  run lt fuel0 u cs = Ok (T, s) -> adds cs < fuel0 -> adds cs < fuel ->
  exists l, forward fuel (hd T) s = Ok l /\
    forall i x a, l !! i = Some (x, a) ->
      (exists T' s', erase fuel T x s = Ok (match l !! S i with Some (y, _) => y | None => hd T end, T', s') /\
         forward fuel (hd T') s' = Ok (take i l ++ drop (S i) l) /\ ct T' = (ct T - 1)%Z /\ cells s' !! x = None /\
         (balanced T s -> balanced T' s')) \/
      (erase fuel T x s = Fuel /\ ~ balanced T s).
Proof. exact @erase_one. Qed.
Print Assumptions C25_erase_partial.
(** Whole programs: right as far as they end, never undefined. *)
Theorem C25_programs_partial : forall A (lt : A -> A -> bool), weak_order lt -> forall fuel u cs, adds cs < fuel ->
  (exists T s l, run lt fuel u cs = Ok (T, s) /\ forward fuel (hd T) s = Ok l /\ l.*2 = effects lt u cs [] /\
     ct T = Z.of_nat (length l)) \/
  run lt fuel u cs = Fuel /\ ~ appending lt u cs [].
Proof. exact @programs. Qed.
Print Assumptions C25_programs_partial.
Example C25_example : values Z.ltb 20 false mixed = Ok [2; 9; 9; 12]%Z /\ effects Z.ltb false mixed [] = [2; 9; 9; 12]%Z.
Proof. exact mixed_runs. Qed.
(** erase(key) returns how many elements it has removed, in a set at most one. *)
Theorem C25_key_partial : forall A (lt : A -> A -> bool), weak_order lt -> forall fuel0 u cs T s fuel,
  run lt fuel0 u cs = Ok (T, s) -> adds cs < fuel0 -> adds cs < fuel ->
  exists l, forward fuel (hd T) s = Ok l /\
    forall k, let n := Z.of_nat (length (List.filter (fun p => same lt k (snd p)) l)) in
      (exists T' s', (if u then erase_unique lt fuel T k s else erase_multi lt fuel T k s) = Ok (n, T', s') /\
         forward fuel (hd T') s' = Ok (List.filter (fun p => negb (same lt k (snd p))) l) /\ ct T' = (ct T - n)%Z /\ (u = true -> n <= 1)%Z) \/
      ((if u then erase_unique lt fuel T k s else erase_multi lt fuel T k s) = Fuel /\ ~ balanced T s).
Proof. exact @erase_key. Qed.
Print Assumptions C25_key_partial.
Example C25_key_example : match run Z.ltb 20 false mixed, run Z.ltb 10 true (Add <$> [1; 2; 3]%Z) with
  | Ok (T, s), Ok (T', s') => match erase_multi Z.ltb 20 T 9%Z s, erase_unique Z.ltb 10 T' 2%Z s', erase_unique Z.ltb 10 T' 7%Z s' with
      | Ok (n, _, _), Ok (m, _, _), Ok (o, _, _) => n = 2%Z /\ m = 1%Z /\ o = 0%Z
      | _, _, _ => False
      end
  | _, _ => False
  end.
Proof. vm_compute. auto. Qed.
Theorem C25_hang_refuted : run Z.ltb 10 true (Add <$> [3; 2; 1; 0]%Z) = Ok ({| hd := 0; ct := 4 |}, four_heap) /\
  find Z.ltb 10 0 3%Z four_heap = Ok 1 /\ forall fuel, erase fuel {| hd := 0; ct := 4 |} 1 four_heap = Fuel.
Proof. exact four_hangs. Qed.
Print Assumptions C25_hang_refuted.

(** C26, full statement: [it = x] always. It is so exactly when the element has no right child; otherwise the
    iterator designates the next one. *)
Theorem C26_duplicate_partial : forall A (lt : A -> A -> bool), weak_order lt -> forall fuel0 cs T s fuel v,
  run lt fuel0 true cs = Ok (T, s) -> adds cs < fuel0 -> adds cs < fuel ->
  exists l, forward fuel (hd T) s = Ok l /\
    forall i x a, l !! i = Some (x, a) -> same lt v a = true ->
      exists it s' r, emplace_unique lt fuel T v s = Ok (it, false, T, s') /\ cells s' = cells s /\
        right x s = Ok r /\
        it = match r with None => x | Some _ => match l !! S i with Some (y, _) => y | None => hd T end end.
Proof. exact @duplicate. Qed.
Print Assumptions C26_duplicate_partial.
Example C26_example : match run Z.ltb 10 true (Add <$> [1; 2; 3]%Z) with
  | Ok (T, s) => match emplace_unique Z.ltb 10 T 3%Z s with Ok (it, b, _, s') => key it s' = Ok 3%Z /\ b = false | _ => False end
  | _ => False
  end.
Proof. exact dup_right. Qed.
Theorem C26_iterator_refuted : exists T s s' it, run Z.ltb 10 true (Add <$> [1; 2; 3]%Z) = Ok (T, s) /\
  emplace_unique Z.ltb 10 T 2%Z s = Ok (it, false, T, s') /\ find Z.ltb 10 (hd T) 2%Z s' = Ok 2 /\ it = 3 /\ key it s' = Ok 3%Z.
Proof. exact dup_wrong. Qed.
Print Assumptions C26_iterator_refuted.

(** C27. [at_ i] is the i-th node, [at_ (length l)] is end(). *)
Theorem C27_neighbours : forall A (lt : A -> A -> bool), weak_order lt -> forall fuel0 u cs T s fuel,
  run lt fuel0 u cs = Ok (T, s) -> adds cs < fuel0 -> adds cs < fuel ->
  exists l, forward fuel (hd T) s = Ok l /\
    let at_ i := match l !! i with Some (x, _) => x | None => hd T end in
    tbegin (hd T) s = Ok (at_ 0) /\
    forall i, i < length l ->
      increment fuel (at_ i) s = Ok (at_ (S i)) /\ decrement fuel (at_ (S i)) s = Ok (at_ i) /\ at_ i <> hd T.
Proof. exact @neighbours. Qed.
Print Assumptions C27_neighbours.
(** rb_tree_next, which erasure uses for nodes with two children, is right for every node but the last. *)
Theorem C27_next : forall A (lt : A -> A -> bool), weak_order lt -> forall fuel0 u cs T s fuel,
  run lt fuel0 u cs = Ok (T, s) -> adds cs < fuel0 -> adds cs < fuel ->
  exists l, forward fuel (hd T) s = Ok l /\
    forall i x a y b, l !! i = Some (x, a) -> l !! S i = Some (y, b) -> tree_next fuel x s = Ok y.
Proof. exact @next_node. Qed.
Print Assumptions C27_next.
Example C27_example : values Z.ltb 20 false mixed = Ok [2; 9; 9; 12]%Z.
Proof. exact (proj1 mixed_runs). Qed.

(** C64. One node per element and the header are all there is, and the destructor frees them. *)
Theorem C64_no_leak : forall A (lt : A -> A -> bool), weak_order lt -> forall fuel0 u cs T s fuel,
  run lt fuel0 u cs = Ok (T, s) -> adds cs < fuel0 -> adds cs < fuel ->
  size (cells s) = S (length (effects lt u cs [])) /\
  exists s', tree_destroy fuel T s = Ok s' /\ cells s' = ∅.
Proof. exact @no_leak. Qed.
Print Assumptions C64_no_leak.
Example C64_example : values Z.ltb 20 false mixed = Ok [2; 9; 9; 12]%Z.
Proof. exact (proj1 mixed_runs). Qed.
