(** Concrete sets and multisets, and the cases that go wrong. *)
From stdpp Require Import gmap list.
From Coq Require Import ZArith Lia.
From Verif Require Import Base RbModel RbSpec RbRun RbThms2.
Local Open Scope outcome_scope.
Local Open Scope Z_scope.

(** keys with a tag the comparison does not see *)
Definition tlt (p q : Z * Z) : bool := fst p <? fst q.
Lemma tlt_order : weak_order tlt.
Proof. unfold tlt. split; intros; lia. Qed.
Definition tagged : list (Z * Z) := [(5, 0); (3, 1); (5, 2); (1, 3); (3, 4); (5, 5)].
Definition values {A} (lt : A -> A -> bool) (fuel : nat) (u : bool) (cs : list (cmd (A := A))) : outcome (list A) :=
  ' (T, s) <~ run lt fuel u cs ; l <~ forward fuel (hd T) s ; Ok l.*2.
Example tagged_multi : values tlt 10 false (Add <$> tagged) = Ok [(1, 3); (3, 1); (3, 4); (5, 0); (5, 2); (5, 5)].
Proof. vm_compute. reflexivity. Qed.
Example tagged_set : values tlt 10 true (Add <$> tagged) = Ok [(1, 3); (3, 1); (5, 0)].
Proof. vm_compute. reflexivity. Qed.

(** a program with every kind of command *)
Definition mixed : list (cmd (A := Z)) :=
  [Add 1; Add 2; Add 3; Add 3; Add 4; Add 7; Add 9; Del 0; DelKey 3; Add 9; DelRange 1 3; Add 12].
Example mixed_runs : values Z.ltb 20 false mixed = Ok [2; 9; 9; 12] /\ effects Z.ltb false mixed [] = [2; 9; 9; 12].
Proof. vm_compute. auto. Qed.
Example mixed_appends : appending Z.ltb false mixed [] /\ (adds mixed = 9)%nat.
Proof. cbn. repeat split; intros; lia. Qed.
Lemma mixed_balanced : exists T s h, run Z.ltb 10 false mixed = Ok (T, s) /\ balanced T s /\ tall s (top_of T s) h /\
  (h <= 2 * Nat.log2 (S (length (effects Z.ltb false mixed []))))%nat.
Proof. apply (append_balanced Z.ltb Z_order); [vm_compute; repeat constructor|exact (proj1 mixed_appends)]. Qed.
Definition some_set : list (cmd (A := Z)) := Add <$> [4; 9; 1; 7; 2; 9; 3].
Example set_searches :
  match run Z.ltb 20 true some_set with
  | Ok (T, s) =>
      find Z.ltb 20 (hd T) 7 s = Ok 4%nat /\ key 4 s = Ok 7 /\ find Z.ltb 20 (hd T) 8 s = Ok (hd T) /\
      lower_bound Z.ltb 20 (hd T) 8 s = Ok 2%nat /\ key 2 s = Ok 9 /\ count_multi Z.ltb 20 (hd T) 9 s = Ok 1
  | _ => False
  end.
Proof. vm_compute. repeat split. Qed.

(** the rules, decided: UB where they are broken *)
Fixpoint check (fuel : nat) (p : option loc) (s : heap Z) : outcome (color * nat) :=
  match fuel, p with
  | O, _ => Fuel
  | _, None => Ok (Black, 0%nat)
  | S f, Some x =>
      n <~ get x s ;
      ' (cl, ml) <~ check f (lf n) s ; ' (cr, mr) <~ check f (rt n) s ;
      if bool_decide (ml = mr) then
        match col n with
        | Black => Ok (Black, S ml)
        | Red => if bool_decide (cl = Black) && bool_decide (cr = Black) then Ok (Red, ml) else UB
        end
      else UB
  end.
Lemma check_complete s p c m : red_black s p c m -> forall fuel, check fuel p s = Ok (c, m) \/ check fuel p s = Fuel.
Proof.
  induction 1 as [|x n m Hx Hc Hl IHl Hr IHr|x n m cl cr Hx Hc Hl IHl Hr IHr]; intros [|fuel]; cbn [check]; try tauto;
    unfold get; rewrite Hx; cbn [obind of_option]; (destruct (IHl fuel) as [E|E]; rewrite E; cbn [obind]; [|by right]);
    (destruct (IHr fuel) as [E'|E']; rewrite E'; cbn [obind]; [|by right]); left; rewrite bool_decide_eq_true_2 by done; by rewrite Hc.
Qed.
(** 3, 2, 1 *)
Lemma three_down : exists T s, run Z.ltb 10 true (Add <$> [3; 2; 1]) = Ok (T, s) /\ ~ balanced T s.
Proof.
  destruct (run Z.ltb 10 true (Add <$> [3; 2; 1])) as [[T s]| |] eqn:E; [|vm_compute in E; discriminate E|vm_compute in E; discriminate E].
  exists T, s. split; [done|]. intros [m B]. destruct (check_complete _ _ _ _ B 5) as [X|X];
    (enough (check 5 (top_of T s) s = UB) by congruence);
    (assert (match run Z.ltb 10 true (Add <$> [3; 2; 1]) with Ok (T, s) => check 5 (top_of T s) s | _ => Fuel end = UB) as Y by (vm_compute; reflexivity));
    rewrite E in Y; exact Y.
Qed.
Example five_down : 
  match run Z.ltb 10 true (Add <$> down 5) with Ok (T, s) => (l <~ forward 10 (hd T) s ; Ok l.*2) = Ok [0; 1; 2; 3; 4] | _ => False end.
Proof. vm_compute. reflexivity. Qed.

(** 3, 2, 1, 0, then erase(find(3)) *)
Definition four : outcome (tree * heap Z) := run Z.ltb 10 true (Add <$> [3; 2; 1; 0]).
Definition four_heap : heap Z := match four with Ok (_, s) => s | _ => no_heap end.
Definition four_cut : heap Z := match erase_unlink 0 0 1 four_heap with Ok (_, _, _, s) => s | _ => no_heap end.
Lemma four_loop f : erase_loop f 0 None 2 four_cut = Fuel.
Proof.
  induction f as [|f IH]; [done|]. cbn [erase_loop].
  assert (root 0 four_cut = Ok (Some 3%nat)) as -> by (vm_compute; reflexivity).
  assert (left 2 four_cut = Ok None) as -> by (vm_compute; reflexivity).
  assert (right 2 four_cut = Ok None) as -> by (vm_compute; reflexivity).
  cbn [obind not_red red_at negb]. rewrite (bool_decide_eq_false_2 (None = Some 3%nat)) by done.
  rewrite (bool_decide_eq_false_2 (is_Some None)) by (by intros [? ?]). rewrite !andb_false_r.
  exact IH.
Qed.
Lemma four_hangs : run Z.ltb 10 true (Add <$> [3; 2; 1; 0]) = Ok ({| hd := 0; ct := 4 |}, four_heap) /\
  find Z.ltb 10 0 3 four_heap = Ok 1%nat /\ forall fuel, erase fuel {| hd := 0; ct := 4 |} 1 four_heap = Fuel.
Proof.
  split; [vm_compute; reflexivity|]. split; [vm_compute; reflexivity|]. intros fuel. unfold erase. cbn [hd ct].
  assert (erase_rebalance fuel 0 1 four_heap = Fuel) as X.
  { unfold erase_rebalance. assert (erase_unlink fuel 0 1 four_heap = Ok (None, 2%nat, Black, four_cut)) as -> by (vm_compute; reflexivity).
    cbn [obind]. rewrite bool_decide_eq_false_2 by done. by rewrite four_loop. }
  rewrite X. assert (increment fuel 1 four_heap = Fuel \/ increment fuel 1 four_heap = Ok 0%nat) as [-> | ->]; [|done|done].
  destruct fuel as [|[|[|[|fuel]]]]; vm_compute; auto.
Qed.

(** 1, 2, 3, then insert(2) *)
Lemma dup_shape (T : tree) (o : outcome (loc * bool * tree * heap Z)) :
  match o with
  | Ok (it, b, T', s') => (it = 3%nat /\ b = false /\ T' = T) /\ find Z.ltb 10 (hd T) 2 s' = Ok 2%nat /\ key it s' = Ok 3
  | _ => False
  end -> exists it s', o = Ok (it, false, T, s') /\ it = 3%nat /\ find Z.ltb 10 (hd T) 2 s' = Ok 2%nat /\ key 3 s' = Ok 3.
Proof. destruct o as [[[[it b] T'] s']| |]; [|done|done]. intros ((-> & -> & ->) & Y). eauto. Qed.
Lemma dup_wrong : exists T s s' it, run Z.ltb 10 true (Add <$> [1; 2; 3]) = Ok (T, s) /\
  emplace_unique Z.ltb 10 T 2 s = Ok (it, false, T, s') /\ find Z.ltb 10 (hd T) 2 s' = Ok 2%nat /\ it = 3%nat /\ key it s' = Ok 3.
Proof.
  destruct (run Z.ltb 10 true (Add <$> [1; 2; 3])) as [[T s]| |] eqn:E; [|vm_compute in E; discriminate E|vm_compute in E; discriminate E].
  exists T, s. assert (match run Z.ltb 10 true (Add <$> [1; 2; 3]) with
    | Ok (T, s) =>
        match emplace_unique Z.ltb 10 T 2 s with
        | Ok (it, b, T', s') => (it = 3%nat /\ b = false /\ T' = T) /\ find Z.ltb 10 (hd T) 2 s' = Ok 2%nat /\ key it s' = Ok 3
        | _ => False
        end
    | _ => False end) as Y by (vm_compute; repeat split).
  rewrite E in Y. destruct (dup_shape _ _ Y) as (it & s' & E' & -> & Y'). exists s', 3%nat. split; [reflexivity|]. split; [exact E'|].
  split; [exact (proj1 Y')|]. split; [reflexivity|]. exact (proj2 Y').
Qed.
(** insert(3) into the same set finds it *)
Example dup_right : match run Z.ltb 10 true (Add <$> [1; 2; 3]) with
  | Ok (T, s) => match emplace_unique Z.ltb 10 T 3 s with Ok (it, b, _, s') => key it s' = Ok 3 /\ b = false | _ => False end
  | _ => False
  end.
Proof. vm_compute. auto. Qed.
