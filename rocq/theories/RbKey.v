(** erase(key) with the number it returns, and rb_tree_next. *)
From stdpp Require Import gmap list sorting.
From Coq Require Import ZArith Lia ZifyBool ZifyNat ZifyN.
From Verif Require Import Base RbModel RbPure RbHeap RbInsert RbErase RbUnlink RbOps RbSearch RbAdd RbDel RbBalance RbSpec RbRun RbHist RbThms RbThms2.
Local Open Scope outcome_scope.

Section up.
Context {A : Type} (H : loc).
Notation here H F s := (At H F s s).
(** 333-336 *)
Lemma next_up_ok F (s : heap A) mn mx k : forall fuel c l x a r, here H F s mn mx (T c l x a r) k -> after k <> [] ->
  length k + 1 <= fuel -> next_up fuel x s = Ok (first H (after k)).
Proof.
  induction k as [|f k IH]; intros fuel c l x a r P Ha Hf; [done|]. destruct fuel as [|fuel]; [cbn in Hf; lia|]. cbn [next_up].
  rewrite (at_lchild _ _ _ _ _ _ _ _ _ _ _ P), (at_parent _ _ _ _ _ _ _ _ _ _ P). cbn [obind pid].
  destruct f as [c' p b u|c' u p b]; cbn [floc after first]; [done|].
  cbn [after] in Ha. apply ur in P. apply (IH fuel _ _ _ _ _ P Ha). cbn in Hf. lia.
Qed.
(** 328-337 *)
Lemma next_ok fuel (s : heap A) t L x a R : hold s H t -> elems t = L ++ (x, a) :: R -> length (elems t) < fuel -> R <> [] ->
  tree_next fuel x s = Ok (first H R).
Proof.
  intros Q E Hf HR. destruct (focus_split _ _ _ _ _ _ _ Q E) as (c & l & r & k & -> & -> & ->). apply hold_focus in Q. unfold tree_next.
  pose proof (length_ctx k (T c l x a r)) as Hk. cbn [elems] in Hk. rewrite app_length in Hk. cbn [length] in Hk.
  rewrite (right_ok _ _ _ (at_cell _ _ _ _ _ _ _ _ _ _ Q)). cbn [obind rt].
  destruct r as [|c' l' y b r'] eqn:Er; cbn [id].
  - cbn [elems app] in *. apply (next_up_ok _ _ _ _ _ _ _ _ _ _ _ Q HR). lia.
  - apply at_rep in Q. cbn [rep] in Q. destruct Q as (_ & _ & Q).
    rewrite (tree_min_ok _ _ _ _ _ _ _ _ H Q) by (cbn [elems] in *; lia).
    rewrite first_app; [done|]. cbn. by destruct (elems l').
Qed.
End up.

Section key.
Context {A : Type} (lt : A -> A -> bool) (WO : weak_order lt).
Implicit Types (s : heap A) (t : tr A) (T : tree).
Notation same := (same lt).
Let LT : swo lt := swo_of lt WO.

Lemma key_erased T s t fuel (u : bool) k : inv lt (Fr := ∅) T s t -> (u = true -> strict lt (elems t).*2) -> length (elems t) < fuel ->
  (exists T' s' t', (if u then erase_unique lt fuel T k s else erase_multi lt fuel T k s) =
       Ok (Z.of_nat (length (List.filter (fun p => same k (snd p)) (elems t))), T', s') /\ inv lt (Fr := ∅) T' s' t' /\
     elems t' = List.filter (fun p => negb (same k (snd p))) (elems t) /\ (good t -> good t')) \/
  ((if u then erase_unique lt fuel T k s else erase_multi lt fuel T k s) = Fuel /\ ~ good t).
Proof.
  intros I U Hf. pose proof (i_hold _ _ _ _ I) as Q. pose proof (i_srt _ _ _ _ I) as S.
  destruct (split3 lt LT k (elems t) S) as (L & M & R & E1 & E2 & E3 & F1 & F2 & F3).
  assert (List.filter (fun p => negb (same k (snd p))) (elems t) = L ++ R) as EF.
  { rewrite E1, !List.filter_app. rewrite (filter_all _ L), (filter_none _ M), (filter_all _ R); [done| | |].
    - apply (Forall_impl _ _ _ F3). intros p Hp. by rewrite (not_same_gt lt).
    - apply (Forall_impl _ _ _ F2). intros p Hp. by rewrite Hp.
    - apply (Forall_impl _ _ _ F1). intros p Hp. by rewrite (not_same_lt lt). }
  assert (List.filter (fun p => same k (snd p)) (elems t) = M) as EM.
  { rewrite E1, !List.filter_app. rewrite (filter_none _ L), (filter_all _ M), (filter_none _ R); [cbn; apply app_nil_r| | |].
    - apply (Forall_impl _ _ _ F3). intros p Hp. by rewrite (not_same_gt lt).
    - apply (Forall_impl _ _ _ F2). intros p Hp. by rewrite Hp.
    - apply (Forall_impl _ _ _ F1). intros p Hp. by rewrite (not_same_lt lt). }
  rewrite EF, EM. destruct u.
  - unfold erase_unique. rewrite (find_ok lt LT (hd T) fuel s t k Q S Hf). cbn [obind]. rewrite E2.
    destruct M as [|[x a] M].
    + cbn [app] in *. destruct R as [|[y b] R].
      * rewrite bool_decide_eq_true_2 by done. left. exists T, s, t. by rewrite E1.
      * apply Forall_cons in F3 as [F3 _]. cbn in F3. rewrite F3. rewrite bool_decide_eq_true_2 by done. left. exists T, s, t. by rewrite E1.
    + pose proof (Forall_inv F2) as Fa. unfold RbSpec.same in Fa. cbn in Fa. apply andb_true_iff in Fa as [Fa _]. apply negb_true_iff in Fa.
      cbn [app]. rewrite Fa. rewrite bool_decide_eq_false_2 by (apply (first_not_head (hd T) s t L x a (M ++ R) Q E1)).
      assert (M = []) as ->.
      { specialize (U eq_refl). rewrite E1, !fmap_app in U. apply (strict_mid lt LT _ _ _ k) in U; [|by apply Forall_fmap]. cbn in U. destruct M; [done|cbn in U; lia]. }
      cbn [app] in *. destruct (erase_inv lt T s t fuel L x a R I E1 Hf) as [(T' & s' & t' & E4 & H4 & I4 & F4 & _ & G4)|[E4 G4]]; rewrite E4; cbn [obind]; [|by right].
      left. exists T', s', t'. rewrite F4. done.
  - unfold erase_multi, equal_range_multi. rewrite (lower_ok lt LT (hd T) fuel s t k Q S Hf). cbn [obind].
    rewrite (upper_ok lt LT (hd T) fuel s t k Q S Hf). cbn [obind]. rewrite E2, E3. unfold distance.
    rewrite (dist_ok (hd T) fuel s t Q Hf M fuel L R E1); cycle 1. { rewrite E1, !app_length in Hf. lia. } cbn [obind].
    destruct (range_inv lt T s t fuel L M R I E1 Hf) as [(T' & s' & t' & E4 & H4 & I4 & F4 & G4)|[E4 G4]]; rewrite E4; cbn [obind]; [|by right].
    left. exists T', s', t'. rewrite F4. done.
Qed.
Theorem erase_key fuel0 u cs T s fuel : run lt fuel0 u cs = Ok (T, s) -> adds cs < fuel0 -> adds cs < fuel ->
  exists l, forward fuel (hd T) s = Ok l /\
    forall k, let n := Z.of_nat (length (List.filter (fun p => same k (snd p)) l)) in
      (exists T' s', (if u then erase_unique lt fuel T k s else erase_multi lt fuel T k s) = Ok (n, T', s') /\
         forward fuel (hd T') s' = Ok (List.filter (fun p => negb (same k (snd p))) l) /\ ct T' = (ct T - n)%Z /\ (u = true -> n <= 1)%Z) \/
      ((if u then erase_unique lt fuel T k s else erase_multi lt fuel T k s) = Fuel /\ ~ balanced T s).
Proof.
  intros E Hf0 Hf. destruct (reach lt WO fuel0 u cs T s E Hf0) as (t & I & U & F & _).
  assert (length (elems t) <= adds cs) as Hl. { rewrite <- (fmap_length snd), F. apply (effects_len lt u cs []). }
  pose proof (i_hold _ _ _ _ I) as Q. assert (length (elems t) < fuel) as Hf' by lia.
  exists (elems t). split; [by apply forward_ok|]. intros k n. subst n.
  destruct (key_erased T s t fuel u k I U Hf') as [(T' & s' & t' & E1 & I1 & F1 & G1)|[E1 G1]]; [left|right].
  - exists T', s'. rewrite E1. split; [done|]. rewrite <- F1.
    assert (forall (g : nat * A -> bool) (l : list (nat * A)), length (List.filter g l) + length (List.filter (fun p => negb (g p)) l) = length l) as Sum.
    { intros g l. induction l as [|p l IH]; cbn; [done|]. destruct (g p); cbn; lia. }
    specialize (Sum (fun p => same k (snd p)) (elems t)). cbn beta in Sum. rewrite <- F1 in Sum.
    split; [apply forward_ok; [apply (i_hold _ _ _ _ I1)|lia]|].
    split; [rewrite (i_ct _ _ _ _ I1), (i_ct _ _ _ _ I); lia|].
    intros Hu. specialize (U Hu). destruct (split3 lt LT k (elems t) (i_srt _ _ _ _ I)) as (L & M & R & E2 & _ & _ & P1 & P2 & P3).
    rewrite E2, !fmap_app in U. apply (strict_mid lt LT _ _ _ k) in U; [|by apply Forall_fmap]. rewrite fmap_length in U.
    rewrite E2, !List.filter_app, (filter_none _ L), (filter_all _ M), (filter_none _ R); [cbn; rewrite app_nil_r; lia| | |].
    + apply (Forall_impl _ _ _ P3). intros p Hp. by rewrite (not_same_gt lt).
    + apply (Forall_impl _ _ _ P2). intros p Hp. by rewrite Hp.
    + apply (Forall_impl _ _ _ P1). intros p Hp. by rewrite (not_same_lt lt).
  - split; [done|]. intros B. apply G1. by apply (balanced_good lt T s t I).
Qed.
Theorem next_node fuel0 u cs T s fuel : run lt fuel0 u cs = Ok (T, s) -> adds cs < fuel0 -> adds cs < fuel ->
  exists l, forward fuel (hd T) s = Ok l /\
    forall i x a y b, l !! i = Some (x, a) -> l !! S i = Some (y, b) -> tree_next fuel x s = Ok y.
Proof.
  intros E Hf0 Hf. destruct (reach lt WO fuel0 u cs T s E Hf0) as (t & I & U & F & _).
  assert (length (elems t) <= adds cs) as Hl. { rewrite <- (fmap_length snd), F. apply (effects_len lt u cs []). }
  pose proof (i_hold _ _ _ _ I) as Q. assert (length (elems t) < fuel) as Hf' by lia.
  exists (elems t). split; [by apply forward_ok|]. intros i x a y b Hx Hy.
  rewrite (next_ok (hd T) fuel s t _ x a _ Q (eq_sym (take_drop_middle _ _ _ Hx)) Hf'); rewrite (drop_S _ _ _ Hy); done.
Qed.
End key.
