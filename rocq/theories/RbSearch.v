(** Searches, walks, insertion and removal on a tree held by the heap, in terms of its elements. *)
From stdpp Require Import gmap list sorting.
From Coq Require Import ZArith Lia ZifyBool ZifyNat ZifyN.
From Verif Require Import Base RbModel RbPure RbHeap RbInsert RbErase RbUnlink RbOps.
Local Open Scope outcome_scope.

(** a strict weak order *)
Record swo {A} (lt : A -> A -> bool) : Prop := {
  swo_irr : forall a, lt a a = false;
  swo_trans : forall a b c, lt a b = true -> lt b c = true -> lt a c = true;
  swo_neg : forall a b c, lt a b = true -> lt a c = true \/ lt c b = true;
}.

Fixpoint dropw {B} (g : B -> bool) (l : list B) : list B :=
  match l with [] => [] | x :: l => if g x then dropw g l else x :: l end.
Fixpoint takew {B} (g : B -> bool) (l : list B) : list B :=
  match l with [] => [] | x :: l => if g x then x :: takew g l else [] end.
Lemma takew_dropw {B} (g : B -> bool) l : takew g l ++ dropw g l = l.
Proof. induction l as [|x l IH]; cbn; [done|]. destruct (g x); cbn; congruence. Qed.
Lemma dropw_app_all {B} (g : B -> bool) l l' : Forall (fun x => g x = true) l -> dropw g (l ++ l') = dropw g l'.
Proof. induction 1 as [|x l Hx _ IH]; cbn; [done|]. by rewrite Hx. Qed.
Lemma takew_app_all {B} (g : B -> bool) l l' : Forall (fun x => g x = true) l -> takew g (l ++ l') = l ++ takew g l'.
Proof. induction 1 as [|x l Hx _ IH]; cbn; [done|]. by rewrite Hx, IH. Qed.
Lemma dropw_app_stop {B} (g : B -> bool) l y l' : g y = false -> dropw g (l ++ y :: l') = dropw g l ++ y :: l'.
Proof. intros Hy. induction l as [|x l IH]; cbn; [by rewrite Hy|]. by destruct (g x). Qed.
Lemma takew_app_stop {B} (g : B -> bool) l y l' : g y = false -> takew g (l ++ y :: l') = takew g l.
Proof. intros Hy. induction l as [|x l IH]; cbn; [by rewrite Hy|]. destruct (g x); congruence. Qed.
Lemma takew_all {B} (g : B -> bool) l : Forall (fun x => g x = true) (takew g l).
Proof. induction l as [|x l IH]; cbn; [done|]. destruct (g x) eqn:E; auto. Qed.

Section search.
Context {A : Type} (lt : A -> A -> bool) (LT : swo lt).
Notation tr := (tr A).
Notation ctx := (list (fr A)).
Notation heap := (heap A).
Implicit Types (s : heap) (t : tr) (k : ctx).

Definition le2 (p q : loc * A) : Prop := lt (snd q) (snd p) = false.
Notation srt := (StronglySorted le2).
Lemma srt_app l l' : srt (l ++ l') <-> srt l /\ srt l' /\ Forall (fun p => Forall (le2 p) l') l.
Proof.
  induction l as [|x l IH]; cbn [app].
  - split; [|tauto]. intros X. split; [constructor|]. by split.
  - split.
    + intros X. apply StronglySorted_inv in X as [X Y]. apply IH in X as (X1 & X2 & X3). apply Forall_app in Y as [Y1 Y2].
      split; [by constructor|]. split; [done|]. by constructor.
    + intros (X & Y & Z). apply StronglySorted_inv in X as [X1 X2]. apply Forall_cons in Z as [Z1 Z2].
      constructor; [by apply IH|]. by apply Forall_app.
Qed.
Lemma le_trans_neg a b c : lt b a = false -> lt c b = false -> lt c a = false.
Proof.
  intros X Y. destruct (lt c a) eqn:Z; [|done]. destruct (swo_neg _ LT _ _ b Z); congruence.
Qed.
(** tests that hold on an initial part of a sorted list *)
Definition down (g : A -> bool) : Prop := forall a b, lt b a = false -> g b = true -> g a = true.
Lemma down_lower v : down (fun a => lt a v).
Proof.
  intros a b X Y. destruct (swo_neg _ LT _ _ a Y) as [Z|Z]; congruence.
Qed.
Lemma down_upper v : down (fun a => negb (lt v a)).
Proof.
  intros a b X Y. apply negb_true_iff in Y. apply negb_true_iff. by apply (le_trans_neg a b v).
Qed.
Notation on g := (fun p : loc * A => g (snd p)).
Lemma srt_down g l x l' : srt (l ++ x :: l') -> down g -> g (snd x) = true -> Forall (fun p => on g p = true) l.
Proof.
  intros X D Hx. apply srt_app in X as (_ & _ & X). apply (Forall_impl _ _ _ X). intros p Hp.
  apply Forall_cons in Hp as [Hp _]. by apply (D _ (snd x)).
Qed.

(** the loops of lower_bound and upper_bound with the test for going right *)
Fixpoint find_loop (g : A -> bool) (fuel : nat) (n : loc) (c : option loc) s : outcome loc :=
  match c with
  | None => Ok n
  | Some c =>
      match fuel with
      | O => Fuel
      | S f =>
          v <~ key c s ;
          if negb (g v) then l <~ left c s ; find_loop g f c l s
          else r <~ right c s ; find_loop g f n r s
      end
  end.
Lemma lower_find v fuel n c s : lower_loop lt fuel v n c s = find_loop (fun a => lt a v) fuel n c s.
Proof.
  revert n c. induction fuel as [|fuel IH]; intros n [c|]; cbn; try done.
  destruct (key c s) as [a| |]; cbn; try done. destruct (lt a v); cbn.
  - destruct (right c s); cbn; auto.
  - destruct (left c s); cbn; auto.
Qed.
Lemma upper_find v fuel n c s : upper_loop lt fuel v n c s = find_loop (fun a => negb (lt v a)) fuel n c s.
Proof.
  revert n c. induction fuel as [|fuel IH]; intros n [c|]; cbn; try done.
  destruct (key c s) as [a| |]; cbn; try done. destruct (lt v a); cbn.
  - destruct (left c s); cbn; auto.
  - destruct (right c s); cbn; auto.
Qed.
Lemma find_loop_ok g s t : down g -> forall fuel n p, rep s t p -> srt (elems t) -> length (elems t) <= fuel ->
  find_loop g fuel n (id t) s = Ok (first n (dropw (on g) (elems t))).
Proof.
  intros D. induction t as [|c l IHl x a r IHr]; intros fuel n p R S Hf; [by destruct fuel|].
  cbn [rep] in R. destruct R as (Hx & Rl & Rr).
  cbn [elems] in *. rewrite app_length in Hf. cbn [length] in Hf. destruct fuel as [|fuel]; [lia|].
  cbn [id find_loop]. rewrite (key_ok _ _ _ _ Hx eq_refl). cbn [obind].
  pose proof S as S'. apply srt_app in S' as (Sl & Sr & _). apply StronglySorted_inv in Sr as [Sr _].
  destruct (g a) eqn:Eg; cbn [negb].
  - rewrite (right_ok _ _ _ Hx). cbn [obind rt]. rewrite (IHr fuel n x Rr Sr) by lia.
    rewrite dropw_app_all by (exact (srt_down g _ (x, a) _ S D Eg)). cbn [dropw snd]. by rewrite Eg.
  - rewrite (left_ok _ _ _ Hx). cbn [obind lf]. rewrite (IHl fuel x x Rl Sl) by lia.
    rewrite dropw_app_stop by done. by destruct (dropw (on g) (elems l)) as [|[? ?] ?].
Qed.
Section h.
Context (H : loc).
Lemma lower_ok fuel s t v : hold s H t -> srt (elems t) -> length (elems t) < fuel ->
  lower_bound lt fuel H v s = Ok (first H (dropw (fun p => lt (snd p) v) (elems t))).
Proof.
  intros Q S Hf. unfold lower_bound. rewrite (at_root _ _ _ _ _ _ (hold_at _ _ _ Q)). cbn [obind plug].
  rewrite lower_find. apply (find_loop_ok (fun a => lt a v) s t (down_lower v) fuel H H); [|done|lia].
  exact (at_rep _ _ _ _ _ _ _ _ (hold_at _ _ _ Q)).
Qed.
Lemma upper_ok fuel s t v : hold s H t -> srt (elems t) -> length (elems t) < fuel ->
  upper_bound lt fuel H v s = Ok (first H (dropw (fun p => negb (lt v (snd p))) (elems t))).
Proof.
  intros Q S Hf. unfold upper_bound. rewrite (at_root _ _ _ _ _ _ (hold_at _ _ _ Q)). cbn [obind plug].
  rewrite upper_find. apply (find_loop_ok (fun a => negb (lt v a)) s t (down_upper v) fuel H H); [|done|lia].
  exact (at_rep _ _ _ _ _ _ _ _ (hold_at _ _ _ Q)).
Qed.
Lemma first_not_head s t L x a R : hold s H t -> elems t = L ++ (x, a) :: R -> x <> H.
Proof.
  intros Q E ->. apply hold_nodup, NoDup_cons in Q as [N _]. apply N. rewrite E, fmap_app. apply elem_of_app. right. left.
Qed.
Lemma find_ok fuel s t v : hold s H t -> srt (elems t) -> length (elems t) < fuel ->
  find lt fuel H v s = Ok (match dropw (fun p => lt (snd p) v) (elems t) with
                           | (x, a) :: _ => if lt v a then H else x
                           | [] => H
                           end).
Proof.
  intros Q S Hf. unfold find. rewrite (lower_ok fuel s t v Q S Hf). cbn [obind].
  pose proof (takew_dropw (fun p => lt (snd p) v) (elems t)) as E.
  destruct (dropw (fun p => lt (snd p) v) (elems t)) as [|[x a] R]; cbn [first]; [by rewrite bool_decide_eq_true_2|].
  rewrite bool_decide_eq_false_2 by (eapply first_not_head; eauto).
  rewrite (hold_key H s t x a Q) by (rewrite <- E; apply elem_of_app; right; left). done.
Qed.

(** walking from an element to another *)
Lemma dist_ok fuel s t : hold s H t -> length (elems t) < fuel ->
  forall M f L R, elems t = L ++ M ++ R -> length M <= f ->
  dist_loop fuel f (first H (M ++ R)) (first H R) s = Ok (Z.of_nat (length M)).
Proof.
  intros Q Hf M. induction M as [|[x a] M IH]; intros f L R E Hm.
  - cbn [app length]. destruct f; cbn [dist_loop]; by rewrite bool_decide_eq_true_2.
  - cbn [app first]. cbn [length] in Hm. destruct f as [|f]; [lia|]. cbn [dist_loop].
    rewrite bool_decide_eq_false_2; cycle 1.
    { intros ->. apply hold_nodup in Q. rewrite E in Q. destruct R as [|[y b] R]; cbn [first] in Q.
      - apply NoDup_cons in Q as [N _]. apply N. rewrite fmap_app. apply elem_of_app. right. left.
      - apply NoDup_cons in Q as [_ N]. rewrite fmap_app in N. apply NoDup_app in N as (_ & _ & N). cbn [app fmap list_fmap fst] in N.
        apply NoDup_cons in N as [N _]. apply N. rewrite fmap_app. apply elem_of_app. right. left. }
    rewrite (inc_ok H fuel s t L x a (M ++ R) Q) by (try exact E; lia). cbn [obind].
    rewrite (IH f (L ++ [(x, a)]) R) by (rewrite ?E, <- ?app_assoc; try done; lia). cbn [obind]. f_equal. cbn [length]. lia.
Qed.
Lemma walk_ok fuel s t : hold s H t -> length (elems t) < fuel ->
  forall M f L R, elems t = L ++ M ++ R -> length M <= f ->
  walk fuel f (first H (M ++ R)) (first H R) s = Ok M.
Proof.
  intros Q Hf M. induction M as [|[x a] M IH]; intros f L R E Hm.
  - cbn [app length]. destruct f; cbn [walk]; by rewrite bool_decide_eq_true_2.
  - cbn [app first]. cbn [length] in Hm. destruct f as [|f]; [lia|]. cbn [walk].
    rewrite bool_decide_eq_false_2; cycle 1.
    { intros ->. apply hold_nodup in Q. rewrite E in Q. destruct R as [|[y b] R]; cbn [first] in Q.
      - apply NoDup_cons in Q as [N _]. apply N. rewrite fmap_app. apply elem_of_app. right. left.
      - apply NoDup_cons in Q as [_ N]. rewrite fmap_app in N. apply NoDup_app in N as (_ & _ & N). cbn [app fmap list_fmap fst] in N.
        apply NoDup_cons in N as [N _]. apply N. rewrite fmap_app. apply elem_of_app. right. left. }
    rewrite (hold_key H s t x a Q) by (rewrite E; apply elem_of_app; right; left). cbn [obind].
    rewrite (inc_ok H fuel s t L x a (M ++ R) Q) by (try exact E; lia). cbn [obind].
    rewrite (IH f (L ++ [(x, a)]) R) by (rewrite ?E, <- ?app_assoc; try done; lia). done.
Qed.
Lemma forward_ok fuel s t : hold s H t -> length (elems t) < fuel -> forward fuel H s = Ok (elems t).
Proof.
  intros Q Hf. unfold forward. rewrite (tbegin_ok H s t Q). cbn [obind].
  pose proof (walk_ok fuel s t Q Hf (elems t) fuel [] []) as X. rewrite app_nil_r in X. apply X; [done|lia].
Qed.
Lemma walk_back_ok fuel s t : hold s H t -> length (elems t) < fuel ->
  forall M f R, elems t = M ++ R -> length M <= f ->
  walk_back fuel f (first H R) (first H (elems t)) s = Ok (rev M).
Proof.
  intros Q Hf M. induction M as [|[x a] M IH] using rev_ind; intros f R E Hm.
  - rewrite E. cbn [app]. destruct f; cbn [walk_back]; by rewrite bool_decide_eq_true_2.
  - rewrite app_length in Hm. cbn [length] in Hm. destruct f as [|f]; [lia|]. cbn [walk_back].
    rewrite <- app_assoc in E. cbn [app] in E.
    rewrite bool_decide_eq_false_2; cycle 1.
    { intros X. apply hold_nodup in Q. rewrite E in Q, X. destruct R as [|[y b] R]; cbn [first] in X.
      - apply NoDup_cons in Q as [N _]. apply N. destruct M as [|[z c] M]; cbn in X; subst; left.
      - apply NoDup_cons in Q as [_ N]. rewrite fmap_app in N. cbn in N. apply NoDup_app in N as (_ & N1 & N2).
        destruct M as [|[z c] M]; cbn in X; subst.
        + apply NoDup_cons in N2 as [N2 _]. apply N2. left.
        + apply (N1 z); [left|]. right. left. }
    assert (decrement fuel (first H R) s = Ok x) as ->.
    { destruct R as [|[y b] R]; cbn [first].
      - rewrite (decrement_end H fuel s t Q); [by rewrite E, final_snoc|]. intros ->. by destruct M.
      - rewrite (dec_ok H fuel s t (M ++ [(x, a)]) y b R Q); [by rewrite final_snoc| |done|by destruct M].
        by rewrite E, <- app_assoc. }
    cbn [obind]. rewrite (hold_key H s t x a Q) by (rewrite E; apply elem_of_app; right; left). cbn [obind].
    specialize (IH f ((x, a) :: R) E). cbn [first] in IH. rewrite IH by lia. cbn [obind].
    by rewrite rev_app_distr.
Qed.
Lemma backward_ok fuel s t : hold s H t -> length (elems t) < fuel -> backward fuel H s = Ok (rev (elems t)).
Proof.
  intros Q Hf. unfold backward. rewrite (tbegin_ok H s t Q). cbn [obind].
  pose proof (walk_back_ok fuel s t Q Hf (elems t) fuel []) as X. rewrite app_nil_r in X. apply X; [done|lia].
Qed.
End h.
End search.
