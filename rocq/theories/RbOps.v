(** The functions of rb_tree on a tree held by the heap. *)
From stdpp Require Import gmap list.
From Coq Require Import Lia ZifyBool ZifyNat ZifyN.
From Verif Require Import Base RbModel RbPure RbHeap RbInsert RbErase RbUnlink.
Local Open Scope outcome_scope.

Section ops.
Context {A : Type}.
Notation tr := (tr A).
Notation ctx := (list (fr A)).
Notation heap := (heap A).
Implicit Types (s : heap) (t : tr) (k : ctx).
Notation here H F s := (At H F s s).

Definition foot (H : loc) t (q : loc) : nat := bit H q + cnt t q.
(** the heap holds [t] under the header [H], with the header pointing to its ends; the root is not red *)
Definition hold s (H : loc) t : Prop := here H (foot H t) s (least H t) (most H t) t [] /\ red t = false.

Lemma hold_at s H t : hold s H t -> here H (foot H t) s (least H t) (most H t) t [].
Proof. by intros [P _]. Qed.
Lemma hold_focus s H u k : hold s H (plug u k) ->
  here H (foot H (plug u k)) s (least H (plug u k)) (most H (plug u k)) u k.
Proof. intros [P _]. by apply at_plug_nil. Qed.
Lemma hold_frame s s' H t : (forall q, 0 < foot H t q -> cells s' !! q = cells s !! q) -> hold s H t -> hold s' H t.
Proof.
  intros Hf [[P1 P2 P3 P4 P5 P6] Hr]. split; [|done]. split; auto.
  - apply (rep_frame s); [|done]. intros q Hq. apply Hf. unfold foot. lia.
  - apply (repc_frame H s); [|done]. intros q Hq. apply Hf. unfold foot. cbn [ccnt] in Hq. lia.
Qed.
Lemma hold_le s H t q : hold s H t -> bit H q + cnt t q <= 1.
Proof. intros [P _]. pose proof (at_le _ _ _ _ _ _ q P) as X. cbn [ccnt] in X. lia. Qed.
Lemma hold_nodup s H t : hold s H t -> NoDup (H :: (elems t).*1).
Proof.
  intros P. apply NoDup_cons. split.
  - intros X. apply elem_of_list_fmap in X as [[q a] [X Y]]. cbn in X. subst q.
    assert (0 < cnt t H) by (apply cnt_elems; eauto). pose proof (hold_le _ _ _ H P) as Z. rewrite bit_same in Z. lia.
  - apply nodup_elems. intros q. pose proof (hold_le _ _ _ q P). lia.
Qed.
Lemma elems_split t x a : (x, a) ∈ elems t -> exists c l r k, t = plug (T c l x a r) k.
Proof.
  enough (forall k, (x, a) ∈ elems t -> exists c l r k', plug t k = plug (T c l x a r) k') as X.
  { intros Hx. destruct (X [] Hx) as (c & l & r & k' & E). cbn in E. eauto. }
  induction t as [|c l IHl y b r IHr]; intros k; cbn [elems].
  - intros Hx. by apply elem_of_nil in Hx.
  - rewrite elem_of_app, elem_of_cons. intros [Hx|[Hx|Hx]].
    + exact (IHl (FL c y b r :: k) Hx).
    + injection Hx as -> ->. eauto 10.
    + exact (IHr (FR c l y b :: k) Hx).
Qed.

Section iter.
Context (H : loc).

(** 166-182 *)
Lemma inc_up_ok F s mn mx k : forall fuel c l x a r, here H F s mn mx (T c l x a r) k ->
  (forall y, mx = Some y -> y = final H (elems (plug (T c l x a r) k))) ->
  length k + 2 <= fuel ->
  exists y p, inc_up fuel x (pid H k) s = Ok (y, p) /\
    (n <~ right y s ; Ok (if bool_decide (n = Some p) then y else p)) = Ok (first H (after k)).
Proof.
  induction k as [|f k IH]; intros fuel c l x a r P Hm Hf; (destruct fuel as [|fuel]; [cbn in Hf; lia|]); cbn [inc_up pid].
  - pose proof (at_head _ _ _ _ _ _ P) as Ch. cbn [plug] in *. rewrite (right_ok _ _ _ Ch). cbn [obind rt].
    pose proof (at_cell _ _ _ _ _ _ _ _ _ _ P) as Cx.
    assert (forall q, bit H q + (cnt l q + bit x q + cnt r q) <= 1) as Hc.
    { intros q. pose proof (at_le _ _ _ _ _ _ q P) as X. cbn [cnt ccnt] in X. lia. }
    assert (id r <> Some H) as Nr.
    { destruct r as [|? ? z ? ?]; cbn [id]; [done|]. intros E. injection E as ->. specialize (Hc H). cbn [cnt] in Hc.
      rewrite bit_same in Hc. lia. }
    assert (H <> x) as NHx by (apply ne_of_bit; specialize (Hc x); rewrite (bit_same x) in Hc; lia).
    case_bool_decide as Hx.
    + rewrite (parent_ok _ _ _ _ Ch eq_refl). cbn [obind].
      destruct fuel as [|fuel]; [cbn in Hf; lia|]. cbn [inc_up]. rewrite (right_ok _ _ _ Cx). cbn [obind rt].
      rewrite bool_decide_eq_false_2 by done. exists H, x. split; [done|].
      rewrite (right_ok _ _ _ Ch). cbn [obind rt]. rewrite bool_decide_eq_true_2 by done. done.
    + exists x, H. split; [done|]. rewrite (right_ok _ _ _ Cx). cbn [obind rt]. rewrite bool_decide_eq_false_2 by done. done.
  - destruct f as [c' p b u|c' u p b]; cbn [floc].
    + pose proof P as P'. apply ul in P'. pose proof (at_cell _ _ _ _ _ _ _ _ _ _ P') as Cp.
      rewrite (right_ok _ _ _ Cp). cbn [obind rt]. pose proof (twins _ _ _ _ _ _ _ _ _ _ P') as Tw. cbn [id] in Tw.
      rewrite bool_decide_eq_false_2 by (intros E; apply Tw; [rewrite E; eauto|done]).
      exists x, p. split; [done|]. rewrite (right_ok _ _ _ (at_cell _ _ _ _ _ _ _ _ _ _ P)). cbn [obind rt].
      rewrite bool_decide_eq_false_2; [done|].
      destruct r as [|? ? z ? ?]; cbn [id]; [done|]. intros E. injection E as ->.
      pose proof (at_le _ _ _ _ _ _ p P) as X. cbn [cnt ccnt] in X. rewrite bit_same in X. lia.
    + pose proof P as P'. apply ur in P'. pose proof (at_cell _ _ _ _ _ _ _ _ _ _ P') as Cp.
      rewrite (right_ok _ _ _ Cp). cbn [obind rt id]. rewrite bool_decide_eq_true_2 by done.
      rewrite (at_parent _ _ _ _ _ _ _ _ _ _ P'). cbn [obind after].
      apply (IH fuel _ _ _ _ _ P'); [done|cbn in Hf; lia].
Qed.
Lemma length_ctx k t : length k + length (elems t) <= length (elems (plug t k)).
Proof.
  rewrite elems_plug, !app_length. induction k as [|[] k IH]; cbn [before after length]; rewrite ?app_length; cbn [length]; lia.
Qed.
Lemma increment_ok fuel s c l x a r k : hold s H (plug (T c l x a r) k) ->
  length (elems (plug (T c l x a r) k)) < fuel ->
  increment fuel x s = Ok (first H (elems r ++ after k)).
Proof.
  intros P Hf. apply hold_focus in P. unfold increment.
  pose proof (length_ctx k (T c l x a r)) as Hk. cbn [elems] in Hk. rewrite app_length in Hk. cbn [length] in Hk.
  rewrite (right_ok _ _ _ (at_cell _ _ _ _ _ _ _ _ _ _ P)). cbn [obind rt].
  destruct r as [|c' l' y b r'] eqn:Er; cbn [id].
  - rewrite (at_parent _ _ _ _ _ _ _ _ _ _ P). cbn [obind elems app].
    destruct (inc_up_ok _ _ _ _ _ fuel _ _ _ _ _ P) as (y & p & E1 & E2); [|lia|].
    { intros y Hy. unfold most in Hy. congruence. }
    rewrite E1. cbn [obind]. exact E2.
  - apply at_rep in P. cbn [rep] in P. destruct P as (_ & _ & R).
    rewrite (tree_min_ok _ _ _ _ _ _ _ _ H R) by (cbn [elems] in *; lia).
    rewrite first_app; [done|]. cbn. by destruct (elems l').
Qed.

(** 184-201 *)
Lemma dec_up_ok F s mn mx k : forall fuel c l x a r, here H F s mn mx (T c l x a r) k -> before k <> [] ->
  length k + 1 <= fuel ->
  dec_up fuel x (pid H k) s = Ok (final H (before k)).
Proof.
  induction k as [|f k IH]; intros fuel c l x a r P HB Hf; [done|]. destruct fuel as [|fuel]; [cbn in Hf; lia|]. cbn [dec_up pid].
  destruct f as [c' p b u|c' u p b]; cbn [floc].
  - pose proof P as P'. apply ul in P'. pose proof (at_cell _ _ _ _ _ _ _ _ _ _ P') as Cp.
    rewrite (left_ok _ _ _ Cp). cbn [obind lf id]. rewrite bool_decide_eq_true_2 by done.
    rewrite (at_parent _ _ _ _ _ _ _ _ _ _ P'). cbn [obind before].
    apply (IH fuel _ _ _ _ _ P'); [done|cbn in Hf; lia].
  - pose proof P as P'. apply ur in P'. pose proof (at_cell _ _ _ _ _ _ _ _ _ _ P') as Cp.
    rewrite (left_ok _ _ _ Cp). cbn [obind lf]. pose proof (twins _ _ _ _ _ _ _ _ _ _ P') as Tw. cbn [id] in Tw.
    rewrite bool_decide_eq_false_2 by (intros E; apply Tw; [eauto|done]). cbn [before].
    by rewrite app_assoc, final_snoc.
Qed.
Lemma decrement_ok fuel s c l x a r k : hold s H (plug (T c l x a r) k) ->
  length (elems (plug (T c l x a r) k)) < fuel -> before k ++ elems l <> [] ->
  decrement fuel x s = Ok (final H (before k ++ elems l)).
Proof.
  intros Q Hf HB. pose proof (hold_focus _ _ _ _ Q) as P. unfold decrement.
  pose proof (length_ctx k (T c l x a r)) as Hk. cbn [elems] in Hk. rewrite app_length in Hk. cbn [length] in Hk.
  pose proof (at_cell _ _ _ _ _ _ _ _ _ _ P) as Cx.
  rewrite (at_parent _ _ _ _ _ _ _ _ _ _ P). cbn [obind].
  assert (exists n, cells s !! pid H k = Some n /\ bool_decide (pa n = Some x) && bool_decide (c = Red) = false) as (n & Cn & Hn).
  { destruct k as [|f k].
    - cbn [pid]. pose proof (at_head _ _ _ _ _ _ P) as Ch. eexists. split; [exact Ch|]. cbn [plug pa id].
      destruct Q as [_ Q]. cbn [plug red] in Q. destruct c; [done|]. by rewrite andb_false_r.
    - assert (here H (foot H (plug (T c l x a r) (f :: k))) s (least H (plug (T c l x a r) (f :: k)))
        (most H (plug (T c l x a r) (f :: k))) (fill (T c l x a r) f) k) as P' by (by apply at_fill).
      assert (exists n, cells s !! floc f = Some n /\ pa n = Some (pid H k)) as (n & Cn & Hp).
      { destruct f; cbn [fill floc] in *; rewrite (at_cell _ _ _ _ _ _ _ _ _ _ P'); eauto. }
      exists n. split; [done|]. rewrite Hp. rewrite bool_decide_eq_false_2; [done|]. intros E. injection E as E.
      pose proof (at_le _ _ _ _ _ _ x P) as X. cbn [cnt] in X. rewrite bit_same in X.
      destruct k as [|g k]; cbn [pid] in E; [subst; rewrite bit_same in X; lia|].
      assert (0 < ccnt (f :: g :: k) x); [|lia]. destruct f, g; cbn [ccnt floc] in *; subst; rewrite !bit_same; lia. }
  rewrite (get_ok _ _ _ Cn), (is_red_ok _ _ _ Cx). cbn [obind col]. rewrite Hn.
  rewrite (left_ok _ _ _ Cx). cbn [obind lf].
  destruct l as [|c' l' y b r'] eqn:El; cbn [id].
  - cbn [elems] in HB |- *. rewrite app_nil_r in *. apply (dec_up_ok _ _ _ _ _ _ _ _ _ _ _ P); [done|lia].
  - apply at_rep in P. cbn [rep] in P. destruct P as (_ & R & _).
    rewrite (tree_max_ok _ _ _ _ _ _ _ _ H R) by (cbn [elems] in *; lia).
    rewrite final_app; [done|]. cbn. by destruct (elems l').
Qed.
Lemma decrement_end fuel s t : hold s H t -> t <> E -> decrement fuel H s = Ok (final H (elems t)).
Proof.
  intros Q Ht. pose proof (hold_at _ _ _ Q) as P. unfold decrement. pose proof (at_head _ _ _ _ _ _ P) as Ch. cbn [plug] in Ch.
  destruct t as [|c l x a r]; [done|]. cbn [id] in Ch.
  rewrite (parent_ok _ _ _ _ Ch eq_refl). cbn [obind].
  rewrite (get_ok _ _ _ (at_cell _ _ _ _ _ _ _ _ _ _ P)), (is_red_ok _ _ _ Ch). cbn [obind col pa pid].
  rewrite !bool_decide_eq_true_2 by done. cbn [andb]. rewrite (right_ok _ _ _ Ch). done.
Qed.
Lemma tbegin_ok s t : hold s H t -> tbegin H s = Ok (first H (elems t)).
Proof.
  intros Q. unfold tbegin. by rewrite (get_ok _ _ _ (at_head _ _ _ _ _ _ (hold_at _ _ _ Q))).
Qed.
Lemma hold_key s t x a : hold s H t -> (x, a) ∈ elems t -> key x s = Ok a.
Proof.
  intros Q Hx. destruct (elems_split _ _ _ Hx) as (c & l & r & k & ->). apply hold_focus in Q.
  by apply (key_ok _ _ _ _ (at_cell _ _ _ _ _ _ _ _ _ _ Q)).
Qed.

(** the same in terms of the elements *)
Lemma split_unique (l1 l2 m1 m2 : list (loc * A)) x a b :
  NoDup ((l1 ++ (x, a) :: l2).*1) -> l1 ++ (x, a) :: l2 = m1 ++ (x, b) :: m2 -> l1 = m1 /\ a = b /\ l2 = m2.
Proof.
  revert m1. induction l1 as [|y l1 IH]; intros m1 N E.
  - destruct m1 as [|z m1]; cbn in E.
    + injection E as -> ->. done.
    + injection E as <- ->. cbn in N. apply NoDup_cons in N as [N _]. destruct N. rewrite fmap_app. apply elem_of_app. right. left.
  - destruct m1 as [|z m1]; cbn in E.
    + injection E as -> <-. cbn in N. apply NoDup_cons in N as [N _]. destruct N. rewrite fmap_app. apply elem_of_app. right. left.
    + injection E as <- E. cbn in N. apply NoDup_cons in N as [_ N]. destruct (IH m1 N E) as (-> & -> & ->). done.
Qed.
Lemma focus_split s t L x a R : hold s H t -> elems t = L ++ (x, a) :: R ->
  exists c l r k, t = plug (T c l x a r) k /\ L = before k ++ elems l /\ R = elems r ++ after k.
Proof.
  intros Q E. destruct (elems_split t x a) as (c & l & r & k & ->); [rewrite E, elem_of_app; right; left|].
  exists c, l, r, k. split; [done|]. apply hold_nodup, NoDup_cons in Q as [_ N]. rewrite elems_plug in N, E. cbn [elems] in *.
  rewrite <- app_assoc, app_assoc in N, E. cbn [app] in *. destruct (split_unique _ _ _ _ _ _ _ N E) as (-> & _ & ->). done.
Qed.
Lemma inc_ok fuel s t L x a R : hold s H t -> elems t = L ++ (x, a) :: R -> length (elems t) < fuel ->
  increment fuel x s = Ok (first H R).
Proof.
  intros Q E Hf. destruct (focus_split _ _ _ _ _ _ Q E) as (c & l & r & k & -> & -> & ->). by apply (increment_ok _ _ c l x a).
Qed.
Lemma dec_ok fuel s t L x a R : hold s H t -> elems t = L ++ (x, a) :: R -> length (elems t) < fuel -> L <> [] ->
  decrement fuel x s = Ok (final H L).
Proof.
  intros Q E Hf HL. destruct (focus_split _ _ _ _ _ _ Q E) as (c & l & r & k & -> & -> & ->). by apply (decrement_ok _ _ c l x a r).
Qed.
End iter.
End ops.
