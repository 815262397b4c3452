(** Proofs about SpecialModel: which copies, moves and assignments compile. *)
From Coq Require Import List Bool.
Import ListNotations.
From Verif Require Import SpecialModel SpecialSpec.

Lemma all_cons_iff c l : all_cons c l = true <-> Forall (fun a => cons a c = true) l.
Proof. unfold all_cons. rewrite forallb_forall, Forall_forall. reflexivity. Qed.
Lemma all_asg_iff c l : all_asg c l = true <-> Forall (fun a => asg a c = true) l.
Proof. unfold all_asg. rewrite forallb_forall, Forall_forall. reflexivity. Qed.
Lemma two_cons a b c : cons a c && cons b c = all_cons c [a; b].
Proof. cbn. now rewrite andb_true_r. Qed.
Lemma two_asg a b c : asg a c && asg b c = all_asg c [a; b].
Proof. cbn. now rewrite andb_true_r. Qed.

Lemma pair_cons a b c : constructs (pair_cls a b) c = all_cons (from c) [a; b].
Proof.
  unfold constructs, resolve, copy_ctor, move_ctor. cbn [cc mc parts pair_cls ctors].
  rewrite !two_cons.
  destruct (all_cons CLV [a; b]) eqn:E1, (all_cons RV [a; b]) eqn:E2, c; cbn; now rewrite ?E1, ?E2.
Qed.
Lemma pair_asg a b c : assigns (pair_cls a b) c = match c with RV => all_asg RV [a; b] | _ => false end.
Proof.
  unfold assigns, resolve, copy_asg, move_asg. cbn [cc mc ca ma dtor declared parts pair_cls asgs orb].
  rewrite !two_asg. destruct (all_asg RV [a; b]), c; reflexivity.
Qed.
Lemma pair_good a b :
  (forall c, cons (made (pair_cls a b)) c = true <-> Forall (fun x => cons x (from c) = true) [a; b]) /\
  (forall c, asg (made (pair_cls a b)) c = true <-> c = RV /\ Forall (fun x => asg x RV = true) [a; b]).
Proof.
  split; intro c.
  - cbn [made cons]. rewrite pair_cons. apply all_cons_iff.
  - cbn [made asg]. rewrite pair_asg, <- all_asg_iff. destruct c; intuition congruence.
Qed.

Lemma value_cons a c : constructs (tuple_value_cls a) c = match c with LV => false | _ => cons a c end.
Proof.
  unfold constructs, resolve, copy_ctor, move_ctor. cbn [cc mc parts tuple_value_cls ctors].
  cbn [all_cons forallb]. rewrite !andb_true_r.
  destruct (cons a CLV) eqn:E1, (cons a RV) eqn:E2, c; cbn; now rewrite ?E1, ?E2.
Qed.
Lemma all_values c l : c <> LV -> all_cons c (map (fun a => made (tuple_value_cls a)) l) = all_cons c l.
Proof.
  intro H. induction l as [|a l IH]; [reflexivity|].
  unfold all_cons in *. cbn [map forallb]. rewrite IH. f_equal. cbn [made cons]. rewrite value_cons. now destruct c.
Qed.
Lemma impl_cons l c : constructs (tuple_impl_cls l) c = all_cons (from c) l || match c with RV => all_cons CLV l | _ => false end.
Proof.
  unfold constructs, resolve, copy_ctor, move_ctor. cbn [cc mc parts tuple_impl_cls ctors].
  rewrite !all_values by discriminate.
  destruct (all_cons CLV l) eqn:E1, (all_cons RV l) eqn:E2, c; cbn [from]; rewrite ?E1, ?E2; reflexivity.
Qed.
Lemma one_part c k : all_cons c [k] = cons k c.
Proof. cbn. apply andb_true_r. Qed.
Lemma tuple_base_cons l a1 a2 c : constructs (tuple_base l a1 a2) c =
  match c with RV => all_cons RV l || all_cons CLV l | _ => all_cons CLV l end.
Proof.
  unfold constructs, resolve, copy_ctor, move_ctor. cbn [cc mc parts tuple_base ctors].
  rewrite !one_part. cbn [made cons]. rewrite !impl_cons. cbn [from].
  destruct (all_cons CLV l) eqn:E1, (all_cons RV l) eqn:E2, c; reflexivity.
Qed.
Lemma tuple_cons l c : constructs (tuple_cls l) c =
  match c with RV => all_cons RV l || all_cons CLV l | _ => all_cons CLV l end.
Proof. unfold tuple_cls. apply tuple_base_cons. Qed.
Lemma tuple_asg l c : assigns (tuple_cls l) c = constructs (tuple_cls l) (from c) && forallb swaps l.
Proof.
  unfold assigns, tuple_cls. cbv zeta. unfold resolve, copy_asg, move_asg. cbn [ca ma tuple_base asgs].
  rewrite !tuple_base_cons. destruct c; cbn; now rewrite ?andb_true_r.
Qed.
Lemma swaps_iff l : forallb swaps l = true <-> Forall (fun a => cons a RV = true /\ asg a RV = true) l.
Proof.
  rewrite forallb_forall, Forall_forall. unfold swaps.
  split; intros H x Hx; specialize (H x Hx); [now apply andb_true_iff in H|now apply andb_true_iff].
Qed.
Lemma tuple_good l :
  (forall c, c <> RV -> cons (made (tuple_cls l)) c = true <-> Forall (fun x => cons x CLV = true) l) /\
  (cons (made (tuple_cls l)) RV = true <->
     Forall (fun x => cons x RV = true) l \/ Forall (fun x => cons x CLV = true) l) /\
  (forall c, asg (made (tuple_cls l)) c = true <->
     cons (made (tuple_cls l)) (from c) = true /\ Forall (fun x => cons x RV = true /\ asg x RV = true) l).
Proof.
  cbn [made cons asg]. split; [|split].
  - intros c H. rewrite tuple_cons, <- all_cons_iff. now destruct c.
  - rewrite tuple_cons, orb_true_iff, !all_cons_iff. reflexivity.
  - intro c. rewrite tuple_asg, andb_true_iff, swaps_iff. reflexivity.
Qed.
Lemma all_regular (P Q : caps -> Prop) l : Forall regular l -> (forall x, regular x -> P x -> Q x) -> Forall P l -> Forall Q l.
Proof. intros H F G. rewrite Forall_forall in *. intros x Hx. exact (F x (H x Hx) (G x Hx)). Qed.
Lemma tuple_regular l : Forall regular l -> like_parts l (made (tuple_cls l)).
Proof.
  intros H. destruct (tuple_good l) as (A & B & C).
  assert (X : Forall (fun x => cons x CLV = true) l -> Forall (fun x => cons x RV = true) l)
    by (apply all_regular; [exact H|]; intros x (R1 & R2 & R3); exact R1).
  assert (Y : cons (made (tuple_cls l)) RV = true <-> Forall (fun x => cons x RV = true) l) by (rewrite B; tauto).
  assert (Z : Forall (fun x => cons x RV = true /\ asg x RV = true) l <-> Forall (fun x => asg x RV = true) l).
  { split; (apply all_regular; [exact H|]); intros x (R1 & R2 & R3); tauto. }
  assert (V : Forall (fun x => asg x CLV = true) l <-> Forall (fun x => cons x CLV = true) l /\ Forall (fun x => asg x RV = true) l).
  { split.
    - intro G. split; revert G; (apply all_regular; [exact H|]); intros x (R1 & R2 & R3); tauto.
    - intros [G1 G2]. pose proof (Forall_and G1 G2) as G. revert G. apply all_regular; [exact H|]. intros x (R1 & R2 & R3). tauto. }
  assert (W : Forall (fun x => asg x RV = true) l -> Forall (fun x => cons x RV = true) l)
    by (apply all_regular; [exact H|]; intros x (R1 & R2 & R3); exact R2).
  intro c. split.
  - destruct c; cbn [from]; [apply A; discriminate|apply A; discriminate|exact Y].
  - rewrite C, Z. destruct c; cbn [from].
    1, 2: rewrite A by discriminate; rewrite V; reflexivity.
    rewrite Y. tauto.
Qed.

Lemma plain_good l : (forall a, In a l -> (cons a CLV = true -> cons a RV = true) /\ (asg a CLV = true -> asg a RV = true)) ->
  like_parts l (made (plain_cls l)).
Proof.
  intros H c. rewrite <- all_cons_iff, <- all_asg_iff.
  assert (X : all_cons CLV l = true -> all_cons RV l = true)
    by (rewrite !all_cons_iff, !Forall_forall; intros G x Hx; apply (proj1 (H x Hx)); apply G; exact Hx).
  assert (Y : all_asg CLV l = true -> all_asg RV l = true)
    by (rewrite !all_asg_iff, !Forall_forall; intros G x Hx; apply (proj2 (H x Hx)); apply G; exact Hx).
  cbn [made cons asg]. unfold constructs, assigns, resolve, copy_ctor, move_ctor, copy_asg, move_asg.
  cbn [cc mc ca ma dtor declared parts plain_cls ctors asgs orb].
  destruct (all_cons CLV l) eqn:E1, (all_cons RV l) eqn:E2; try (specialize (X eq_refl); discriminate);
  destruct (all_asg CLV l) eqn:E3, (all_asg RV l) eqn:E4; try (specialize (Y eq_refl); discriminate);
  destruct c; cbn [from]; rewrite ?E1, ?E2, ?E3, ?E4; cbn; intuition discriminate.
Qed.
Lemma view_good : like_handle (made view_cls).
Proof. intros []; split; reflexivity. Qed.
Lemma reverse_good a : like_handle a -> like_handle (made (reverse_cls a)).
Proof.
  intros H c. destruct (H CLV) as [E1 E2], (H RV) as [E3 E4].
  cbn [made cons asg]. unfold constructs, assigns, resolve, copy_ctor, move_ctor, copy_asg, move_asg.
  cbn [cc mc ca ma dtor declared parts reverse_cls ctors asgs orb all_asg forallb]. rewrite E2.
  destruct c; cbn; rewrite ?E1; split; reflexivity.
Qed.

Lemma container_good a : like_container a (made (container_cls a)).
Proof.
  split; [reflexivity|]. split; [reflexivity|].
  intros c H. cbn [made cons asg]. destruct c; [| |easy];
    unfold constructs, assigns, resolve, copy_ctor, move_ctor, copy_asg, move_asg; cbn; now destruct (cons a CLV).
Qed.
Lemma adapter_good a k g : like_container a k -> like_container a (made (adapter_cls k g)).
Proof.
  intros (A & B & C). destruct (C CLV ltac:(discriminate)) as [D _].
  unfold like_container. cbn [made cons asg].
  unfold assigns, constructs, resolve, copy_ctor, move_ctor, copy_asg, move_asg. cbn. unfold constructs, resolve. cbn. unfold swaps. rewrite A, B.
  split; [reflexivity|]. split; [destruct g; reflexivity|].
  intros c H. destruct c; [| |easy]; cbn; unfold constructs, resolve; cbn; rewrite <- D; destruct (cons k CLV), g; cbn; intuition congruence.
Qed.

Lemma unique_exact d c : (cons (made (unique_cls d)) c = true <-> c = RV /\ cons d CLV = true) /\
  (asg (made (unique_cls d)) c = true <-> c = RV /\ asg d RV = true).
Proof.
  cbn [made cons asg]. unfold constructs, assigns, resolve, copy_ctor, move_ctor, copy_asg, move_asg.
  destruct c; cbn; destruct (cons d CLV), (asg d RV); cbn; intuition congruence.
Qed.
Lemma unique_good d : like_handle d -> moves_only (made (unique_cls d)).
Proof. intros H c. destruct (unique_exact d c) as [A B]. rewrite A, B, (proj1 (H CLV)), (proj2 (H RV)). intuition. Qed.
Lemma handles_good : Forall like_handle (map made [count_cls; shared_cls; weak_cls; from_this_cls; any_cls; function_cls]).
Proof. repeat (apply Forall_cons; [intros []; split; reflexivity|]). apply Forall_nil. Qed.

Lemma any_of_good t : any_of t LV = cons t RV /\ any_of t RV = cons t RV /\ any_of t CLV = false.
Proof. repeat split; reflexivity. Qed.

Lemma defer_good f c : (cons (made (defer_cls f)) c = true <-> cons f (from c) = true) /\
  (asg (made (defer_cls f)) c = true <-> cons f (from c) = true /\ cons f RV = true /\ asg f RV = true).
Proof.
  cbn [made cons asg]. unfold assigns, constructs, resolve, copy_ctor, move_ctor, copy_asg, move_asg.
  destruct c; cbn; unfold constructs, resolve; cbn; unfold swaps;
  destruct (cons f CLV), (cons f RV), (asg f RV); cbn; intuition congruence.
Qed.

Lemma stays_part l k : stays_put k -> In k l -> stays_put (made (plain_cls l)).
Proof.
  intros H Hk c.
  assert (X : forall c, all_cons c l = false).
  { intro d. destruct (all_cons d l) eqn:E; [|reflexivity]. rewrite all_cons_iff, Forall_forall in E. specialize (E k Hk). now rewrite (proj1 (H d)) in E. }
  assert (Y : forall c, all_asg c l = false).
  { intro d. destruct (all_asg d l) eqn:E; [|reflexivity]. rewrite all_asg_iff, Forall_forall in E. specialize (E k Hk). now rewrite (proj2 (H d)) in E. }
  cbn [made cons asg]. unfold constructs, assigns, resolve, copy_ctor, move_ctor, copy_asg, move_asg.
  cbn [cc mc ca ma dtor declared parts plain_cls ctors asgs orb]. rewrite !X, !Y. destruct c; split; reflexivity.
Qed.
Lemma nocopy_stays : stays_put (made nocopy_cls).
Proof. intros []; split; reflexivity. Qed.
Lemma atomic_good a : stays_put (made (atomic_impl_cls a)) /\ stays_put (made (atomic_cls a)) /\ stays_put (made atomic_bool_cls).
Proof.
  assert (X : forall a, stays_put (made (atomic_impl_cls a))) by (intro b; apply (stays_part _ (made nocopy_cls)); [apply nocopy_stays|now left]).
  split; [apply X|]. split; [apply (stays_part _ (made (atomic_impl_cls a))); [apply X|now left]|].
  apply (stays_part _ (made nocopy_cls)); [apply nocopy_stays|now left].
Qed.
Lemma atomic_no_value a : atomic_takes a = false.
Proof. unfold atomic_takes, takes_value. cbn [orb]. exact (proj2 (proj1 (proj2 (atomic_good a)) RV)). Qed.

(** ** Cases *)
(** A type with an assignment and no constructors. *)
Definition odd : caps := {| cons := no; asg := yes |}.
Definition mover : caps := made (unique_cls scalar).
Lemma mover_is : moves_only mover.
Proof. apply unique_good. intros []; split; reflexivity. Qed.
Lemma scalar_is : like_handle scalar.
Proof. intros []; split; reflexivity. Qed.
