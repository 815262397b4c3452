(** The counters count the handles, through destructors that run destructors. *)
From stdpp Require Import gmap.
From Coq Require Import ZArith Lia.
From Verif Require Import Base GraphModel GraphSpec.
Local Open Scope nat_scope.
Set Default Goal Selector "1".

(** * Counting the members of a group *)
Global Arguments times : simpl never.
Notation hmap := (gmap loc (option nat)).
Definition bump (h : option nat) (g : nat) : nat := if decide (h = Some g) then 1 else 0.

Lemma members_insert_new (m : hmap) x h g :
  m !! x = None -> members (<[x := h]> m) g = members m g + bump h g.
Proof.
  intros E. unfold members, bump. destruct (decide (h = Some g)) as [->|N].
  - rewrite map_filter_insert_True by done. rewrite map_size_insert_None; [lia|].
    apply map_filter_lookup_None; auto.
  - rewrite map_filter_insert_not' by (cbn; auto || (intros; congruence)). lia.
Qed.
Lemma members_delete (m : hmap) x h g :
  m !! x = Some h -> members (delete x m) g + bump h g = members m g.
Proof.
  intros E. rewrite <- (insert_delete m x h E) at 2.
  rewrite members_insert_new by apply lookup_delete. lia.
Qed.
Lemma members_insert (m : hmap) x h h' g :
  m !! x = Some h -> members (<[x := h']> m) g + bump h g = members m g + bump h' g.
Proof.
  intros E. rewrite <- insert_delete_insert.
  rewrite members_insert_new by apply lookup_delete.
  pose proof (members_delete m x h g E). lia.
Qed.
Lemma members_pos (m : hmap) x g : m !! x = Some (Some g) -> 0 < members m g.
Proof.
  intros E. pose proof (members_delete m x _ g E) as H. unfold bump in H. rewrite decide_True in H by done. lia.
Qed.
Lemma members_zero (m : hmap) g : members m g = 0 -> forall l, m !! l <> Some (Some g).
Proof. intros Z l E. pose proof (members_pos m l g E). lia. Qed.
Lemma members_some (m : hmap) g : 0 < members m g -> exists l, m !! l = Some (Some g).
Proof.
  unfold members. intros H. destruct (map_choose (filter (fun p => p.2 = Some g) m)) as (l & h & E).
  - intros E. rewrite E, map_size_empty in H. lia.
  - apply map_filter_lookup_Some in E as [E1 E2]. cbn in E2. subst. eauto.
Qed.
Lemma members_size (m : hmap) g : members m g <= size m.
Proof.
  unfold members. induction m as [|x h m E IH] using map_ind.
  - rewrite map_filter_empty, map_size_empty. lia.
  - fold (members (<[x := h]> m) g). rewrite members_insert_new, map_size_insert_None by done.
    unfold members, bump. case_decide; lia.
Qed.
Lemma members_empty g : members ∅ g = 0.
Proof. unfold members. rewrite map_filter_empty. apply map_size_empty. Qed.
Lemma bump_self g : bump (Some g) g = 1.
Proof. unfold bump. by rewrite decide_True. Qed.
Lemma bump_ne g h : g <> h -> bump (Some g) h = 0.
Proof. intros N. unfold bump. rewrite decide_False; congruence. Qed.
Lemma bump_none g : bump None g = 0.
Proof. done. Qed.

(** * The counters against the groups *)
Definition target (k : raw) (g : nat) : option nat := if has_object k then Some g else None.
Definition body (k : raw) : option obj :=
  match k with RNull => None | RObj self _ => Some {| from_this := self; lay := layout k |} end.
(** Group [g] of kind [k] with [a] shared and [b] weak handles; [d]: its object is being destroyed. *)
Record ent (a b : nat) (d : bool) (g : nat) (k : raw) (s : state) : Prop := {
  ent_block : blocks s !! g =
    (if (a + b =? 0) && negb d then None
     else Some {| sc := Z.of_nat a; wc := Z.of_nat (b + if (a =? 0) && negb d then 0 else 1); ptr := target k g |});
  ent_obj : objs s !! g = (if a =? 0 then None else body k);
  ent_des : times (destroyed s) g = (if a =? 0 then if has_object k then 1 else 0 else 0);
  ent_fre : times (freed s) g = (if (a + b =? 0) && negb d then 1 else 0) }.
Definition inD (D : gset nat) (g : nat) : bool := bool_decide (g ∈ D).
Record core (K : list raw) (a b : nat -> nat) (D : gset nat) (s : state) : Prop := {
  core_nxt : nxt s = length K;
  core_ent g k : K !! g = Some k -> ent (a g) (b g) (inD D g) g k s;
  core_gone g : g ∈ D -> a g = 0;
  core_out g : K !! g = None ->
    a g = 0 /\ b g = 0 /\ g ∉ D /\ blocks s !! g = None /\ objs s !! g = None /\
    times (destroyed s) g = 0 /\ times (freed s) g = 0 }.
Definition upd (f : nat -> nat) (g v h : nat) : nat := if decide (h = g) then v else f h.
Lemma upd_eq f g v : upd f g v g = v.
Proof. unfold upd. by rewrite decide_True. Qed.
Lemma upd_ne f g v h : h <> g -> upd f g v h = f h.
Proof. intros. unfold upd. by rewrite decide_False. Qed.

Lemma core_ext K a b a' b' D s :
  core K a b D s -> (forall g, a g = a' g) -> (forall g, b g = b' g) -> core K a' b' D s.
Proof.
  intros [N E G O] Ha Hb. split; [done| | |].
  - intros g k H. rewrite <- Ha, <- Hb. by apply E.
  - intros g H. rewrite <- Ha. by apply G.
  - intros g H. rewrite <- Ha, <- Hb. by apply O.
Qed.
Lemma ent_same a b d g k s s' :
  ent a b d g k s -> blocks s' !! g = blocks s !! g -> objs s' !! g = objs s !! g ->
  times (destroyed s') g = times (destroyed s) g -> times (freed s') g = times (freed s) g -> ent a b d g k s'.
Proof. intros [] E1 E2 E3 E4. split; congruence. Qed.
(** Only group [g] changes. *)
Lemma core_change K a b D s s' g k a' b' D' :
  core K a b D s -> K !! g = Some k -> nxt s' = nxt s ->
  (forall h, h <> g -> blocks s' !! h = blocks s !! h /\ objs s' !! h = objs s !! h /\
    times (destroyed s') h = times (destroyed s) h /\ times (freed s') h = times (freed s) h) ->
  (forall h, h <> g -> h ∈ D' <-> h ∈ D) -> (g ∈ D' -> a' = 0) ->
  ent a' b' (inD D' g) g k s' -> core K (upd a g a') (upd b g b') D' s'.
Proof.
  intros [N E G O] Hk Hn Hf HD Hg He. split.
  - congruence.
  - intros h k0 H0. destruct (decide (h = g)) as [->|Ne].
    + rewrite !upd_eq. by simplify_eq.
    + rewrite !upd_ne by done. destruct (Hf h Ne) as (?&?&?&?).
      replace (inD D' h) with (inD D h) by (unfold inD; apply bool_decide_ext; symmetry; auto).
      eapply ent_same; eauto.
  - intros h Hh. destruct (decide (h = g)) as [->|Ne]; [rewrite upd_eq; auto|]. rewrite upd_ne by done. apply G, HD; auto.
  - intros h H0. assert (Ne : h <> g) by congruence. rewrite !upd_ne by done. destruct (Hf h Ne) as (->&->&->&->).
    destruct (O h H0) as (?&?&?&?). rewrite HD by done. auto.
Qed.
Lemma times_app l n m : times (l ++ [n]) m = times l m + if decide (n = m) then 1 else 0.
Proof.
  unfold times. rewrite count_occ_app. cbn.
  destruct (Nat.eq_dec n m), (decide (n = m)); congruence || lia.
Qed.
Lemma wrap_id z : (0 <= z < 2 ^ 64)%Z -> wrap z = z.
Proof. apply Z.mod_small. Qed.
Lemma core_kind K a b D s g : core K a b D s -> 0 < a g + b g \/ g ∈ D -> exists k, K !! g = Some k.
Proof.
  intros C H. destruct (K !! g) as [k|] eqn:E; [eauto|]. destruct (core_out _ _ _ _ _ C g E) as (?&?&?&_). destruct H; [lia|done].
Qed.

(** What leaves the handles alone. *)
Definition same (s s' : state) : Prop := shs s' = shs s /\ wks s' = wks s.

Lemma inD_true D g : g ∈ D -> inD D g = true.
Proof. intros. unfold inD. by apply bool_decide_eq_true. Qed.
Lemma inD_false D g : g ∉ D -> inD D g = false.
Proof. intros. unfold inD. by apply bool_decide_eq_false. Qed.

(** The block of a group that somebody holds. *)
Lemma core_block K a b D s g : core K a b D s -> 0 < a g + b g \/ g ∈ D ->
  exists k, K !! g = Some k /\ blocks s !! g =
    Some {| sc := Z.of_nat (a g); wc := Z.of_nat (b g + if (a g =? 0) && negb (inD D g) then 0 else 1); ptr := target k g |}.
Proof.
  intros C H. destruct (core_kind _ _ _ _ _ _ C H) as [k Hk]. exists k. split; [done|].
  destruct (core_ent _ _ _ _ _ C g k Hk) as [-> _ _ _].
  destruct ((a g + b g =? 0) && negb (inD D g)) eqn:E; [|done]. exfalso.
  apply andb_true_iff in E as [E1 E2]. apply Nat.eqb_eq in E1. destruct H as [H|H]; [lia|].
  rewrite inD_true in E2; done.
Qed.

Ltac solve_frame := intros ? ?; cbn; rewrite ?lookup_delete_ne by congruence; rewrite ?lookup_insert_ne by congruence; rewrite ?times_app;
  repeat (case_decide; [congruence|]); rewrite ?Nat.add_0_r; auto.

Lemma copy_shared_ok K a b D s g : core K a b D s -> 0 < a g -> (Z.of_nat (a g) + 1 < 2 ^ 64)%Z ->
  exists s', copy_shared_ref g s = Ok s' /\ core K (upd a g (a g + 1)) b D s' /\ same s s' /\ objs s' = objs s.
Proof.
  intros C P B. destruct (core_block _ _ _ _ _ g C) as (k & Hk & E); [lia|].
  unfold copy_shared_ref, get_block. rewrite E. cbn. eexists. split; [done|]. split; [|done].
  assert (nD : g ∉ D) by (intros X; pose proof (core_gone _ _ _ _ _ C g X); lia).
  apply (core_ext _ (upd a g (a g + 1)) (upd b g (b g))); [|done|intros h; unfold upd; case_decide; congruence].
  eapply (core_change _ _ _ _ _ _ _ _ _ _ _ C Hk); [done|solve_frame|done|done|].
  destruct (core_ent _ _ _ _ _ C g k Hk) as [E1 E2 E3 E4]. rewrite inD_false in * by done. split; cbn.
  - rewrite lookup_insert. rewrite wrap_id by lia.
    replace (a g + 1 + b g =? 0) with false by (symmetry; apply Nat.eqb_neq; lia).
    replace (a g + 1 =? 0) with false by (symmetry; apply Nat.eqb_neq; lia).
    replace (a g =? 0) with false by (symmetry; apply Nat.eqb_neq; lia). cbn. do 2 f_equal. lia.
  - rewrite E2. replace (a g + 1 =? 0) with false by (symmetry; apply Nat.eqb_neq; lia).
    by replace (a g =? 0) with false by (symmetry; apply Nat.eqb_neq; lia).
  - rewrite E3. replace (a g + 1 =? 0) with false by (symmetry; apply Nat.eqb_neq; lia).
    by replace (a g =? 0) with false by (symmetry; apply Nat.eqb_neq; lia).
  - rewrite E4. replace (a g + 1 + b g =? 0) with false by (symmetry; apply Nat.eqb_neq; lia).
    by replace (a g + b g =? 0) with false by (symmetry; apply Nat.eqb_neq; lia).
Qed.

Lemma copy_weak_ok K a b D s g : core K a b D s -> 0 < a g + b g \/ g ∈ D -> (Z.of_nat (b g) + 2 < 2 ^ 64)%Z ->
  exists s', copy_weak_ref g s = Ok s' /\ core K a (upd b g (b g + 1)) D s' /\ same s s' /\ objs s' = objs s.
Proof.
  intros C P B. destruct (core_block _ _ _ _ _ g C) as (k & Hk & E); [done|].
  unfold copy_weak_ref, get_block. rewrite E. cbn. eexists. split; [done|]. split; [|done].
  apply (core_ext _ (upd a g (a g)) (upd b g (b g + 1))); [|intros h; unfold upd; case_decide; congruence|done].
  eapply (core_change _ _ _ _ _ _ _ _ _ _ _ C Hk); [done|solve_frame|done|apply (core_gone _ _ _ _ _ C)|].
  destruct (core_ent _ _ _ _ _ C g k Hk) as [E1 E2 E3 E4].
  replace (a g + (b g + 1) =? 0) with false by (symmetry; apply Nat.eqb_neq; lia). split; cbn; [|done..|].
  - rewrite lookup_insert. rewrite wrap_id by (destruct ((a g =? 0) && negb (inD D g)); lia).
    replace (a g + (b g + 1) =? 0) with false by (symmetry; apply Nat.eqb_neq; lia). cbn.
    do 2 f_equal. destruct ((a g =? 0) && negb (inD D g)); lia.
  - rewrite E4. replace (a g + (b g + 1) =? 0) with false by (symmetry; apply Nat.eqb_neq; lia). cbn.
    destruct ((a g + b g =? 0) && negb (inD D g)) eqn:F; [|done]. exfalso. congruence.
Qed.

(** One shared handle less, not the last. *)
Lemma release_more K a b D s g : core K a b D s -> 1 < a g -> (Z.of_nat (a g) < 2 ^ 64)%Z ->
  exists s', shared_release g s = Ok (Z.of_nat (a g - 1), s') /\ core K (upd a g (a g - 1)) b D s' /\ same s s' /\ objs s' = objs s.
Proof.
  intros C P B. destruct (core_block _ _ _ _ _ g C) as (k & Hk & E); [lia|].
  unfold shared_release, get_block. rewrite E. cbn. rewrite wrap_id by lia.
  replace (Z.of_nat (a g) - 1)%Z with (Z.of_nat (a g - 1)) by lia. eexists. split; [done|]. split; [|done].
  assert (nD : g ∉ D) by (intros X; pose proof (core_gone _ _ _ _ _ C g X); lia).
  apply (core_ext _ (upd a g (a g - 1)) (upd b g (b g))); [|done|intros h; unfold upd; case_decide; congruence].
  eapply (core_change _ _ _ _ _ _ _ _ _ _ _ C Hk); [done|solve_frame|done|done|].
  destruct (core_ent _ _ _ _ _ C g k Hk) as [E1 E2 E3 E4]. rewrite inD_false in * by done.
  replace (a g + b g =? 0) with false in * by (symmetry; apply Nat.eqb_neq; lia).
  replace (a g =? 0) with false in * by (symmetry; apply Nat.eqb_neq; lia).
  split; cbn; rewrite ?lookup_insert;
    replace (a g - 1 + b g =? 0) with false by (symmetry; apply Nat.eqb_neq; lia);
    replace (a g - 1 =? 0) with false by (symmetry; apply Nat.eqb_neq; lia); done.
Qed.

(** The last one: the destructor of the object starts. *)
Definition started (o : nat) (s : state) : state :=
  {| blocks := blocks s; objs := delete o (objs s); shs := shs s; wks := wks s;
     nxt := nxt s; destroyed := destroyed s ++ [o]; freed := freed s |}.
Lemma release_last K a b D s g : core K a b D s -> a g = 1 ->
  exists s1 k, shared_release g s = Ok (0%Z, s1) /\ K !! g = Some k /\ same s s1 /\ objs s1 = objs s /\
    get_block g s1 = Ok {| sc := 0; wc := Z.of_nat (b g + 1); ptr := target k g |} /\
    core K (upd a g 0) b ({[g]} ∪ D) (if has_object k then started g s1 else s1).
Proof.
  intros C P. destruct (core_block _ _ _ _ _ g C) as (k & Hk & E); [lia|].
  unfold shared_release, get_block. rewrite E, P. cbn. rewrite wrap_id by lia.
  eexists _, k. split; [done|]. split; [done|]. split; [done|]. split; [done|]. cbn. rewrite lookup_insert. cbn.
  assert (nD : g ∉ D) by (intros X; pose proof (core_gone _ _ _ _ _ C g X); lia). 
  split; [done|].
  apply (core_ext _ (upd a g 0) (upd b g (b g))); [|done|intros h; unfold upd; case_decide; congruence].
  destruct (core_ent _ _ _ _ _ C g k Hk) as [E1 E2 E3 E4].
  eapply (core_change _ _ _ _ _ _ _ _ _ _ _ C Hk);
    [destruct k; done|destruct k; solve_frame|set_solver|done|].
  rewrite inD_true by set_solver. rewrite P in E2, E3, E4. cbn in E2, E3, E4.
  destruct k as [|self l]; split; cbn; rewrite ?lookup_insert, ?lookup_delete, ?times_app, ?andb_false_r; try done.
  - rewrite E3. by rewrite decide_True.
Qed.

(** The destructor is through: the owners' weak count goes. *)
Lemma weak_last K a b D s g : core K a b D s -> g ∈ D -> (Z.of_nat (b g) + 1 < 2 ^ 64)%Z ->
  exists s', (' (r, s) <~ weak_release g s ; if (r =? 0)%Z then distory g s else Ok s)%outcome = Ok s' /\
    core K a b (D ∖ {[g]}) s' /\ same s s' /\ objs s' = objs s /\ destroyed s' = destroyed s.
Proof.
  intros C P B. destruct (core_block _ _ _ _ _ g C) as (k & Hk & E); [auto|].
  pose proof (core_gone _ _ _ _ _ C g P) as A0. rewrite A0, inD_true in E by done. cbn in E.
  unfold weak_release, get_block. rewrite E. cbn. rewrite wrap_id by lia.
  destruct (core_ent _ _ _ _ _ C g k Hk) as [E1 E2 E3 E4]. rewrite A0, inD_true in * by done.
  assert (Dg : g ∉ D ∖ {[g]}) by set_solver.
  assert (X : forall s', nxt s' = nxt s -> (forall h, h <> g -> blocks s' !! h = blocks s !! h /\ objs s' !! h = objs s !! h /\
    times (destroyed s') h = times (destroyed s) h /\ times (freed s') h = times (freed s) h) ->
    ent 0 (b g) false g k s' -> core K a b (D ∖ {[g]}) s').
  { intros s' H1 H2 H3. apply (core_ext _ (upd a g 0) (upd b g (b g)));
      [|intros h; unfold upd; case_decide; congruence|intros h; unfold upd; case_decide; congruence].
    eapply (core_change _ _ _ _ _ _ _ _ _ _ _ C Hk); [done|done|set_solver|done|]. by rewrite inD_false. }
  replace (Z.of_nat (b g + 1) - 1)%Z with (Z.of_nat (b g)) by lia.
  destruct (Z.eqb_spec (Z.of_nat (b g)) 0) as [Z0|Z0].
  - unfold distory, get_block, put_block. cbn. rewrite lookup_insert. cbn. eexists. split; [done|]. split; [|done].
    assert (b g = 0) as B0 by lia. apply X; [done|solve_frame|].
    rewrite B0 in *. cbn in *. split; cbn; [by rewrite lookup_delete|done|done|]. rewrite times_app, decide_True, E4 by done. done.
  - eexists. split; [done|]. split; [|done]. apply X; [done|solve_frame|].
    assert (N0 : b g =? 0 = false) by (apply Nat.eqb_neq; lia).
    split; cbn; rewrite ?lookup_insert, ?N0; cbn; [do 2 f_equal; lia|done|done|].
    rewrite E4. rewrite andb_false_r. done.
Qed.

(** One weak handle less. *)
Lemma weak_ok K a b D s g : core K a b D s -> 0 < b g -> (Z.of_nat (b g) + 1 < 2 ^ 64)%Z ->
  exists s', weak_count_release (Some g) s = Ok s' /\ core K a (upd b g (b g - 1)) D s' /\ same s s' /\ objs s' = objs s /\ destroyed s' = destroyed s.
Proof.
  intros C P B. destruct (core_block _ _ _ _ _ g C) as (k & Hk & E); [lia|].
  unfold weak_count_release, weak_release, get_block. rewrite E. cbn.
  destruct (core_ent _ _ _ _ _ C g k Hk) as [E1 E2 E3 E4].
  set (own := if (a g =? 0) && negb (inD D g) then 0 else 1) in *.
  assert (Ho : own <= 1) by (unfold own; destruct ((a g =? 0) && negb (inD D g)); lia).
  rewrite wrap_id by lia. replace (Z.of_nat (b g + own) - 1)%Z with (Z.of_nat (b g - 1 + own)) by lia.
  assert (X : forall s', nxt s' = nxt s -> (forall h, h <> g -> blocks s' !! h = blocks s !! h /\ objs s' !! h = objs s !! h /\
    times (destroyed s') h = times (destroyed s) h /\ times (freed s') h = times (freed s) h) ->
    ent (a g) (b g - 1) (inD D g) g k s' -> core K a (upd b g (b g - 1)) D s').
  { intros s' H1 H2 H3. apply (core_ext _ (upd a g (a g)) (upd b g (b g - 1)));
      [|intros h; unfold upd; case_decide; congruence|done].
    eapply (core_change _ _ _ _ _ _ _ _ _ _ _ C Hk); [done|done|done|apply (core_gone _ _ _ _ _ C)|done]. }
  replace (a g + b g =? 0) with false in * by (symmetry; apply Nat.eqb_neq; lia). cbn in E4.
  destruct (Z.eqb_spec (Z.of_nat (b g - 1 + own)) 0) as [Z0|Z0].
  - unfold distory, get_block, put_block. cbn. rewrite lookup_insert. cbn. eexists. split; [done|]. split; [|done].
    assert (O0 : own = 0) by lia. unfold own in O0. destruct ((a g =? 0) && negb (inD D g)) eqn:F; [|lia].
    apply andb_true_iff in F as [F1 F2]. apply Nat.eqb_eq in F1.
    apply X; [done|solve_frame|]. destruct (inD D g); [done|]. rewrite F1 in *. replace (b g - 1) with 0 by lia. cbn in *.
    split; cbn; [by rewrite lookup_delete|done|done|]. rewrite times_app, decide_True, E4 by done. done.
  - eexists. split; [done|]. split; [|done]. apply X; [done|solve_frame|].
    assert (N0 : (a g + (b g - 1) =? 0) && negb (inD D g) = false).
    { unfold own in *. destruct (Nat.eqb_spec (a g) 0) as [A0|A0], (inD D g); cbn in *; rewrite ?andb_false_r; try done.
      all: rewrite andb_true_r; apply Nat.eqb_neq; lia. }
    split; cbn; rewrite ?lookup_insert, ?N0; cbn; [do 2 f_equal; fold own; lia|done|done|done].
Qed.

(** The weak counter's lock, one thread at a time. *)
Lemma lock_alive K a b D s g : core K a b D s -> 0 < a g -> (Z.of_nat (a g) + 1 < 2 ^ 64)%Z ->
  exists s', lock g s = Ok (true, s') /\ core K (upd a g (a g + 1)) b D s' /\ same s s' /\ objs s' = objs s.
Proof.
  intros C P B. destruct (core_block _ _ _ _ _ g C) as (k & Hk & E); [lia|].
  destruct (copy_shared_ok _ _ _ _ _ g C P B) as (s' & E' & H).
  unfold copy_shared_ref, get_block in E'. rewrite E in E'. cbn in E'. injection E' as <-.
  eexists. split; [|exact H].
  unfold lock, get_block. rewrite E. cbn [of_option obind lock_loop sc].
  replace (Z.of_nat (a g) =? 0)%Z with false by (symmetry; apply Z.eqb_neq; lia).
  unfold get_block. rewrite E. cbn [of_option obind sc]. rewrite Z.eqb_refl.
  unfold put_block at 1. cbn [blocks]. rewrite lookup_insert. cbn [of_option obind sc].
  rewrite wrap_id by lia. replace (Z.of_nat (a g) + 1 =? Z.of_nat (a g))%Z with false by (symmetry; apply Z.eqb_neq; lia).
  done.
Qed.
Lemma lock_dead K a b D s g : core K a b D s -> a g = 0 -> 0 < b g -> lock g s = Ok (false, s).
Proof.
  intros C A P. destruct (core_block _ _ _ _ _ g C) as (k & Hk & E); [lia|].
  unfold lock, get_block. rewrite E, A. done.
Qed.

(** * The handles *)
Definition hs (b : bool) (s : state) : gmap loc handle := if b then shs s else wks s.
Definition A (e : option nat) (s : state) (g : nat) : nat := members (hc <$> shs s) g + bump e g.
Definition B (e : option nat) (s : state) (g : nat) : nat := members (hc <$> wks s) g + bump e g.
(** The members are those of the objects that exist or are being destroyed. *)
Definition wellf (K : list raw) (D : gset nat) (s : state) : Prop := forall b o i,
  (is_Some (hs b s !! Field o i) ->
     exists k, K !! o = Some k /\ layout k !! i = Some b /\ (is_Some (objs s !! o) \/ o ∈ D)) /\
  (forall k, K !! o = Some k -> is_Some (objs s !! o) -> layout k !! i = Some b -> is_Some (hs b s !! Field o i)).
Definition fits (s : state) : Prop := (Z.of_nat (size (shs s) + size (wks s)) + 8 < 2 ^ 64)%Z.
(** [e] and [ew]: a shared and a weak count that is in no handle for the moment. *)
Definition inv (K : list raw) (e ew : option nat) (D : gset nat) (s : state) : Prop :=
  core K (A e s) (B ew s) D s /\ wellf K D s /\ fits s.

Lemma core_same K a b D s s' : core K a b D s -> blocks s' = blocks s -> objs s' = objs s -> nxt s' = nxt s ->
  destroyed s' = destroyed s -> freed s' = freed s -> core K a b D s'.
Proof.
  intros [N E G O] E1 E2 E3 E4 E5. split.
  - congruence.
  - intros g k H. eapply ent_same; [by apply E|congruence..].
  - done.
  - intros g H. rewrite E1, E2, E4, E5. auto.
Qed.
Lemma size_hc (m : gmap loc handle) : size (hc <$> m) = size m.
Proof. apply map_size_fmap. Qed.
Lemma bump_le e g : bump e g <= 1.
Proof. unfold bump. case_decide; lia. Qed.
Lemma A_le e s g : A e s g <= size (shs s) + 1.
Proof. unfold A. pose proof (members_size (hc <$> shs s) g). rewrite size_hc in H. pose proof (bump_le e g). lia. Qed.
Lemma B_le e s g : B e s g <= size (wks s) + 1.
Proof. unfold B. pose proof (members_size (hc <$> wks s) g). rewrite size_hc in H. pose proof (bump_le e g). lia. Qed.
Lemma inv_bounds K e ew D s g : inv K e ew D s ->
  (Z.of_nat (A e s g) + 4 < 2 ^ 64)%Z /\ (Z.of_nat (B ew s g) + 4 < 2 ^ 64)%Z.
Proof. intros (_ & _ & F). unfold fits in F. pose proof (A_le e s g). pose proof (B_le ew s g). lia. Qed.

(** The shared handles change, and the count in transit with them. *)
Lemma inv_shs K e e' ew D s m : inv K e ew D s ->
  (forall g, members (hc <$> m) g + bump e' g = A e s g) -> wellf K D (with_shs m s) -> fits (with_shs m s) ->
  inv K e' ew D (with_shs m s).
Proof.
  intros (C & _ & _) H W F. split; [|done].
  apply (core_ext _ (A e s) (B ew s)); [by eapply core_same|intros; symmetry; apply H|done].
Qed.
Lemma inv_wks K e ew ew' D s m : inv K e ew D s ->
  (forall g, members (hc <$> m) g + bump ew' g = B ew s g) -> wellf K D (with_wks m s) -> fits (with_wks m s) ->
  inv K e ew' D (with_wks m s).
Proof.
  intros (C & _ & _) H W F. split; [|done].
  apply (core_ext _ (A e s) (B ew s)); [by eapply core_same|done|intros; symmetry; apply H].
Qed.
Lemma inv_same K e e' ew ew' D D' s s' : inv K e ew D s -> core K (A e' s) (B ew' s) D' s' -> same s s' -> objs s' = objs s ->
  (forall g, g ∈ D -> g ∈ D') -> inv K e' ew' D' s'.
Proof.
  intros (C & W & F) C' [E1 E2] E3 HD. split; [|split].
  - unfold A, B in *. rewrite E1, E2. done.
  - intros b o i. replace (hs b s') with (hs b s) by (destruct b; cbn; congruence). rewrite E3.
    destruct (W b o i) as [W1 W2]. split; [|done]. intros X. destruct (W1 X) as (k & ?&?&[?|?]); eauto 10.
  - unfold fits. by rewrite E1, E2.
Qed.

(** * Destruction *)
Definition gone (X : gset nat) (s s' : state) : Prop :=
  nxt s' = nxt s /\ (forall o, objs s' !! o = objs s !! o \/ objs s' !! o = None) /\
  forall b l, hs b s' !! l = hs b s !! l \/
    exists o i, l = Field o i /\ hs b s' !! l = None /\ ((is_Some (objs s !! o) /\ objs s' !! o = None) \/ o ∈ X).
Lemma gone_refl X s : gone X s s.
Proof. split; [done|]. split; auto. Qed.
Lemma gone_trans X s s1 s2 : gone X s s1 -> gone X s1 s2 -> gone X s s2.
Proof.
  intros (N1 & O1 & H1) (N2 & O2 & H2). split; [congruence|]. split.
  - intros o. destruct (O2 o) as [->| ->]; auto.
  - intros b l. destruct (H2 b l) as [->|(o & i & -> & E & [[P Q]|P])].
    + destruct (H1 b l) as [?|(o & i & -> & E & [[P Q]|P])]; [auto| |].
      * right. exists o, i. split; [done|]. split; [done|]. left. split; [done|]. destruct (O2 o); congruence.
      * right. eauto 10.
    + right. exists o, i. split; [done|]. split; [done|]. left. split; [|done].
      destruct (O1 o) as [Y|Y]; rewrite Y in P; [done|by destruct P].
    + right. eauto 10.
Qed.
Lemma gone_same X s s' : nxt s' = nxt s -> same s s' -> objs s' = objs s -> gone X s s'.
Proof.
  intros N [E1 E2] E3. split; [done|]. split; [intros; left; congruence|]. intros b l. left. destruct b; cbn; congruence.
Qed.
Lemma gone_size X s s' : gone X s s' -> size (objs s') <= size (objs s).
Proof.
  intros (_ & O & _). assert (objs s' ⊆ objs s).
  { apply map_subseteq_spec. intros o v E. destruct (O o); congruence. }
  rewrite <- (size_dom (D := gset nat) (objs s)), <- (size_dom (D := gset nat) (objs s')). apply subseteq_size, subseteq_dom; done.
Qed.
Lemma gone_sizes X s s' b : gone X s s' -> size (hs b s') <= size (hs b s).
Proof.
  intros (_ & _ & H). assert (hs b s' ⊆ hs b s).
  { apply map_subseteq_spec. intros l v E. destruct (H b l) as [?|(?&?&?&?&?)]; congruence. }
  rewrite <- (size_dom (D := gset loc) (hs b s)), <- (size_dom (D := gset loc) (hs b s')). apply subseteq_size, subseteq_dom; done.
Qed.

(** The handles [m0] has and [s] has no more belonged to objects that go. *)
Definition right_so (m0 : hmap) (D : gset nat) (s : state) : Prop :=
  (forall o, o ∈ D -> goes m0 o) /\
  forall l g, m0 !! l = Some (Some g) -> (hc <$> shs s) !! l = Some (Some g) \/ exists o i, l = Field o i /\ goes m0 o.
Definition rightly (m0 : hmap) (s s' : state) : Prop := forall o, is_Some (objs s !! o) -> objs s' !! o = None -> goes m0 o.
Lemma rightly_trans m0 X s s1 s2 : gone X s s1 -> rightly m0 s s1 -> rightly m0 s1 s2 -> rightly m0 s s2.
Proof.
  intros (_ & O & _) H1 H2 o P Q. destruct (objs s1 !! o) eqn:E; [apply H2; [by rewrite E|done]|by apply H1].
Qed.
Lemma right_gone m0 X D s s' : right_so m0 D s -> gone X s s' -> rightly m0 s s' -> (forall o, o ∈ X -> goes m0 o) -> right_so m0 D s'.
Proof.
  intros [R1 R2] (_ & O & H) Y HX. split; [done|]. intros l g E. destruct (R2 l g E) as [P|P]; [|auto].
  destruct (H true l) as [Q|(o & i & -> & _ & [[P1 P2]|P1])]; cbn in *; [|right; eauto..].
  left. rewrite lookup_fmap in *. by rewrite Q.
Qed.

Lemma wellf_end K D s o i b m : o ∈ D -> objs s !! o = None -> m = delete (Field o i) (hs b s) -> wellf K D s ->
  wellf K D (if b then with_shs m s else with_wks m s).
Proof.
  intros HD HO -> W b' o' i'. destruct (W b' o' i') as [W1 W2].
  assert (EO : objs (if b then with_shs (delete (Field o i) (hs b s)) s else with_wks (delete (Field o i) (hs b s)) s) = objs s) by by destruct b.
  rewrite EO. split.
  - intros P. apply W1. revert P. destruct b, b'; cbn; try done; rewrite lookup_delete_is_Some; intros [_ P]; done.
  - intros k E1 E2 E3. specialize (W2 k E1 E2 E3). assert (o' <> o) by (intros ->; rewrite HO in E2; by destruct E2).
    destruct b, b'; cbn in *; try done; rewrite lookup_delete_ne; congruence || done.
Qed.
Lemma fits_le s s' : fits s -> size (shs s') <= size (shs s) -> size (wks s') <= size (wks s) -> fits s'.
Proof. unfold fits. intros. lia. Qed.
Lemma size_delete_le (m : gmap loc handle) l : size (delete l m) <= size m.
Proof. destruct (m !! l) eqn:E; [rewrite map_size_delete_Some|rewrite map_size_delete_None]; try done; lia. Qed.

Lemma inv_end_sh K D s o i h : inv K None None D s -> o ∈ D -> shs s !! Field o i = Some h ->
  inv K (hc h) None D (end_sh (Field o i) s).
Proof.
  intros I HD E. pose proof I as (C & W & F). apply (inv_shs _ None); [done| | |].
  - intros g. unfold A. rewrite bump_none, Nat.add_0_r, fmap_delete. apply members_delete. by rewrite lookup_fmap, E.
  - apply (wellf_end K D s o i true _ HD); [|done|done].
    pose proof (core_gone _ _ _ _ _ C o HD) as G0. destruct (core_kind _ _ _ _ _ o C) as [k Hk]; [auto|].
    rewrite (ent_obj _ _ _ _ _ _ (core_ent _ _ _ _ _ C o k Hk)), G0. done.
  - eapply fits_le; [done| |done]. apply size_delete_le.
Qed.
Lemma inv_end_wk K D s o i h : inv K None None D s -> o ∈ D -> wks s !! Field o i = Some h ->
  inv K None (hc h) D (end_wk (Field o i) s).
Proof.
  intros I HD E. pose proof I as (C & W & F). apply (inv_wks _ None None); [done| | |].
  - intros g. unfold B. rewrite bump_none, Nat.add_0_r, fmap_delete. apply members_delete. by rewrite lookup_fmap, E.
  - apply (wellf_end K D s o i false _ HD); [|done|done].
    pose proof (core_gone _ _ _ _ _ C o HD) as G0. destruct (core_kind _ _ _ _ _ o C) as [k Hk]; [auto|].
    rewrite (ent_obj _ _ _ _ _ _ (core_ent _ _ _ _ _ C o k Hk)), G0. done.
  - eapply fits_le; [done|done|]. apply size_delete_le.
Qed.
Lemma inv_objs_D K e ew D s o : inv K e ew D s -> o ∈ D -> objs s !! o = None.
Proof.
  intros (C & _) HD. pose proof (core_gone _ _ _ _ _ C o HD) as G0. destruct (core_kind _ _ _ _ _ o C) as [k Hk]; [auto|].
  rewrite (ent_obj _ _ _ _ _ _ (core_ent _ _ _ _ _ C o k Hk)), G0. done.
Qed.

(** ~weak_count *)
Lemma weak_count_release_ok K e ew D s : inv K e ew D s ->
  exists s', weak_count_release ew s = Ok s' /\ inv K e None D s' /\ same s s' /\ objs s' = objs s /\ nxt s' = nxt s.
Proof.
  intros I. destruct ew as [g|]; [|by exists s].
  pose proof I as (C & W & F). pose proof (inv_bounds _ _ _ _ _ g I) as [_ Bb].
  destruct (weak_ok _ _ _ _ _ g C) as (s' & E & C' & S & O & _); [unfold B; rewrite bump_self; lia|lia|].
  exists s'. split; [done|]. assert (N : nxt s' = nxt s) by (rewrite (core_nxt _ _ _ _ _ C), (core_nxt _ _ _ _ _ C'); done).
  split; [|done]. eapply (inv_same _ _ _ _ _ D D _ _ I); [|done|done|done].
  eapply core_ext; [exact C'|done|]. intros h. unfold upd, B. case_decide as X.
  - subst. rewrite bump_self, bump_none. lia.
  - rewrite bump_ne, bump_none by done. done.
Qed.
