(** Whole programs. *)
From stdpp Require Import gmap.
From Coq Require Import ZArith Lia.
From Verif Require Import Base GraphModel GraphSpec GraphProofs GraphRelease GraphOps GraphRun GraphSteps.
Local Open Scope nat_scope.
Set Default Goal Selector "1".

(** * What goes is determined *)
Lemma settled_same (m w1 w2 w2' : hmap) (P : Prop) l : EqDecision (option (option nat)) ->
  (P -> w2 !! l = None) -> (~ P -> w2 !! l = w1 !! l) -> (P -> w2' !! l = None) -> (~ P -> w2' !! l = w1 !! l) -> w2 !! l = w2' !! l.
Proof.
  intros D A1 A2 B1 B2. destruct (decide (w2 !! l = w2' !! l)) as [|N]; [done|]. exfalso.
  assert (NP : ~ P) by (intros p; apply N; rewrite A1, B1; done). apply N. rewrite A2, B2; done.
Qed.
Lemma settled_unique w w2 w2' : settled w w2 -> settled w w2' -> w2 = w2'.
Proof.
  intros (K1 & V1 & U1 & G1 & N1) (K2 & V2 & U2 & G2 & N2). destruct w2 as [s1 t1 k1], w2' as [s2 t2 k2]. cbn in *. subst. f_equal.
  - apply map_eq. intros [x|[o i]]; [by rewrite V1, V2|].
    apply (settled_same s1 (sg w) s1 s2 (goes (sg w) o)); [apply _| | | |]; intros P; [by apply G1|by apply N1|by apply G2|by apply N2].
  - apply map_eq. intros [x|[o i]]; [by rewrite U1, U2|].
    apply (settled_same t1 (wg w) t1 t2 (goes (sg w) o)); [apply _| | | |]; intros P; [by apply G1|by apply N1|by apply G2|by apply N2].
Qed.

(** * How many handles there can be *)
Definition total (w : spec) : nat := size (sg w) + size (wg w).
Lemma size_subseteq (m m' : hmap) : (forall l v, m !! l = Some v -> m' !! l = Some v) -> size m <= size m'.
Proof.
  intros H. assert (m ⊆ m') by (by apply map_subseteq_spec).
  rewrite <- (size_dom (D := gset loc) m), <- (size_dom (D := gset loc) m'). apply subseteq_size, subseteq_dom; done.
Qed.
Lemma size_union_le (m m' : hmap) : size (m ∪ m') <= size m + size m'.
Proof.
  rewrite <- (size_dom (D := gset loc) (m ∪ m')), <- (size_dom (D := gset loc) m), <- (size_dom (D := gset loc) m').
  rewrite dom_union_L, size_union_alt. assert (size (dom m' ∖ dom m) <= size (dom m')) by (apply subseteq_size; set_solver). lia.
Qed.
Lemma size_insert_le (m : hmap) l v : size (<[l := v]> m) <= S (size m).
Proof. destruct (m !! l) eqn:E; [rewrite map_size_insert_Some|rewrite map_size_insert_None]; rewrite ?E; eauto; lia. Qed.
Lemma size_hdelete_le (m : hmap) l : size (delete l m) <= size m.
Proof. destruct (m !! l) eqn:E; [rewrite map_size_delete_Some|rewrite map_size_delete_None]; rewrite ?E; eauto; lia. Qed.
Lemma settled_total w w' : settled w w' -> total w' <= total w.
Proof.
  intros (_ & V & U & G & N). unfold total. assert (size (sg w') <= size (sg w) /\ size (wg w') <= size (wg w)); [|lia]. split.
  - apply size_subseteq. intros [x|[o i]] v E; [by rewrite <- V|]. destruct (N o i) as [X _]; [|congruence].
    intros P. destruct (G o i P); congruence.
  - apply size_subseteq. intros [x|[o i]] v E; [by rewrite <- U|]. destruct (N o i) as [_ X]; [|congruence].
    intros P. destruct (G o i P); congruence.
Qed.
Lemma new_s_total x g w w1 : new_s x g w = Some w1 -> total w1 <= S (total w).
Proof. intros H. apply new_s_inv in H as [_ ->]. unfold total. cbn. pose proof (size_insert_le (sg w) (Var x) g). lia. Qed.
Lemma new_w_total x g w w1 : new_w x g w = Some w1 -> total w1 <= S (total w).
Proof. intros H. apply new_w_inv in H as [_ ->]. unfold total. cbn. pose proof (size_insert_le (wg w) (Var x) g). lia. Qed.
Lemma upd_s_total x g w w1 : upd_s x g w = Some w1 -> total w1 <= total w.
Proof. intros H. apply upd_s_inv in H as [H ->]. unfold total. cbn. rewrite map_size_insert_Some by done. lia. Qed.
Lemma upd_w_total x g w w1 : upd_w x g w = Some w1 -> total w1 <= total w.
Proof. intros H. apply upd_w_inv in H as [H ->]. unfold total. cbn. rewrite map_size_insert_Some by done. lia. Qed.
Lemma add_group_total r w : total (add_group r w) <= total w + length (layout r).
Proof.
  unfold total. cbn [sg wg add_group]. set (g := length (kinds w)). pose proof (fresh_size g 0 (layout r)).
  pose proof (size_union_le (fresh_members g 0 (layout r) true) (sg w)).
  pose proof (size_union_le (fresh_members g 0 (layout r) false) (wg w)). lia.
Qed.
Lemma link_total r w w1 : link r w = Some w1 -> total w1 <= total w.
Proof. destruct r as [|[|] l]; cbn [link]; [by intros [= <-]| |by intros [= <-]]. apply upd_w_total. Qed.
Lemma alone_total x w w1 : alone x w = Some w1 -> total w1 <= S (total w).
Proof. intros H. apply new_s_total in H. pose proof (add_group_total RNull w) as X. cbn [layout length] in X. lia. Qed.
Lemma lock_total x g w w1 : lock_group x g w = Some w1 -> total w1 <= S (total w).
Proof. unfold lock_group. destruct g as [g|]; [destruct (alive w g)|]; eauto using new_s_total, alone_total. Qed.
Lemma sstep_total c w w1 : sstep c w = Some w1 -> total w1 <= total w + made_by c.
Proof.
  intros H. destruct c; cbn [sstep made_by] in *;
    repeat match type of H with (?o ≫= _) = Some _ =>
      let E := fresh "E" in destruct o eqn:E; [cbn [mbind option_bind] in H|done] end;
    repeat match goal with
    | Q : new_s _ _ _ = Some _ |- _ => apply new_s_total in Q
    | Q : new_w _ _ _ = Some _ |- _ => apply new_w_total in Q
    | Q : upd_s _ _ _ = Some _ |- _ => apply upd_s_total in Q
    | Q : upd_w _ _ _ = Some _ |- _ => apply upd_w_total in Q
    | Q : link _ _ = Some _ |- _ => apply link_total in Q
    | Q : lock_group _ _ _ = Some _ |- _ => apply lock_total in Q
    end; try lia.
  - pose proof (add_group_total r w). lia.
  - pose proof (add_group_total r w). lia.
  - injection H as <-. unfold total. cbn. pose proof (size_hdelete_le (sg w) (Var x)). lia.
  - injection H as <-. unfold total. cbn. pose proof (size_hdelete_le (wg w) (Var w0)). lia.
Qed.

(** * Programs *)
Lemma rel_start : rel spec0 state0.
Proof.
  split; [split; [|split]|]. 
  4:{ split; [apply (fmap_empty hc)|]. split; [apply (fmap_empty hc)|].
      split; [intros l h; cbn; by rewrite lookup_empty|]. split; [intros l h; cbn; by rewrite lookup_empty|done]. }
  - split; [done|done|done|]. intros g _. unfold A, B. cbn. rewrite fmap_empty, members_empty, bump_none. done.
  - intros b o i. split; [|done]. destruct b; cbn; rewrite lookup_empty; intros [? ?]; done.
  - unfold fits. cbn. rewrite !map_size_empty. lia.
Qed.
Lemma run_rel cs w w' s : srun cs w w' -> rel w s -> (Z.of_nat (total w + made cs) + 16 < 2 ^ 64)%Z ->
  exists s', run cs s = Ok s' /\ rel w' s' /\ total w' <= total w + made cs.
Proof.
  intros H. revert s. induction H as [w|c cs w w1 w2 w3 Pr Sv St Se _ IH]; intros s R Hb.
  { exists s. split; [done|]. split; [done|]. lia. }
  unfold made in Hb. cbn [sum_list_with] in Hb. fold (made cs) in Hb.
  destruct (step_ok c w s w1 R) as (s' & w2' & E & Se' & R'); [|done|done|done|].
  { unfold room. rewrite <- (size_hc (shs s)), <- (size_hc (wks s)), (rel_es _ _ R), (rel_ew _ _ R). fold (total w). unfold total in *. lia. }
  rewrite (settled_unique _ _ _ Se Se') in *. pose proof (sstep_total _ _ _ St). pose proof (settled_total _ _ Se').
  destruct (IH s' R') as (s3 & E3 & R3 & T3); [lia|]. exists s3. cbn [run]. rewrite E. cbn [obind]. split; [done|]. split; [done|].
  unfold made. cbn [sum_list_with]. fold (made cs). lia.
Qed.
Lemma srun_rel cs w : srun cs spec0 w -> (Z.of_nat (made cs) + 16 < 2 ^ 64)%Z -> exists s, run cs state0 = Ok s /\ rel w s /\ total w <= made cs.
Proof.
  intros H B. assert (T : total spec0 = 0) by done. destruct (run_rel cs spec0 w state0 H rel_start) as (s & E & R & X).
  { rewrite T. done. }
  exists s. split; [done|]. split; [done|]. rewrite T in X. done.
Qed.

Lemma rel_accounts w s : rel w s -> accounts w s.
Proof.
  intros R. pose proof R as (I & Es & Ew & Ps & Pw & _). pose proof I as (C & W & _).
  assert (Aa : forall g, A None s g = members (sg w) g) by (intros; unfold A; rewrite Es, bump_none; lia).
  assert (Bb : forall g, B None s g = members (wg w) g) by (intros; unfold B; rewrite Ew, bump_none; lia).
  assert (Uc : forall h g, hc h = g -> (forall g', g = Some g' -> 0 < members (sg w) g' + members (wg w) g') ->
    use_count h s = Ok (match g with Some g => Z.of_nat (members (sg w) g) | None => 0%Z end)).
  { intros h g E P. unfold use_count. rewrite E. destruct g as [g|]; [|done]. specialize (P g eq_refl).
    destruct (core_block _ _ _ _ _ g C) as (k & _ & Eb); [rewrite Aa, Bb; lia|]. unfold get_block. rewrite Eb. cbn. by rewrite Aa. }
  assert (nD : forall g, inD ∅ g = false) by (intros; by apply inD_false).
  split.
  - intros x g E. destruct (rel_s _ _ _ _ R E) as (h & Eh & Eg & Ep). exists h. unfold sh. rewrite Eh. split; [done|]. split; [done|].
    apply Uc; [done|]. intros g' ->. pose proof (members_pos _ _ _ E). lia.
  - intros x g E. destruct (rel_w _ _ _ _ R E) as (h & Eh & Eg & Ep). exists h. unfold wk. rewrite Eh. split; [done|].
    apply Uc; [done|]. intros g' ->. pose proof (members_pos _ _ _ E). lia.
  - intros g k Hk Ho. destruct (core_ent _ _ _ _ _ C g k Hk) as [_ E2 E3 _]. rewrite E2, E3, Aa, Ho. unfold alive.
    destruct (members (sg w) g =? 0); cbn; [split; [split; [intros [? ?]|]; done|done]|]. split; [|done].
    split; [done|]. destruct k; cbn; eauto; done.
  - intros g k Hk. destruct (core_ent _ _ _ _ _ C g k Hk) as [E1 _ _ E4]. rewrite E1, E4, Aa, Bb, nD, andb_true_r. unfold held.
    destruct (members (sg w) g + members (wg w) g =? 0); cbn; [split; [split; [intros [? ?]|]; done|done]|]. split; [|done]. split; eauto.
  - intros g k Hk Ho. destruct (core_ent _ _ _ _ _ C g k Hk) as [_ E2 E3 _]. rewrite E2, E3, Ho. destruct k; [|done]. cbn. by destruct (_ =? 0).
  - intros g Hk. destruct (core_out _ _ _ _ _ C g Hk) as (_&_&_&?&?&?&?). done.
  - intros x. split; [apply (rel_s_none _ _ _ R)|apply (rel_w_none _ _ _ R)].
Qed.

(** Every program: no undefined behaviour, the recursion ends, the accounts are right. *)
Theorem graph_history cs w : srun cs spec0 w -> (Z.of_nat (made cs) + 16 < 2 ^ 64)%Z ->
  exists s, run cs state0 = Ok s /\ accounts w s.
Proof. intros H B. destruct (srun_rel cs w H B) as (s & E & R & _). exists s. split; [done|]. by apply rel_accounts. Qed.

(** * Exactly what is kept exists *)
Lemma rel_settled w s : rel w s -> settled w w.
Proof.
  intros R. destruct (finish0 w (shs s) (wks s) s) as (s' & w2 & [= <-] & Se & R2); [by apply rel_st| | | | | | |]; try apply R.
  assert (E1 : sg w2 = sg w) by (by rewrite <- (rel_es _ _ R2), <- (rel_es _ _ R)).
  assert (E2 : wg w2 = wg w) by (by rewrite <- (rel_ew _ _ R2), <- (rel_ew _ _ R)).
  assert (E3 : kinds w2 = kinds w) by apply Se. clear R R2. destruct w, w2. cbn in *. by subst.
Qed.
Lemma rel_kept w s g : rel w s -> alive w g = true <-> ~ goes (sg w) g.
Proof.
  intros R. pose proof (rel_settled _ _ R) as (_ & _ & _ & G & _). unfold alive. rewrite negb_true_iff, Nat.eqb_neq. split.
  - intros M P. destruct (members_some (sg w) g) as [l E]; [lia|]. destruct P as [P]. destruct (P l E) as (o & i & -> & Q).
    destruct (G o i Q). congruence.
  - intros P M. apply P. constructor. intros l E. exfalso. by apply (members_zero _ _ M l).
Qed.
Theorem graph_kept cs w : srun cs spec0 w -> (Z.of_nat (made cs) + 16 < 2 ^ 64)%Z ->
  exists s, run cs state0 = Ok s /\ forall g k, kinds w !! g = Some k -> has_object k = true ->
    (is_Some (objs s !! g) <-> ~ goes (sg w) g) /\ (goes (sg w) g -> times (destroyed s) g = 1).
Proof.
  intros H B. destruct (srun_rel cs w H B) as (s & E & R & _). exists s. split; [done|]. intros g k Hk Ho.
  destruct (acc_object _ _ (rel_accounts _ _ R) g k Hk Ho) as [A1 A2]. rewrite A1, (rel_kept _ _ _ R). split; [done|].
  intros G. rewrite A2. destruct (alive w g) eqn:X; [|done]. apply (rel_kept _ _ _ R) in X. done.
Qed.
Lemma reached_stays m g : reached m g -> ~ goes m g.
Proof.
  induction 1 as [x g E|o i g _ IH E]; intros [G].
  - destruct (G _ E) as (?&?&?&_). done.
  - destruct (G _ E) as (o' & i' & [= <- <-] & P). done.
Qed.
(** What a variable leads to is there. *)
Theorem graph_reached cs w : srun cs spec0 w -> (Z.of_nat (made cs) + 16 < 2 ^ 64)%Z ->
  exists s, run cs state0 = Ok s /\ forall g k, kinds w !! g = Some k -> has_object k = true -> reached (sg w) g ->
    is_Some (objs s !! g) /\ times (destroyed s) g = 0.
Proof.
  intros H B. destruct (srun_rel cs w H B) as (s & E & R & _). exists s. split; [done|]. intros g k Hk Ho G.
  destruct (acc_object _ _ (rel_accounts _ _ R) g k Hk Ho) as [A1 A2]. apply reached_stays, (rel_kept _ _ _ R) in G.
  rewrite A2, G. split; [by apply A1|done].
Qed.
Lemma ordered_goes m rank : ordered m rank -> (forall x, m !! Var x = None) -> forall g, goes m g.
Proof.
  intros O V g. remember (rank g) as n eqn:Hn. revert g Hn. induction n as [n IH] using lt_wf_ind. intros g ->.
  constructor. intros [x|[o i]] E; [by rewrite V in E|]. exists o, i. split; [done|]. eapply IH; [by eapply O|done].
Qed.
(** Without circles, everything is gone when the last variables are. *)
Theorem graph_nothing_left cs w rank : srun cs spec0 w -> (Z.of_nat (made cs) + 16 < 2 ^ 64)%Z ->
  ordered (sg w) rank -> (forall x, sg w !! Var x = None /\ wg w !! Var x = None) ->
  exists s, run cs state0 = Ok s /\ shs s = ∅ /\ wks s = ∅ /\ objs s = ∅ /\ blocks s = ∅ /\
    forall g k, kinds w !! g = Some k -> times (freed s) g = 1 /\ times (destroyed s) g = if has_object k then 1 else 0.
Proof.
  intros H B O V. destruct (srun_rel cs w H B) as (s & E & R & _). exists s. split; [done|].
  assert (G : forall g, goes (sg w) g) by (eapply ordered_goes; [done|apply V]).
  pose proof (rel_settled _ _ R) as (_ & _ & _ & Se & _). pose proof (rel_accounts _ _ R) as Ac.
  assert (Es : sg w = ∅).
  { apply map_eq. intros [x|[o i]]; rewrite lookup_empty; [apply V|]. by apply Se. }
  assert (Ew : wg w = ∅).
  { apply map_eq. intros [x|[o i]]; rewrite lookup_empty; [apply V|]. by apply Se. }
  assert (Al : forall g, alive w g = false) by (intros g; unfold alive; by rewrite Es, members_empty).
  assert (He : forall g, held w g = false) by (intros g; unfold held; by rewrite Es, Ew, members_empty).
  split; [|split; [|split; [|split]]].
  - apply map_eq. intros x. rewrite lookup_empty. apply (acc_no_more _ _ Ac). by rewrite Es.
  - apply map_eq. intros x. rewrite lookup_empty. apply (acc_no_more _ _ Ac). by rewrite Ew.
  - apply map_eq. intros g. rewrite lookup_empty. destruct (kinds w !! g) as [k|] eqn:Hk; [|by apply (acc_only _ _ Ac)].
    destruct (has_object k) eqn:Ho; [|by apply (acc_only_object _ _ Ac g k)].
    destruct (acc_object _ _ Ac g k Hk Ho) as [X _]. rewrite Al in X. destruct (objs s !! g); [|done]. destruct X as [X _]. specialize (X (mk_is_Some _ _ eq_refl)). done.
  - apply map_eq. intros g. rewrite lookup_empty. destruct (kinds w !! g) as [k|] eqn:Hk; [|by apply (acc_only _ _ Ac)].
    destruct (acc_block _ _ Ac g k Hk) as [X _]. rewrite He in X. destruct (blocks s !! g); [|done]. destruct X as [X _]. specialize (X (mk_is_Some _ _ eq_refl)). done.
  - intros g k Hk. destruct (acc_block _ _ Ac g k Hk) as [_ X]. rewrite He in X. split; [done|].
    destruct (has_object k) eqn:Ho; [|by apply (acc_only_object _ _ Ac g k)].
    destruct (acc_object _ _ Ac g k Hk Ho) as [_ Y]. by rewrite Al in Y.
Qed.

(** * reset(p) on a member of an object that goes with the old group *)
Lemma rel_reset_to w s o i r : rel w s -> room (shs s) (wks s) (length (layout r) + 2) ->
  is_Some (sg w !! Field o i) -> step (SResetTo (Field o i) r) s = UB \/ ~ goes (<[Field o i := None]> (sg w)) o.
Proof.
  intros R Hr [g0 Hx]. set (x := Field o i) in *. destruct (rel_s _ _ _ _ R Hx) as (h & Eh & <- & Ph).
  set (K := kinds w) in *. set (N := length K) in *.
  destruct (st_new_group _ _ _ _ _ r (rel_st _ _ R)) as (s1 & E1 & S1 & Fn & On & _); [eapply room_le; [done|lia]|].
  fold K N in E1, S1, Fn, On. set (m := fresh_handles N 0 (layout r) true ∪ shs s) in *. set (n := fresh_handles N 0 (layout r) false ∪ wks s) in *.
  assert (NF : forall i, x <> Field N i) by (intros j Q; pose proof (Fn true j) as Z; cbn [hs] in Z; congruence).
  assert (Ex : m !! x = Some h).
  { unfold m. rewrite lookup_union_r; [done|]. unfold fresh_handles. rewrite lookup_fmap, fresh_none; auto. }
  cbn [step]. unfold s_reset_to. erewrite new_let by exact E1. unfold sh at 1. pose proof S1 as (_ & -> & _). rewrite Ex. cbn [of_option obind].
  destruct (st_put_sh _ _ _ _ s1 x h {| hp := hp h; hc := Some N |} S1 Ex) as (s2 & -> & S2). cbn [obind].
  assert (Es : hc <$> <[x := {| hp := hp h; hc := Some N |}]> m = <[x := Some N]> (fresh_members N 0 (layout r) true ∪ sg w)).
  { unfold m. rewrite fmap_insert, map_fmap_union, fresh_handles_hc, (rel_es _ _ R). done. }
  destruct (st_release _ _ _ _ _ S2) as (s3 & -> & I3 & G3 & Y3). cbn [obind].
  set (w1 := {| sg := hc <$> <[x := {| hp := hp h; hc := Some N |}]> m; wg := hc <$> n; kinds := K ++ [r] |}).
  assert (T : settled w1 (abs (K ++ [r]) s3)).
  { apply (settle w1); [done|]. intros b l. destruct G3 as (_ & _ & G3). destruct S2 as (_ & M2 & N2).
    destruct (G3 b l) as [X|(o' & i' & -> & X & [[U V]|U])]; [left| |by apply elem_of_empty in U].
    - destruct b; cbn [hs maps w1 sg wg] in *; rewrite lookup_fmap, X, <- lookup_fmap; congruence.
    - right. exists o', i'. split; [done|]. split; [by apply Y3|done]. }
  assert (Gw : forall g, goes (<[x := None]> (sg w)) g -> g <> N -> goes (sg w1) g).
  { apply (goes_rect' _ (fun g => g <> N -> goes (sg w1) g)). intros g Q Ng. constructor. intros l El. cbn [sg w1] in El. rewrite Es in El.
    assert (El' : <[x := None]> (sg w) !! l = Some (Some g)).
    { apply lookup_insert_Some in El as [[_ [= ?]]|[Ne El]]; [congruence|]. rewrite lookup_insert_ne by done.
      apply lookup_union_Some_raw in El as [El|[_ El]]; [|done]. apply fresh_lookup in El as [? _]. done. }
    destruct (Q l El') as (o' & j & -> & _ & P). exists o', j. split; [done|]. apply P. intros ->.
    pose proof (Fn true j) as Z. cbn [hs] in Z. apply lookup_insert_Some in El' as [[_ [=]]|[_ El']].
    rewrite <- (rel_es _ _ R), lookup_fmap, Z in El'. done. }
  unfold put_sh, sh. destruct (shs s3 !! x) as [h3|] eqn:E3; [right|by left]. intros G.
  assert (Go : goes (sg w1) o) by (apply Gw; [done|]; intros ->; by apply (NF i)).
  destruct T as (_ & _ & _ & T & _). destruct (T o i Go) as [X _]. cbn [abs sg] in X. fold x in X. rewrite lookup_fmap, E3 in X. done.
Qed.
(** the converting assignment *)
Lemma rel_assign_conv w s o i y g : rel w s -> room (shs s) (wks s) 2 -> named y = true ->
  is_Some (sg w !! Field o i) -> sg w !! y = Some g ->
  step (SAssignConv (Field o i) y) s = UB \/ ~ goes (<[Field o i := None]> (<[Var 0 := g]> (sg w))) o.
Proof.
  intros R Hr Ny [g0 Hx] Hy. apply named_ne in Ny. set (x := Field o i) in *.
  destruct (rel_s _ _ _ _ R Hy) as (hy & Ey & Eg & Py). destruct (rel_s _ _ _ _ R Hx) as (hx & Ex & <- & Px).
  set (K := kinds w) in *. assert (Z0 : shs s !! Var 0 = None) by (by eapply rel_s_none, rel_zero_s).
  cbn [step]. unfold s_assign_conv. destruct (s_copy_ok _ _ _ _ 0 y hy (rel_st _ _ R) Ey) as (s1 & -> & S1); [done|eapply room_le; [done|lia]|].
  cbn [obind]. destruct (s_reset_st _ _ _ _ x hx S1) as (s2 & -> & S2); [by rewrite lookup_insert_ne|].
  set (C := <[x := null]> (<[Var 0 := hy]> (shs s))) in *.
  assert (EC : hc <$> C = <[x := None]> (<[Var 0 := g]> (sg w))).
  { unfold C. rewrite !fmap_insert, (rel_es _ _ R), Eg. done. }
  destruct (st_release _ _ _ _ _ S2) as (s3 & -> & I3 & G3 & Y3). cbn [obind].
  set (w1 := {| sg := hc <$> C; wg := hc <$> wks s; kinds := K |}).
  assert (T : settled w1 (abs K s3)).
  { apply (settle w1); [done|]. intros b l. destruct G3 as (_ & _ & G3). destruct S2 as (_ & M2 & N2).
    destruct (G3 b l) as [X|(o' & i' & -> & X & [[U V]|U])]; [left| |by apply elem_of_empty in U].
    - destruct b; cbn [hs maps w1 sg wg] in *; rewrite lookup_fmap, X, <- lookup_fmap; congruence.
    - right. exists o', i'. split; [done|]. split; [by apply Y3|done]. }
  rewrite <- EC. unfold sh. destruct (shs s3 !! Var 0); [|by left]. cbn [of_option obind].
  destruct (shs s3 !! x) as [h3|] eqn:E3; [right|by left]. intros G.
  destruct T as (_ & _ & _ & T & _). destruct (T o i G) as [X _]. cbn [abs sg] in X. fold x in X. rewrite lookup_fmap, E3 in X. done.
Qed.
(** Every proper command runs, or its handle did not survive and it is undefined. *)
Lemma step_exact c w s w1 : rel w s -> room (shs s) (wks s) (made_by c + 2) -> proper c = true -> sstep c w = Some w1 ->
  survives c w /\ (exists s', step c s = Ok s') \/ ~ survives c w /\ step c s = UB.
Proof.
  intros R Hr Pr St.
  assert (D : step c s = UB \/ survives c w).
  { destruct c as [| | | | | |x y| | |x r| | | | | | | | | | | | | |]; try (by right).
    - destruct x as [x|[o i]]; [by right|]. cbn [sstep proper] in *. apply andb_prop in Pr as [_ Ny].
      destruct (sg w !! y) as [g|] eqn:Hy; [|done]. cbn [mbind option_bind] in St. apply upd_s_inv in St as [Hx _].
      destruct (rel_assign_conv w s o i y g R) as [D|D]; [eapply room_le; [done|cbn; lia]|done|done|done|by left|right].
      cbn [survives]. intros g' Hy'. rewrite Hy in Hy'. by injection Hy' as <-.
    - destruct x as [x|[o i]]; [by right|]. cbn [sstep] in St. destruct (sg w !! Field o i) as [g|] eqn:Hx; [|done].
      destruct (rel_reset_to w s o i r R) as [D|D]; [eapply room_le; [done|cbn; lia]|by rewrite Hx|by left|by right]. }
  destruct D as [D|D].
  - right. split; [|done]. intros Sv. destruct (step_ok c w s w1 R Hr Pr Sv St) as (s' & w2 & Es & _). congruence.
  - left. split; [done|]. destruct (step_ok c w s w1 R Hr Pr D St) as (s' & w2 & Es & _). eauto.
Qed.
Lemma run_app cs c s s' : run cs s = Ok s' -> run (cs ++ [c]) s = step c s'.
Proof.
  revert s. induction cs as [|d cs IH]; intros s; cbn [run app].
  - intros [= ->]. by destruct (step c s').
  - destruct (step d s); cbn; try done. apply IH.
Qed.
Theorem graph_reset_undefined cs w o i r : srun cs spec0 w -> (Z.of_nat (made (cs ++ [SResetTo (Field o i) r])) + 16 < 2 ^ 64)%Z ->
  is_Some (sg w !! Field o i) -> goes (<[Field o i := None]> (sg w)) o -> run (cs ++ [SResetTo (Field o i) r]) state0 = UB.
Proof.
  intros H B Hx G. assert (M : made (cs ++ [SResetTo (Field o i) r]) = made cs + length (layout r)).
  { unfold made. rewrite sum_list_with_app. cbn. lia. }
  rewrite M in B. destruct (srun_rel cs w H) as (s & E & R & T); [lia|]. rewrite (run_app _ _ _ _ E).
  destruct (rel_reset_to w s o i r R) as [D|D]; [|done|done|by destruct D]. unfold room.
  rewrite <- (size_hc (shs s)), <- (size_hc (wks s)), (rel_es _ _ R), (rel_ew _ _ R). unfold total in T. lia.
Qed.
Theorem graph_exact cs c w w1 : srun cs spec0 w -> (Z.of_nat (made (cs ++ [c])) + 16 < 2 ^ 64)%Z -> proper c = true -> sstep c w = Some w1 ->
  survives c w /\ (exists s, run (cs ++ [c]) state0 = Ok s) \/ ~ survives c w /\ run (cs ++ [c]) state0 = UB.
Proof.
  intros H B Pr St. assert (M : made (cs ++ [c]) = made cs + made_by c).
  { unfold made. rewrite sum_list_with_app. cbn. lia. }
  rewrite M in B. destruct (srun_rel cs w H) as (s & E & R & T); [lia|]. rewrite (run_app _ _ _ _ E).
  eapply step_exact; [done| |done|done]. unfold room.
  rewrite <- (size_hc (shs s)), <- (size_hc (wks s)), (rel_es _ _ R), (rel_ew _ _ R). unfold total in T. lia.
Qed.
