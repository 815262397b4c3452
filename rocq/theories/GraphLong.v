(** The results of GraphThms.v without a bound on the number of handles a program makes. *)
From stdpp Require Import gmap list.
From Coq Require Import ZArith Lia.
From Verif Require Import Base GraphModel GraphSpec GraphProofs GraphRelease GraphOps GraphRun GraphSteps GraphThms GraphExamples GraphLongSpec.
Local Open Scope nat_scope.
Set Default Goal Selector "1".

Lemma long_rel cs w w' s : srun cs w w' -> rel w s ->
  (forall n v c, srun (take n cs) w v -> cs !! n = Some c -> (Z.of_nat (total v + made_by c) + 16 < 2 ^ 64)%Z) ->
  exists s', run cs s = Ok s' /\ rel w' s'.
Proof.
  intros H. revert s. induction H as [w|c cs w w1 w2 w3 Pr Sv St Se _ IH]; intros s R Hb.
  { exists s. done. }
  destruct (step_ok c w s w1 R) as (s' & w2' & E & Se' & R'); [|done|done|done|].
  { pose proof (Hb 0 w c (srun_nil w) eq_refl) as X.
    unfold room. rewrite <- (size_hc (shs s)), <- (size_hc (wks s)), (rel_es _ _ R), (rel_ew _ _ R). unfold total in X. lia. }
  rewrite (settled_unique _ _ _ Se Se') in *.
  destruct (IH s' R') as (s3 & E3 & R3).
  { intros n v d Hn Hd. apply (Hb (S n) v d); [|done]. cbn [take]. by econstructor. }
  exists s3. cbn [run]. rewrite E. done.
Qed.
Lemma long_run cs w : srun cs spec0 w -> in_memory cs -> exists s, run cs state0 = Ok s /\ rel w s.
Proof. intros H B. eapply long_rel; [done|exact rel_start|]. intros n v c Hv Hc. apply (B n v c Hv Hc). Qed.
Lemma in_memory_app cs c w : in_memory (cs ++ [c]) -> srun cs spec0 w ->
  in_memory cs /\ (Z.of_nat (total w + made_by c) + 16 < 2 ^ 64)%Z.
Proof.
  intros B H. split.
  - intros n v d Hv Hd. pose proof (lookup_lt_Some _ _ _ Hd). apply (B n v d).
    + by rewrite take_app_le by lia.
    + by rewrite lookup_app_l by lia.
  - apply (B (length cs) w c); [by rewrite take_app|]. by rewrite lookup_app_r, Nat.sub_diag by lia.
Qed.

Theorem long_history cs w : srun cs spec0 w -> in_memory cs -> exists s, run cs state0 = Ok s /\ accounts w s.
Proof. intros H B. destruct (long_run cs w H B) as (s & E & R). exists s. split; [done|]. by apply rel_accounts. Qed.
Theorem long_kept cs w : srun cs spec0 w -> in_memory cs ->
  exists s, run cs state0 = Ok s /\ forall g k, kinds w !! g = Some k -> has_object k = true ->
    (is_Some (objs s !! g) <-> ~ goes (sg w) g) /\ (goes (sg w) g -> times (destroyed s) g = 1).
Proof.
  intros H B. destruct (long_run cs w H B) as (s & E & R). exists s. split; [done|]. intros g k Hk Ho.
  destruct (acc_object _ _ (rel_accounts _ _ R) g k Hk Ho) as [A1 A2]. rewrite A1, (rel_kept _ _ _ R). split; [done|].
  intros G. rewrite A2. destruct (alive w g) eqn:X; [|done]. apply (rel_kept _ _ _ R) in X. done.
Qed.
Theorem long_reached cs w : srun cs spec0 w -> in_memory cs ->
  exists s, run cs state0 = Ok s /\ forall g k, kinds w !! g = Some k -> has_object k = true -> reached (sg w) g ->
    is_Some (objs s !! g) /\ times (destroyed s) g = 0.
Proof.
  intros H B. destruct (long_run cs w H B) as (s & E & R). exists s. split; [done|]. intros g k Hk Ho G.
  destruct (acc_object _ _ (rel_accounts _ _ R) g k Hk Ho) as [A1 A2]. apply reached_stays, (rel_kept _ _ _ R) in G.
  rewrite A2, G. split; [by apply A1|done].
Qed.
Theorem long_nothing_left cs w rank : srun cs spec0 w -> in_memory cs ->
  ordered (sg w) rank -> (forall x, sg w !! Var x = None /\ wg w !! Var x = None) ->
  exists s, run cs state0 = Ok s /\ shs s = ∅ /\ wks s = ∅ /\ objs s = ∅ /\ blocks s = ∅ /\
    forall g k, kinds w !! g = Some k -> times (freed s) g = 1 /\ times (destroyed s) g = if has_object k then 1 else 0.
Proof.
  intros H B O V. destruct (long_run cs w H B) as (s & E & R). exists s. split; [done|].
  assert (G : forall g, goes (sg w) g) by (eapply ordered_goes; [done|apply V]).
  pose proof (rel_settled _ _ R) as (_ & _ & _ & Se & _). pose proof (rel_accounts _ _ R) as Ac.
  assert (Es : sg w = ∅).
  { apply map_eq. intros [x|[o i]]; rewrite lookup_empty; [apply V|]. by apply Se. }
  assert (Ew : wg w = ∅).
  { apply map_eq. intros [x|[o i]]; rewrite lookup_empty; [apply V|]. by apply Se. }
  assert (Al : forall g, alive w g = false) by (intros g; unfold alive; by rewrite Es, members_empty).
  assert (He : forall g, held w g = false) by (intros g; unfold held; by rewrite Es, Ew, members_empty).
  split; [|split; [|split; [|split]]].
  - apply map_eq. intros x. rewrite lookup_empty. apply (acc_no_more _ _ Ac). by rewrite Es.
  - apply map_eq. intros x. rewrite lookup_empty. apply (acc_no_more _ _ Ac). by rewrite Ew.
  - apply map_eq. intros g. rewrite lookup_empty. destruct (kinds w !! g) as [k|] eqn:Hk; [|by apply (acc_only _ _ Ac)].
    destruct (has_object k) eqn:Ho; [|by apply (acc_only_object _ _ Ac g k)].
    destruct (acc_object _ _ Ac g k Hk Ho) as [X _]. rewrite Al in X. destruct (objs s !! g); [|done]. destruct X as [X _]. specialize (X (mk_is_Some _ _ eq_refl)). done.
  - apply map_eq. intros g. rewrite lookup_empty. destruct (kinds w !! g) as [k|] eqn:Hk; [|by apply (acc_only _ _ Ac)].
    destruct (acc_block _ _ Ac g k Hk) as [X _]. rewrite He in X. destruct (blocks s !! g); [|done]. destruct X as [X _]. specialize (X (mk_is_Some _ _ eq_refl)). done.
  - intros g k Hk. destruct (acc_block _ _ Ac g k Hk) as [_ X]. rewrite He in X. split; [done|].
    destruct (has_object k) eqn:Ho; [|by apply (acc_only_object _ _ Ac g k)].
    destruct (acc_object _ _ Ac g k Hk Ho) as [_ Y]. by rewrite Al in Y.
Qed.
Theorem long_exact cs c w w1 : srun cs spec0 w -> in_memory (cs ++ [c]) -> proper c = true -> sstep c w = Some w1 ->
  survives c w /\ (exists s, run (cs ++ [c]) state0 = Ok s) \/ ~ survives c w /\ run (cs ++ [c]) state0 = UB.
Proof.
  intros H B Pr St. destruct (in_memory_app _ _ _ B H) as [B1 T].
  destruct (long_run cs w H B1) as (s & E & R). rewrite (run_app _ _ _ _ E).
  eapply step_exact; [done| |done|done]. unfold room.
  rewrite <- (size_hc (shs s)), <- (size_hc (wks s)), (rel_es _ _ R), (rel_ew _ _ R). unfold total in T. lia.
Qed.

(** ** Programs of every length *)
(** A program that makes few handles keeps few. *)
Lemma srun_total cs w w' : srun cs w w' -> total w' <= total w + made cs.
Proof.
  induction 1 as [w|c cs w w1 w2 w3 _ _ St Se _ IH]; [lia|].
  pose proof (sstep_total _ _ _ St). pose proof (settled_total _ _ Se). unfold made in *. cbn [sum_list_with]. lia.
Qed.
Lemma made_take n cs : made (take n cs) <= made cs.
Proof. rewrite <- (take_drop n cs) at 2. unfold made. rewrite sum_list_with_app. lia. Qed.
Lemma made_one n cs c : cs !! n = Some c -> made_by c <= made cs.
Proof.
  intros H. apply elem_of_list_split_length in H as (a & b & -> & _). unfold made.
  rewrite sum_list_with_app. cbn. lia.
Qed.
Lemma small_memory cs : (Z.of_nat (made cs + made cs) + 16 < 2 ^ 64)%Z -> in_memory cs.
Proof.
  intros B n w c H Hc. pose proof (srun_total _ _ _ H) as T. pose proof (made_take n cs). pose proof (made_one n cs c Hc).
  change (total spec0) with 0 in T. unfold total in T. lia.
Qed.
Lemma srun_unique cs w v v' : srun cs w v -> srun cs w v' -> v = v'.
Proof.
  intros H. revert v'. induction H as [w|c cs w w1 w2 w3 _ _ St Se _ IH]; intros v' H'.
  - inversion H'; subst. done.
  - inversion H' as [|c0 cs0 w0 x1 x2 x3 _ _ St' Se' Hr]; subst. apply IH.
    assert (w1 = x1) as -> by congruence. by rewrite (settled_unique _ _ _ Se Se').
Qed.
Lemma srun_app a b w v : srun (a ++ b) w v <-> exists u, srun a w u /\ srun b u v.
Proof.
  revert w. induction a as [|c a IH]; intros w; cbn [app].
  - split; [intros H; exists w; split; [constructor|done]|]. intros (u & H & Hb). inversion H; subst. done.
  - split.
    + intros H. inversion H; subst. match goal with X : srun (a ++ b) _ _ |- _ => apply IH in X as (u & X1 & X2) end.
      exists u. split; [by econstructor|done].
    + intros (u & H & Hb). inversion H; subst. econstructor; [done..|]. apply IH. eauto.
Qed.
(** Variable 1 is copied to variable 3 and the copy dropped, [n] times. *)
Fixpoint rounds (n : nat) : list cmd := match n with O => [] | S n => SCopy 3 (Var 1) :: SDrop 3 :: rounds n end.
Lemma rounds_length n : length (rounds n) = 2 * n.
Proof. induction n as [|n IH]; cbn [rounds length]; lia. Qed.
Lemma copy_total w w1 : sstep (SCopy 3 (Var 1)) w = Some w1 -> total w1 <= total w + 1.
Proof. intros H. apply sstep_total in H. cbn in H. lia. Qed.
Lemma drop_total w w1 : sstep (SDrop 3) w = Some w1 -> S (total w1) = total w.
Proof.
  cbn [sstep]. destruct (sg w !! Var 3) as [g|] eqn:E; [|done]. cbn [mbind option_bind]. intros [= <-].
  unfold total. cbn [sg wg set_s]. rewrite map_size_delete_Some by eauto.
  assert (size (sg w) <> 0); [|lia]. intros X. apply map_size_empty_inv in X. rewrite X in E. by rewrite lookup_empty in E.
Qed.
Lemma rounds_total n : forall m w v, srun (take m (rounds n)) w v -> total v <= total w + 1.
Proof.
  induction n as [|n IH]; intros m w v H; cbn [rounds] in H.
  { rewrite take_nil in H. inversion H; subst. lia. }
  destruct m as [|[|m]]; cbn [take] in H.
  - inversion H; subst. lia.
  - inversion H as [|c cs w' w1 w2 w3 _ _ St Se Hr]; subst. inversion Hr; subst.
    apply copy_total in St. apply settled_total in Se. lia.
  - inversion H as [|c cs w' w1 w2 w3 _ _ St Se Hr]; subst. inversion Hr as [|c' cs' w'' x1 x2 x3 _ _ St' Se' Hr']; subst.
    apply IH in Hr'. apply copy_total in St. apply settled_total in Se. apply drop_total in St'. apply settled_total in Se'. lia.
Qed.
Lemma rounds_one m n c : rounds n !! m = Some c -> made_by c = 1.
Proof.
  revert m. induction n as [|n IH]; intros m H; [done|]. cbn [rounds] in H.
  destruct m as [|[|m]]; [by injection H as <-|by injection H as <-|]. by apply (IH m).
Qed.
Lemma rounds_memory cs n : (Z.of_nat (made cs + made cs) + 18 < 2 ^ 64)%Z -> in_memory (cs ++ rounds n).
Proof.
  intros B m w c H Hc. destruct (decide (m < length cs)) as [L|L].
  - rewrite take_app_le in H by lia. rewrite lookup_app_l in Hc by done. apply (small_memory cs) with (n := m); [lia|done|done].
  - rewrite take_app_ge in H by lia. rewrite lookup_app_r in Hc by lia. apply rounds_one in Hc. rewrite Hc.
    apply srun_app in H as (u & H1 & H2). apply srun_total in H1. apply rounds_total in H2.
    change (total spec0) with 0 in H1. unfold total in H2. unfold total in H1 at 1. unfold total in H2. lia.
Qed.
Lemma goes_more m x g o : m !! Var x = None -> goes (<[Var x := g]> m) o -> goes m o.
Proof.
  intros N. revert o. fix IH 2. intros o [G]. constructor. intros l E. destruct (G l) as (o' & i & -> & P).
  { rewrite lookup_insert_ne; [done|]. intros <-. congruence. }
  exists o', i. split; [done|]. by apply IH.
Qed.
(** A round changes nothing. *)
Lemma round_runs w s cs w' : rel w s -> is_Some (sg w !! Var 1) -> sg w !! Var 3 = None -> srun cs w w' ->
  srun (SCopy 3 (Var 1) :: SDrop 3 :: cs) w w'.
Proof.
  intros R [g H1] H3 Hr. pose proof (rel_settled _ _ R) as S.
  assert (St : sstep (SCopy 3 (Var 1)) w = Some (set_s (<[Var 3 := g]> (sg w)) w)).
  { cbn [sstep]. rewrite H1. cbn [mbind option_bind]. unfold new_s. by rewrite H3. }
  assert (Se : settled (set_s (<[Var 3 := g]> (sg w)) w) (set_s (<[Var 3 := g]> (sg w)) w)).
  { destruct S as (_ & _ & _ & G & _). split; [done|]. split; [done|]. split; [done|]. split; [|done].
    intros o i P. cbn [sg wg set_s] in *. apply goes_more in P; [|done]. rewrite lookup_insert_ne by done. by apply G. }
  assert (St2 : sstep (SDrop 3) (set_s (<[Var 3 := g]> (sg w)) w) = Some w).
  { cbn [sstep sg set_s]. rewrite lookup_insert. cbn [mbind option_bind]. unfold set_s. cbn [sg wg kinds].
    rewrite delete_insert by done. by destruct w. }
  econstructor; [done|done|exact St|exact Se|]. econstructor; [done|done|exact St2|exact S|]. done.
Qed.
Lemma rounds_run n w s : rel w s -> is_Some (sg w !! Var 1) -> sg w !! Var 3 = None -> srun (rounds n) w w.
Proof.
  intros R H1 H3. induction n as [|n IH]; cbn [rounds]; [constructor|]. by eapply round_runs.
Qed.
(** The list of two nodes of [list_prog], then the rounds. *)
Lemma list_rounds n : srun (list_prog ++ rounds n) spec0 (spec_of list_prog) /\ in_memory (list_prog ++ rounds n) /\
  length (list_prog ++ rounds n) = 5 + 2 * n.
Proof.
  split; [|split].
  - destruct list_runs as (H & B & _). destruct (srun_rel _ _ H B) as (s & _ & R & _).
    apply srun_app. exists (spec_of list_prog). split; [done|]. eapply rounds_run; [exact R|vm_compute; eauto|by vm_compute].
  - apply rounds_memory. by vm_compute.
  - rewrite app_length, rounds_length. done.
Qed.
(** The rounds may stand before any last command that makes few handles. *)
Lemma last_memory cs n c : (Z.of_nat (made cs + made cs + made_by c) + 19 < 2 ^ 64)%Z -> in_memory ((cs ++ rounds n) ++ [c]).
Proof.
  intros B m w d H Hd. destruct (decide (m < length (cs ++ rounds n))) as [L|L].
  - rewrite take_app_le in H by lia. rewrite lookup_app_l in Hd by done. apply (rounds_memory cs n) with (n := m); [lia|done|done].
  - rewrite take_app_ge in H by lia. rewrite lookup_app_r in Hd by lia.
    destruct (m - length (cs ++ rounds n)) as [|k] eqn:E; [|by destruct k]. injection Hd as <-. cbn [take] in H. rewrite app_nil_r in H.
    apply srun_app in H as (u & H1 & H2). apply srun_total in H1. rewrite <- (take_ge (rounds n) (length (rounds n))) in H2 by lia.
    apply rounds_total in H2. change (total spec0) with 0 in H1. unfold total in H2 at 1. lia.
Qed.
Lemma list_rounds_end n : srun ((list_prog ++ rounds n) ++ [SDrop 1]) spec0 (spec_of list_end) /\
  in_memory ((list_prog ++ rounds n) ++ [SDrop 1]) /\ ordered (sg (spec_of list_end)) id /\
  (forall x, sg (spec_of list_end) !! Var x = None /\ wg (spec_of list_end) !! Var x = None).
Proof.
  destruct list_ends as (H & _ & O & V & _). split; [|split; [|done]].
  - apply srun_app. exists (spec_of list_prog). split; [apply list_rounds|].
    unfold list_end in H. apply srun_app in H as (u & H1 & H2).
    assert (u = spec_of list_prog) as <-; [|exact H2].
    destruct list_runs as (H & _). eapply srun_unique; done.
  - apply last_memory. by vm_compute.
Qed.
Lemma own_rounds n : srun (SMake 1 (RObj false []) :: rounds n) spec0 (spec_of [SMake 1 (RObj false [])]) /\
  in_memory ((SMake 1 (RObj false []) :: rounds n) ++ [SMake 2 (RObj false [true])]) /\
  is_Some (sstep (SMake 2 (RObj false [true])) (spec_of [SMake 1 (RObj false [])])).
Proof.
  assert (H : srun [SMake 1 (RObj false [])] spec0 (spec_of [SMake 1 (RObj false [])])) by (apply sim_srun; by vm_compute).
  assert (B : (Z.of_nat (made [SMake 1 (RObj false [])]) + 16 < 2 ^ 64)%Z) by (by vm_compute).
  destruct (srun_rel _ _ H B) as (s & _ & R & _). split; [|split].
  - change (srun ([SMake 1 (RObj false [])] ++ rounds n) spec0 (spec_of [SMake 1 (RObj false [])])).
    apply srun_app. eexists. split; [exact H|]. eapply rounds_run; [exact R|vm_compute; eauto|by vm_compute].
  - apply (last_memory [SMake 1 (RObj false [])]). by vm_compute.
  - vm_compute. eauto.
Qed.
