(** Every command does to the groups what the specification says, and then what nothing keeps goes. *)
From stdpp Require Import gmap.
From Coq Require Import ZArith Lia.
From Verif Require Import Base GraphModel GraphSpec GraphProofs GraphRelease GraphOps.
Local Open Scope nat_scope.
Set Default Goal Selector "1".

Definition pointing (K : list raw) (m : gmap loc handle) : Prop := forall l h, m !! l = Some h -> hp h = pts K (hc h).
Definition rel (w : spec) (s : state) : Prop :=
  inv (kinds w) None None ∅ s /\ hc <$> shs s = sg w /\ hc <$> wks s = wg w /\
  pointing (kinds w) (shs s) /\ pointing (kinds w) (wks s) /\ sg w !! Var 0 = None /\ wg w !! Var 0 = None.
(** The command ends in a state that is [w1] without what nothing keeps. *)
Definition ends (w1 : spec) (r : outcome state) : Prop := exists s' w2, r = Ok s' /\ settled w1 w2 /\ rel w2 s'.

Lemma goes_rect' (m : hmap) (P : nat -> Prop) :
  (forall g, (forall l, m !! l = Some (Some g) -> exists o i, l = Field o i /\ goes m o /\ P o) -> P g) -> forall g, goes m g -> P g.
Proof.
  intros H. fix IH 2. intros g [G]. apply H. intros l E. destruct (G l E) as (o & i & E1 & E2). exists o, i. eauto.
Qed.

(** * What is left is what is kept *)
Definition maps (b : bool) (w : spec) : hmap := if b then sg w else wg w.
Definition abs (K : list raw) (s : state) : spec := {| sg := hc <$> shs s; wg := hc <$> wks s; kinds := K |}.
Lemma wellf_empty K s b o i : wellf K ∅ s -> objs s !! o = None -> hs b s !! Field o i = None.
Proof.
  intros W E. destruct (hs b s !! Field o i) eqn:X; [|done]. destruct (W b o i) as [W1 _].
  destruct W1 as (k & _ & _ & [[? ?]|Y]); [by eexists|congruence|]. by apply elem_of_empty in Y.
Qed.
Lemma settle w1 s' : inv (kinds w1) None None ∅ s' ->
  (forall b l, (hc <$> hs b s') !! l = maps b w1 !! l \/ exists o i, l = Field o i /\ goes (sg w1) o /\ hs b s' !! l = None) ->
  settled w1 (abs (kinds w1) s').
Proof.
  intros (C & W & _) H.
  assert (X : forall g, goes (sg w1) g -> objs s' !! g = None).
  { apply goes_rect'. intros g G. assert (M : members (hc <$> shs s') g = 0).
    { destruct (members (hc <$> shs s') g) eqn:E; [done|]. destruct (members_some (hc <$> shs s') g) as [l El]; [lia|].
      exfalso. destruct (H true l) as [Y|(o & i & -> & _ & Y)]; cbn in Y.
      - rewrite El in Y. symmetry in Y. destruct (G l Y) as (o & i & -> & _ & Z).
        pose proof (wellf_empty _ _ true o i W Z) as Q. cbn in Q. rewrite lookup_fmap, Q in El. done.
      - rewrite lookup_fmap, Y in El. done. }
    destruct (kinds w1 !! g) as [k|] eqn:Hk.
    - rewrite (ent_obj _ _ _ _ _ _ (core_ent _ _ _ _ _ C g k Hk)). unfold A. by rewrite M, bump_none.
    - by apply (core_out _ _ _ _ _ C g Hk). }
  assert (F : forall b o i, goes (sg w1) o -> hs b s' !! Field o i = None) by (intros; by eapply wellf_empty; eauto).
  split; [done|]. split; [|split; [|split]].
  - intros x. destruct (H true (Var x)) as [Y|(?&?&?&_)]; [|done]. done.
  - intros x. destruct (H false (Var x)) as [Y|(?&?&?&_)]; [|done]. done.
  - intros o i G. cbn. rewrite !lookup_fmap. pose proof (F true o i G) as Y. pose proof (F false o i G) as Z. cbn in Y, Z. by rewrite Y, Z.
  - intros o i G. cbn. split.
    + destruct (H true (Field o i)) as [Y|(o' & i' & [= <- <-] & Y & _)]; done.
    + destruct (H false (Field o i)) as [Y|(o' & i' & [= <- <-] & Y & _)]; done.
Qed.

(** The usual end of a command: a count goes. *)
Lemma finish w1 e m n s : st (kinds w1) e None m n s -> hc <$> m = sg w1 -> hc <$> n = wg w1 ->
  pointing (kinds w1) m -> pointing (kinds w1) n -> sg w1 !! Var 0 = None -> wg w1 !! Var 0 = None ->
  ends w1 (shared_count_release e s).
Proof.
  intros S E1 E2 P1 P2 Z1 Z2. destruct (st_release _ _ _ _ _ S) as (s' & E & I' & G & Y). destruct S as (_ & <- & <-).
  destruct G as (_ & O & G). exists s', (abs (kinds w1) s'). split; [done|].
  assert (Q : forall b l, hs b s' !! l = hs b s !! l \/ exists o i, l = Field o i /\ goes (sg w1) o /\ hs b s' !! l = None).
  { intros b l. destruct (G b l) as [X|(o & i & -> & X & [[U V]|U])]; [by left| |by apply elem_of_empty in U].
    right. exists o, i. split; [done|]. split; [|done]. rewrite <- E1. by apply Y. }
  assert (T : settled w1 (abs (kinds w1) s')).
  { apply settle; [done|]. intros b l. destruct (Q b l) as [X|X]; [left|by right].
    rewrite lookup_fmap, X, <- lookup_fmap. destruct b; cbn; congruence. }
  split; [done|]. split; [done|]. split; [done|]. split; [done|]. cbn [kinds abs]. split; [|split; [|split]].
  - intros l h El. destruct (Q true l) as [X|(?&?&_&_&X)]; cbn in X; [|congruence]. apply (P1 l). congruence.
  - intros l h El. destruct (Q false l) as [X|(?&?&_&_&X)]; cbn in X; [|congruence]. apply (P2 l). congruence.
  - destruct T as (_ & -> & _). done.
  - destruct T as (_ & _ & -> & _). done.
Qed.
Lemma finish0 w1 m n s : st (kinds w1) None None m n s -> hc <$> m = sg w1 -> hc <$> n = wg w1 ->
  pointing (kinds w1) m -> pointing (kinds w1) n -> sg w1 !! Var 0 = None -> wg w1 !! Var 0 = None ->
  ends w1 (Ok s).
Proof. intros S. apply (finish w1 None m n s S). Qed.

(** * Handles point at the object of their group *)
Lemma pointing_null K : hp null = pts K (hc null).
Proof. done. Qed.
Lemma pointing_insert K m l h : pointing K m -> hp h = pts K (hc h) -> pointing K (<[l := h]> m).
Proof. intros P E l' h'. rewrite lookup_insert_Some. intros [[_ <-]|[_ X]]; [done|by apply (P l')]. Qed.
Lemma pointing_delete K m l : pointing K m -> pointing K (delete l m).
Proof. intros P l' h'. rewrite lookup_delete_Some. intros [_ X]. by apply (P l'). Qed.
Lemma st_kind_s K e ew m n s l h g : st K e ew m n s -> m !! l = Some h -> hc h = Some g -> exists k, K !! g = Some k.
Proof.
  intros ((C & _) & <- & <-) E Eg. apply (core_kind _ _ _ _ _ g C). left. unfold A.
  apply hc_lookup in E. rewrite Eg in E. pose proof (members_pos _ _ _ E). lia.
Qed.
Lemma st_kind_w K e ew m n s l h g : st K e ew m n s -> n !! l = Some h -> hc h = Some g -> exists k, K !! g = Some k.
Proof.
  intros ((C & _) & <- & <-) E Eg. apply (core_kind _ _ _ _ _ g C). left. unfold B.
  apply hc_lookup in E. rewrite Eg in E. pose proof (members_pos _ _ _ E). lia.
Qed.
Lemma pts_app K r g k : K !! g = Some k -> pts (K ++ [r]) (Some g) = pts K (Some g).
Proof. intros E. unfold pts. rewrite lookup_app_l by (apply lookup_lt_Some in E; lia). done. Qed.
Lemma pointing_app_s K r e ew m n s j l : st K e ew m n s -> pointing K m -> pointing (K ++ [r]) (fresh_handles j 0 l true ∪ m).
Proof.
  intros S P x h E. apply lookup_union_Some_raw in E as [E|[_ E]].
  - unfold fresh_handles in E. rewrite lookup_fmap in E. destruct (fresh_members j 0 l true !! x); [|done]. by injection E as <-.
  - rewrite (P x h E). destruct (hc h) as [g|] eqn:Eg; [|done]. destruct (st_kind_s _ _ _ _ _ _ _ _ _ S E Eg) as [k Hk].
    symmetry. by eapply pts_app.
Qed.
Lemma pointing_app_w K r e ew m n s j l : st K e ew m n s -> pointing K n -> pointing (K ++ [r]) (fresh_handles j 0 l false ∪ n).
Proof.
  intros S P x h E. apply lookup_union_Some_raw in E as [E|[_ E]].
  - unfold fresh_handles in E. rewrite lookup_fmap in E. destruct (fresh_members j 0 l false !! x); [|done]. by injection E as <-.
  - rewrite (P x h E). destruct (hc h) as [g|] eqn:Eg; [|done]. destruct (st_kind_w _ _ _ _ _ _ _ _ _ S E Eg) as [k Hk].
    symmetry. by eapply pts_app.
Qed.

(** * The members *)
Lemma s_copy_ok K m n s x y h : st K None None m n s -> m !! y = Some h -> m !! Var x = None -> room m n 1 ->
  exists s', s_copy (Var x) y s = Ok s' /\ st K None None (<[Var x := h]> m) n s'.
Proof.
  intros S E N R. unfold s_copy, sh. pose proof S as (_ & -> & _). rewrite E. cbn [of_option obind].
  destruct (st_copy _ _ _ _ _ y h S E) as (s1 & -> & S1). cbn [obind]. by apply st_new_sh.
Qed.
Lemma s_move_ok K m n s x y h : st K None None m n s -> m !! y = Some h -> m !! Var x = None -> room m n 1 ->
  exists s', s_move (Var x) y s = Ok s' /\ st K None None (<[Var x := h]> (<[y := null]> m)) n s'.
Proof.
  intros S E N R. assert (Ne : y <> Var x) by congruence.
  unfold s_move, sh. pose proof S as (_ & -> & _). rewrite E. cbn [of_option obind].
  destruct (st_put_sh K None m n s y h {| hp := hp h; hc := None |} S E) as (s1 & -> & S1). cbn [obind].
  destruct (st_new_sh _ _ _ _ _ x h S1) as (s2 & -> & S2).
  { by rewrite lookup_insert_ne. }
  { unfold room in *. rewrite map_size_insert_Some by (by rewrite E). done. }
  cbn [obind]. destruct (st_fix_sh _ _ _ _ _ _ y {| hp := hp h; hc := None |} null S2) as (s3 & E3 & S3).
  { rewrite lookup_insert_ne by congruence. apply lookup_insert. }
  { done. }
  exists s3. split; [done|]. by rewrite insert_commute, insert_insert in S3 by congruence.
Qed.
(** by-value assignment, once the parameter is built *)
Lemma s_tail K m n s x h h0 : st K None None (<[Var 0 := h]> m) n s -> m !! Var 0 = None -> m !! x = Some h0 -> x <> Var 0 ->
  exists s1, (s <~ s_swap (Var 0) x s ; s_drop (Var 0) s)%outcome = shared_count_release (hc h0) s1 /\ st K (hc h0) None (<[x := h]> m) n s1.
Proof.
  intros S N E Ne. destruct (st_swap _ _ _ _ _ _ (Var 0) x h h0 S) as (s1 & -> & S1); [apply lookup_insert|by rewrite lookup_insert_ne|].
  cbn [obind]. unfold s_drop, sh. pose proof S1 as (_ & -> & _). rewrite lookup_insert_ne, lookup_insert by done. cbn [of_option obind].
  eexists. split; [done|]. assert (X : <[x := h]> (<[Var 0 := h0]> (<[Var 0 := h]> m)) !! Var 0 = Some h0).
  { rewrite lookup_insert_ne by done. apply lookup_insert. }
  pose proof (st_end_sh _ _ _ _ _ _ _ S1 X) as S2. 
  rewrite insert_insert, delete_insert_ne, delete_insert in S2 by done. done.
Qed.
Lemma w_copy_ok K m n s x y h : st K None None m n s -> n !! y = Some h -> n !! Var x = None -> room m n 1 ->
  exists s', w_copy (Var x) y s = Ok s' /\ st K None None m (<[Var x := h]> n) s'.
Proof.
  intros S E N R. unfold w_copy, wk. pose proof S as (_ & _ & ->). rewrite E. cbn [of_option obind].
  destruct (st_wcopy_w _ _ _ _ _ y h S E) as (s1 & -> & S1). cbn [obind]. by apply st_new_wk.
Qed.
Lemma w_from_ok K m n s x y h : st K None None m n s -> m !! y = Some h -> n !! Var x = None -> room m n 1 ->
  exists s', w_from (Var x) y s = Ok s' /\ st K None None m (<[Var x := h]> n) s'.
Proof.
  intros S E N R. unfold w_from, sh. pose proof S as (_ & -> & _). rewrite E. cbn [of_option obind].
  destruct (st_wcopy_s _ _ _ _ _ y h S E) as (s1 & -> & S1). cbn [obind]. by apply st_new_wk.
Qed.
Lemma st_put_wk K e m n s l h0 h : st K e (hc h) m n s -> n !! l = Some h0 ->
  exists s', put_wk l h s = Ok s' /\ st K e (hc h0) m (<[l := h]> n) s'.
Proof.
  intros S E. unfold put_wk, wk. pose proof S as (_ & _ & Em). rewrite Em, E. cbn. eexists. split; [done|].
  eapply st_wks; [done|intros; by eapply insert_same_dom|eapply insert_room'; [done|by eapply st_room]|].
  intros g. rewrite fmap_insert. apply members_insert. by apply hc_lookup.
Qed.
Lemma st_fix_wk K e ew m n s l h0 h : st K e ew m n s -> n !! l = Some h0 -> hc h = hc h0 ->
  exists s', put_wk l h s = Ok s' /\ st K e ew m (<[l := h]> n) s'.
Proof.
  intros S E Eh. unfold put_wk, wk. pose proof S as (_ & _ & Em). rewrite Em, E. cbn. eexists. split; [done|].
  eapply st_wks; [done|intros; by eapply insert_same_dom|eapply insert_room'; [done|by eapply st_room]|].
  intros g. rewrite fmap_insert, Eh, insert_id; [done|]. by apply hc_lookup.
Qed.
Lemma w_move_ok K m n s x y h : st K None None m n s -> n !! y = Some h -> n !! Var x = None -> room m n 1 ->
  exists s', w_move (Var x) y s = Ok s' /\ st K None None m (<[Var x := h]> (<[y := null]> n)) s'.
Proof.
  intros S E N R. assert (Ne : y <> Var x) by congruence.
  unfold w_move, wk. pose proof S as (_ & _ & ->). rewrite E. cbn [of_option obind].
  destruct (st_put_wk K None m n s y h {| hp := hp h; hc := None |} S E) as (s1 & -> & S1). cbn [obind].
  destruct (st_new_wk _ _ _ _ _ x h S1) as (s2 & -> & S2).
  { by rewrite lookup_insert_ne. }
  { unfold room in *. rewrite map_size_insert_Some by (by rewrite E). done. }
  cbn [obind]. destruct (st_fix_wk _ _ _ _ _ _ y {| hp := hp h; hc := None |} null S2) as (s3 & E3 & S3).
  { rewrite lookup_insert_ne by congruence. apply lookup_insert. }
  { done. }
  exists s3. split; [done|]. by rewrite insert_commute, insert_insert in S3 by congruence.
Qed.
Lemma w_tail K m n s x h h0 : st K None None m (<[Var 0 := h]> n) s -> n !! Var 0 = None -> n !! x = Some h0 -> x <> Var 0 ->
  exists s', (s <~ w_swap (Var 0) x s ; w_drop (Var 0) s)%outcome = Ok s' /\ st K None None m (<[x := h]> n) s'.
Proof.
  intros S N E Ne. destruct (st_wswap _ _ _ _ _ _ (Var 0) x h h0 S) as (s1 & -> & S1); [apply lookup_insert|by rewrite lookup_insert_ne|].
  cbn [obind]. unfold w_drop, wk. pose proof S1 as (_ & _ & ->). rewrite lookup_insert_ne, lookup_insert by done. cbn [of_option obind].
  assert (X : <[x := h]> (<[Var 0 := h0]> (<[Var 0 := h]> n)) !! Var 0 = Some h0).
  { rewrite lookup_insert_ne by done. apply lookup_insert. }
  pose proof (st_end_wk _ _ _ _ _ _ _ S1 X) as S2. 
  rewrite insert_insert, delete_insert_ne, delete_insert in S2 by done. by apply st_wrelease in S2.
Qed.
Lemma w_assign_from_ok K m n s w x h h0 : st K None None m n s -> m !! x = Some h -> n !! w = Some h0 -> n !! Var 0 = None -> room m n 1 ->
  exists s', w_assign_from w x s = Ok s' /\ st K None None m (<[w := h]> n) s'.
Proof.
  intros S E E0 N R. unfold w_assign_from. destruct (w_from_ok _ _ _ _ 0 x h S E N R) as (s1 & -> & S1). cbn [obind].
  eapply w_tail; [done|done|done|congruence].
Qed.
