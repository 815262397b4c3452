(** The counters of a control block count handles. *)
From stdpp Require Import gmap.
From Coq Require Import ZArith Lia.
From Verif Require Import Base SharedModel SharedSpec.
Local Open Scope nat_scope.

(** * Counting the members of a group *)
Global Arguments times : simpl never.
Notation hmap := (gmap nat (option nat)).
Definition bump (h : option nat) (g : nat) : nat := if decide (h = Some g) then 1 else 0.

Lemma members_insert_new (m : hmap) x h g :
  m !! x = None -> members (<[x := h]> m) g = members m g + bump h g.
Proof.
  intros E. unfold members, bump. destruct (decide (h = Some g)) as [->|N].
  - rewrite map_filter_insert_True by done. rewrite map_size_insert_None; [lia|].
    apply map_filter_lookup_None; auto.
  - rewrite map_filter_insert_not' by (cbn; auto || (intros; congruence)). lia.
Qed.
Lemma members_delete (m : hmap) x h g :
  m !! x = Some h -> members (delete x m) g + bump h g = members m g.
Proof.
  intros E. rewrite <- (insert_delete m x h E) at 2.
  rewrite members_insert_new by apply lookup_delete. lia.
Qed.
Lemma members_insert (m : hmap) x h h' g :
  m !! x = Some h -> members (<[x := h']> m) g + bump h g = members m g + bump h' g.
Proof.
  intros E. rewrite <- insert_delete_insert.
  rewrite members_insert_new by apply lookup_delete.
  pose proof (members_delete m x h g E). lia.
Qed.
Lemma members_pos (m : hmap) x g : m !! x = Some (Some g) -> 0 < members m g.
Proof.
  intros E. pose proof (members_delete m x _ g E) as H. unfold bump in H. rewrite decide_True in H by done. lia.
Qed.
Lemma members_size (m : hmap) g : members m g <= size m.
Proof.
  unfold members. induction m as [|x h m E IH] using map_ind.
  - rewrite map_filter_empty, map_size_empty. lia.
  - fold (members (<[x := h]> m) g). rewrite members_insert_new, map_size_insert_None by done.
    unfold members, bump. case_decide; lia.
Qed.
Lemma members_empty g : members ∅ g = 0.
Proof. unfold members. rewrite map_filter_empty. apply map_size_empty. Qed.

(** * The counters against the groups *)
Definition own (k : kind) : nat := match k with KSelf true => 2 | _ => 1 end.
Definition target (k : kind) (g : nat) : option nat := if has_object k then Some g else None.
Definition body (k : kind) (g : nat) : option obj :=
  match k with
  | KNull => None
  | KPlain => Some {| weak_this := None |}
  | KSelf true => Some {| weak_this := Some {| hp := Some g; hc := Some g |} |}
  | KSelf false => Some {| weak_this := Some null |}
  end.
(** Group [g] of kind [k] with [a] shared and [b] weak handles. *)
Record ent (a b : nat) (g : nat) (k : kind) (s : state) : Prop := {
  ent_block : blocks s !! g =
    (if a + b =? 0 then None
     else Some {| sc := Z.of_nat a; wc := Z.of_nat (b + if a =? 0 then 0 else own k); ptr := target k g |});
  ent_obj : objs s !! g = (if a =? 0 then None else body k g);
  ent_des : times (destroyed s) g = (if a =? 0 then if has_object k then 1 else 0 else 0);
  ent_fre : times (freed s) g = (if a + b =? 0 then 1 else 0) }.
Record core (K : list kind) (a b : nat -> nat) (s : state) : Prop := {
  core_nxt : nxt s = length K;
  core_ent g k : K !! g = Some k -> ent (a g) (b g) g k s;
  core_out g : K !! g = None ->
    a g = 0 /\ b g = 0 /\ blocks s !! g = None /\ objs s !! g = None /\
    times (destroyed s) g = 0 /\ times (freed s) g = 0 }.
Definition upd (f : nat -> nat) (g v h : nat) : nat := if decide (h = g) then v else f h.
Definition same (s s' : state) : Prop := shs s' = shs s /\ wks s' = wks s.

Lemma core_ext K a b a' b' s :
  core K a b s -> (forall g, a g = a' g) -> (forall g, b g = b' g) -> core K a' b' s.
Proof.
  intros [N E O] Ha Hb. split; [done| |].
  - intros g k H. rewrite <- Ha, <- Hb. by apply E.
  - intros g H. rewrite <- Ha, <- Hb. by apply O.
Qed.
Lemma ent_same a b g k s s' :
  ent a b g k s -> blocks s' !! g = blocks s !! g -> objs s' !! g = objs s !! g ->
  times (destroyed s') g = times (destroyed s) g -> times (freed s') g = times (freed s) g -> ent a b g k s'.
Proof. intros [] E1 E2 E3 E4. split; congruence. Qed.
(** Only group [g] changes. *)
Lemma core_change K a b s s' g k a' b' k' :
  core K a b s -> K !! g = Some k -> nxt s' = nxt s ->
  (forall h, h <> g -> blocks s' !! h = blocks s !! h /\ objs s' !! h = objs s !! h /\
    times (destroyed s') h = times (destroyed s) h /\ times (freed s') h = times (freed s) h) ->
  ent a' b' g k' s' -> core (<[g := k']> K) (upd a g a') (upd b g b') s'.
Proof.
  intros [N E O] Hk Hn Hf Hg. pose proof (lookup_lt_Some _ _ _ Hk) as Hlt. split.
  - rewrite insert_length. congruence.
  - intros h k0 H0. unfold upd. case_decide as D.
    + subst h. rewrite list_lookup_insert in H0 by done. by simplify_eq.
    + rewrite list_lookup_insert_ne in H0 by done. destruct (Hf h D) as (?&?&?&?).
      eapply ent_same; eauto.
  - intros h H0. unfold upd. case_decide as D.
    + subst h. rewrite list_lookup_insert in H0 by done. done.
    + rewrite list_lookup_insert_ne in H0 by done. destruct (Hf h D) as (->&->&->&->). auto.
Qed.
Lemma core_keep K a b s s' g k a' b' :
  core K a b s -> K !! g = Some k -> nxt s' = nxt s ->
  (forall h, h <> g -> blocks s' !! h = blocks s !! h /\ objs s' !! h = objs s !! h /\
    times (destroyed s') h = times (destroyed s) h /\ times (freed s') h = times (freed s) h) ->
  ent a' b' g k s' -> core K (upd a g a') (upd b g b') s'.
Proof.
  intros C Hk Hn Hf Hg. rewrite <- (list_insert_id K g k Hk). eapply core_change; eauto.
Qed.
Lemma times_app l n m : times (l ++ [n]) m = times l m + if decide (n = m) then 1 else 0.
Proof.
  unfold times. rewrite count_occ_app. cbn.
  destruct (Nat.eq_dec n m), (decide (n = m)); congruence || lia.
Qed.
Lemma wrap_id z : (0 <= z < 2 ^ 64)%Z -> wrap z = z.
Proof. apply Z.mod_small. Qed.

Lemma core_kind K a b s g : core K a b s -> 0 < a g + b g -> exists k, K !! g = Some k.
Proof.
  intros C H. destruct (K !! g) as [k|] eqn:E; [eauto|]. destruct (core_out _ _ _ _ C g E) as (?&?&_). lia.
Qed.
Lemma upd_id f g h : upd f g (f g) h = f h.
Proof. unfold upd. case_decide; congruence. Qed.

Ltac frame := intros; cbn; repeat first [rewrite lookup_insert_ne by done | rewrite lookup_delete_ne by done];
  rewrite ?times_app;
  rewrite ?decide_False by done; rewrite ?Nat.add_0_r; auto.
Ltac blk E := unfold get_block; rewrite E; cbn [of_option obind].

Section counters.
Context (K : list kind) (a b : nat -> nat) (s : state) (C : core K a b s) (g : nat).
Hypothesis (Small : (Z.of_nat (a g) + Z.of_nat (b g) + 3 < 2 ^ 64)%Z).

Lemma live_block : 0 < a g + b g ->
  exists k, K !! g = Some k /\ ent (a g) (b g) g k s /\
    blocks s !! g = Some {| sc := Z.of_nat (a g); wc := Z.of_nat (b g + if a g =? 0 then 0 else own k); ptr := target k g |}.
Proof.
  intros H. destruct (core_kind _ _ _ _ g C H) as [k Hk]. exists k. pose proof (core_ent _ _ _ _ C g k Hk) as E.
  split; [done|]. split; [done|]. rewrite (ent_block _ _ _ _ _ E).
  destruct (Nat.eqb_spec (a g + b g) 0); [lia|done].
Qed.
Lemma own_le k : own k <= 2.
Proof. destruct k as [| |[]]; cbn; lia. Qed.

Lemma copy_shared_ok : 0 < a g -> exists s', copy_shared_ref g s = Ok s' /\ same s s' /\ core K (upd a g (S (a g))) b s'.
Proof.
  intros H. destruct live_block as (k&Hk&E&B); [lia|]. unfold copy_shared_ref. blk B. cbn.
  eexists. split; [done|]. split; [done|].
  eapply core_ext; [eapply (core_keep K a b s _ g k (S (a g)) (b g) C Hk)|done|apply upd_id].
  - done.
  - frame.
  - destruct E as [E1 E2 E3 E4]. split; cbn.
    + rewrite lookup_insert. do 2 f_equal; [rewrite wrap_id; lia|]. destruct (Nat.eqb_spec (a g) 0); [lia|done].
    + rewrite E2. destruct (Nat.eqb_spec (a g) 0); [lia|done].
    + rewrite E3. destruct (Nat.eqb_spec (a g) 0); [lia|done].
    + rewrite E4. destruct (Nat.eqb_spec (a g + b g) 0); [lia|done].
Qed.
Lemma copy_weak_ok : 0 < a g + b g -> exists s', copy_weak_ref g s = Ok s' /\ same s s' /\ core K a (upd b g (S (b g))) s'.
Proof.
  intros H. destruct live_block as (k&Hk&E&B); [lia|]. unfold copy_weak_ref. blk B. cbn.
  eexists. split; [done|]. split; [done|].
  eapply core_ext; [eapply (core_keep K a b s _ g k (a g) (S (b g)) C Hk)|apply upd_id|done].
  - done.
  - frame.
  - destruct E as [E1 E2 E3 E4]. pose proof (own_le k). split; rewrite ?Nat.add_succ_r; cbn.
    + rewrite lookup_insert. do 2 f_equal. destruct (Nat.eqb_spec (a g) 0); rewrite wrap_id; lia.
    + done.
    + done.
    + rewrite E4. destruct (Nat.eqb_spec (a g + b g) 0); [lia|done].
Qed.
Lemma weak_release_ok : 0 < b g -> exists s', weak_count_release (Some g) s = Ok s' /\ same s s' /\ core K a (upd b g (b g - 1)) s'.
Proof.
  intros H. destruct live_block as (k&Hk&E&B); [lia|]. unfold weak_count_release, weak_release. blk B. cbn.
  pose proof (own_le k) as HO. assert (0 < own k) as HO' by (destruct k as [| |[]]; cbn; lia).
  destruct E as [E1 E2 E3 E4].
  destruct (Nat.eqb_spec (a g) 0) as [A|A].
  - rewrite wrap_id by lia. destruct (Z.eqb_spec (Z.of_nat (b g + 0) - 1) 0) as [W|W].
    + unfold distory. unfold get_block, put_block. cbn [blocks]. rewrite lookup_insert. cbn.
      eexists. split; [done|]. split; [done|].
      eapply core_ext; [eapply (core_keep K a b s _ g k (a g) (b g - 1) C Hk)|apply upd_id|done].
      * done.
      * frame.
      * rewrite A in *. replace (b g - 1) with 0 by lia. split; cbn [blocks objs destroyed freed Nat.add Nat.eqb].
        -- apply lookup_delete.
        -- done.
        -- done.
        -- rewrite times_app, E4, decide_True by done. cbn [Nat.add]. destruct (Nat.eqb_spec (b g) 0); [lia|done].
    + eexists. split; [done|]. split; [done|].
      eapply core_ext; [eapply (core_keep K a b s _ g k (a g) (b g - 1) C Hk)|apply upd_id|done].
      * done.
      * frame.
      * rewrite A in *. split; cbn [blocks objs destroyed freed Nat.add Nat.eqb put_block].
        -- rewrite lookup_insert. destruct (Nat.eqb_spec (b g - 1) 0); [lia|]. do 2 f_equal. lia.
        -- done.
        -- done.
        -- rewrite E4. cbn. destruct (Nat.eqb_spec (b g - 1) 0), (Nat.eqb_spec (b g) 0); lia.
  - rewrite wrap_id by lia. destruct (Z.eqb_spec (Z.of_nat (b g + own k) - 1) 0) as [W|W]; [lia|].
    eexists. split; [done|]. split; [done|].
    eapply core_ext; [eapply (core_keep K a b s _ g k (a g) (b g - 1) C Hk)|apply upd_id|done].
    + done.
    + frame.
    + split; cbn [blocks objs destroyed freed put_block].
      * rewrite lookup_insert. destruct (Nat.eqb_spec (a g + (b g - 1)) 0); [lia|]. do 2 f_equal.
        destruct (Nat.eqb_spec (a g) 0); lia.
      * destruct (Nat.eqb_spec (a g) 0); [lia|exact E2].
      * destruct (Nat.eqb_spec (a g) 0); [lia|exact E3].
      * rewrite E4. destruct (Nat.eqb_spec (a g + (b g - 1)) 0), (Nat.eqb_spec (a g + b g) 0); lia.
Qed.
Lemma lock_ok : 0 < a g -> exists s', lock g s = Ok (true, s') /\ same s s' /\ core K (upd a g (S (a g))) b s'.
Proof.
  intros H. destruct live_block as (k&Hk&E&B); [lia|]. unfold lock. blk B. cbn [sc wc ptr].
  cbn [lock_loop]. destruct (Z.eqb_spec (Z.of_nat (a g)) 0); [lia|]. blk B. cbn [sc].
  rewrite Z.eqb_refl. cbn [wc ptr]. unfold get_block, put_block. cbn [blocks]. rewrite lookup_insert.
  cbn [of_option obind sc]. rewrite wrap_id by lia.
  destruct (Z.eqb_spec (Z.of_nat (a g) + 1) (Z.of_nat (a g))); [lia|].
  eexists. split; [done|]. split; [done|].
  eapply core_ext; [eapply (core_keep K a b s _ g k (S (a g)) (b g) C Hk)|done|apply upd_id].
  - done.
  - frame.
  - destruct E as [E1 E2 E3 E4]. split; cbn.
    + rewrite lookup_insert. do 2 f_equal; [lia|]. destruct (Nat.eqb_spec (a g) 0); [lia|done].
    + rewrite E2. destruct (Nat.eqb_spec (a g) 0); [lia|done].
    + rewrite E3. destruct (Nat.eqb_spec (a g) 0); [lia|done].
    + rewrite E4. destruct (Nat.eqb_spec (a g + b g) 0); [lia|done].
Qed.
Lemma lock_fails : a g = 0 -> 0 < b g -> lock g s = Ok (false, s).
Proof.
  intros A H. destruct live_block as (k&Hk&E&B); [lia|]. unfold lock. blk B. cbn [sc wc ptr].
  rewrite A. done.
Qed.

Lemma shared_release_ok : 0 < a g ->
  exists s', shared_count_release (Some g) s = Ok s' /\ same s s' /\ core K (upd a g (a g - 1)) b s'.
Proof.
  intros H. destruct live_block as (k&Hk&E&B); [lia|]. unfold shared_count_release, shared_release. blk B. cbn [sc wc ptr].
  destruct (Nat.eqb_spec (a g) 0); [lia|].
  rewrite wrap_id by lia. cbn [obind]. pose proof (own_le k) as HO.
  destruct E as [E1 E2 E3 E4]. rewrite (proj2 (Nat.eqb_neq (a g) 0)) in E2, E3 by done.
  destruct (Z.eqb_spec (Z.of_nat (a g) - 1) 0) as [W|W].
  - assert (a g = 1) as A by lia. clear W.
    unfold dispose. unfold get_block at 1, put_block at 1. cbn [blocks]. rewrite lookup_insert. cbn [of_option obind ptr].
    assert (forall s1, nxt s1 = nxt s -> same s s1 ->
      blocks s1 = <[g := {| sc := Z.of_nat (a g) - 1; wc := Z.of_nat (b g) + 1; ptr := target k g |}]> (blocks s) ->
      objs s1 !! g = None -> (forall h, h <> g -> objs s1 !! h = objs s !! h) ->
      freed s1 = freed s -> (forall h, times (destroyed s1) h = times (destroyed s) h + if decide (h = g) then if has_object k then 1 else 0 else 0) ->
      exists s', (' (r, s) <~ weak_release g s1; (if (r =? 0)%Z then distory g s else Ok s))%outcome = Ok s' /\
        same s s' /\ core K (upd a g (a g - 1)) b s') as Fin.
    { intros s1 Hn [Hs Hw] Hb Ho Ho' Hf Hd. unfold weak_release, get_block. rewrite Hb, lookup_insert.
      cbn [of_option obind sc wc ptr]. rewrite wrap_id by lia.
      destruct (Z.eqb_spec (Z.of_nat (b g) + 1 - 1) 0) as [W|W].
      - unfold distory, get_block, put_block. cbn [blocks]. rewrite lookup_insert. cbn [of_option obind].
        eexists. split; [done|]. split; [done|].
        eapply core_ext; [eapply (core_keep K a b s _ g k (a g - 1) (b g) C Hk)|done|apply upd_id].
        + done.
        + intros h Dh. cbn. rewrite lookup_delete_ne, lookup_insert_ne by done. rewrite Hb, lookup_insert_ne by done.
          rewrite Ho' by done. rewrite Hd, decide_False, Nat.add_0_r by done. rewrite Hf, times_app, decide_False, Nat.add_0_r by done. done.
        + rewrite A. split; cbn [blocks objs destroyed freed Nat.sub Nat.eqb Nat.add].
          * rewrite lookup_delete. destruct (Nat.eqb_spec (b g) 0); [done|lia].
          * done.
          * rewrite Hd, E3, decide_True by done. done.
          * rewrite Hf, times_app, decide_True, E4 by done. destruct (Nat.eqb_spec (a g + b g) 0), (Nat.eqb_spec (b g) 0); lia.
      - eexists. split; [done|]. split; [done|].
        eapply core_ext; [eapply (core_keep K a b s _ g k (a g - 1) (b g) C Hk)|done|apply upd_id].
        + done.
        + intros h Dh. cbn. rewrite lookup_insert_ne by done. rewrite Hb, lookup_insert_ne by done.
          rewrite Ho' by done. rewrite Hd, decide_False, Nat.add_0_r by done. rewrite Hf. done.
        + rewrite A. split; cbn [blocks objs destroyed freed Nat.sub Nat.eqb Nat.add put_block].
          * rewrite lookup_insert. destruct (Nat.eqb_spec (b g) 0); [lia|]. do 2 f_equal; lia.
          * done.
          * rewrite Hd, E3, decide_True by done. done.
          * rewrite Hf, E4. destruct (Nat.eqb_spec (a g + b g) 0), (Nat.eqb_spec (b g) 0); lia. }
    destruct k as [| |[]]; cbn [target has_object body own] in *.
    + cbn [obind]. apply Fin; try done.
      * cbn. do 2 f_equal. lia.
      * intros h. cbn. case_decide; lia.
    + unfold delete_obj, put_block. cbn [objs]. rewrite E2. cbn [of_option obind weak_this].
      apply Fin; try done.
      * cbn. do 2 f_equal. lia.
      * apply lookup_delete.
      * intros. by apply lookup_delete_ne.
      * intros h. cbn. rewrite times_app. case_decide; case_decide; congruence || lia.
    + unfold delete_obj, put_block. cbn [objs]. rewrite E2. cbn [of_option obind weak_this hc].
      unfold weak_count_release, weak_release, get_block, put_block. cbn [blocks]. rewrite lookup_insert.
      cbn [of_option obind sc wc ptr]. rewrite wrap_id by lia.
      destruct (Z.eqb_spec (Z.of_nat (b g + 2) - 1) 0) as [W|W]; [lia|]. cbn [obind].
      apply Fin; try done.
      * cbn. rewrite insert_insert. do 2 f_equal. lia.
      * apply lookup_delete.
      * intros. by apply lookup_delete_ne.
      * intros h. cbn. rewrite times_app. case_decide; case_decide; congruence || lia.
    + unfold delete_obj, put_block. cbn [objs]. rewrite E2. cbn [of_option obind weak_this hc null weak_count_release].
      apply Fin; try done.
      * cbn. do 2 f_equal. lia.
      * apply lookup_delete.
      * intros. by apply lookup_delete_ne.
      * intros h. cbn. rewrite times_app. case_decide; case_decide; congruence || lia.
  - eexists. split; [done|]. split; [done|].
    eapply core_ext; [eapply (core_keep K a b s _ g k (a g - 1) (b g) C Hk)|done|apply upd_id].
    + done.
    + frame.
    + split; cbn [blocks objs destroyed freed put_block].
      * rewrite lookup_insert. destruct (Nat.eqb_spec (a g - 1 + b g) 0); [lia|]. do 2 f_equal; [lia|].
        destruct (Nat.eqb_spec (a g - 1) 0); lia.
      * rewrite E2. destruct (Nat.eqb_spec (a g - 1) 0); [lia|done].
      * rewrite E3. destruct (Nat.eqb_spec (a g - 1) 0); [lia|done].
      * rewrite E4. destruct (Nat.eqb_spec (a g - 1 + b g) 0), (Nat.eqb_spec (a g + b g) 0); lia.
Qed.
End counters.

(** A new group: the object and its block. *)
Lemma start_ok K a b s r : core K a b s ->
  exists s1, (let (o, s) := new_obj r s in new_block o s) = (length K, s1) /\
    new_obj r s = (target (reset_kind r) (length K), snd (new_obj r s)) /\ same s s1 /\
    core (K ++ [reset_kind r]) (upd a (length K) 1) b s1.
Proof.
  intros [N E O].
  destruct (O (length K)) as (Oa&Ob&O1&O2&O3&O4); [by apply lookup_ge_None_2|].
  assert (forall s1, nxt s1 = S (length K) ->
    blocks s1 = <[length K := {| sc := 1; wc := 1; ptr := target (reset_kind r) (length K) |}]> (blocks s) ->
    objs s1 !! length K = body (reset_kind r) (length K) ->
    (forall h, h <> length K -> objs s1 !! h = objs s !! h) ->
    destroyed s1 = destroyed s -> freed s1 = freed s ->
    core (K ++ [reset_kind r]) (upd a (length K) 1) b s1) as Fin.
  { intros s1 Hn Hb Ho Ho' Hd Hf. split.
    - rewrite app_length. cbn. lia.
    - intros g k Hk. unfold upd. case_decide as D.
      + subst g. rewrite lookup_app_r, Nat.sub_diag in Hk by lia. cbn in Hk. simplify_eq.
        split; cbn.
        * rewrite Hb, lookup_insert, Ob. by destruct r.
        * done.
        * by rewrite Hd.
        * by rewrite Hf.
      + assert (g < length K) as L.
        { apply lookup_lt_Some in Hk. rewrite app_length in Hk. cbn in Hk. lia. }
        rewrite lookup_app_l in Hk by done. eapply ent_same; [by eapply E|..].
        * by rewrite Hb, lookup_insert_ne by lia.
        * apply Ho'. lia.
        * by rewrite Hd.
        * by rewrite Hf.
    - intros g Hk. apply lookup_ge_None in Hk. rewrite app_length in Hk. cbn in Hk.
      destruct (O g) as (?&?&?&?&?&?); [apply lookup_ge_None_2; lia|].
      unfold upd. rewrite decide_False by lia. rewrite Hb, lookup_insert_ne, Ho', Hd, Hf by lia. auto 8. }
  assert (forall g, nxt (put_obj g {| weak_this := None |} s) = length K) as N1 by done.
  assert (forall g, nxt (put_obj g {| weak_this := Some null |} s) = length K) as N2 by done.
  destruct r; cbn [new_obj new_block reset_kind target has_object snd] in *;
    unfold new_block; rewrite ?N1, ?N2, ?N; (eexists; split; [reflexivity|]); (split; [done|]); (split; [done|]);
    apply Fin; cbn; try done; try apply lookup_insert; intros; by rewrite lookup_insert_ne.
Qed.
(** The object learns its group. *)
Lemma learn_ok K a b s g h :
  core K a b s -> K !! g = Some (KSelf false) -> 0 < a g -> b g = 1 -> h = {| hp := Some g; hc := Some g |} ->
  core (<[g := KSelf true]> K) a (upd b g 0) (put_obj g {| weak_this := Some h |} s).
Proof.
  intros C Hk A B ->. destruct (core_ent _ _ _ _ C g _ Hk) as [E1 E2 E3 E4].
  eapply core_ext; [eapply (core_change K a b s _ g (KSelf false) (a g) 0 (KSelf true) C Hk)|apply upd_id|done].
  - done.
  - frame.
  - destruct (Nat.eqb_spec (a g) 0) as [Z|Z]; [lia|]. rewrite B in *. split; cbn.
    + rewrite E1. destruct (Nat.eqb_spec (a g + 1) 0), (Nat.eqb_spec (a g + 0) 0); try lia.
      do 2 f_equal. destruct (Nat.eqb_spec (a g) 0); [lia|]. cbn. lia.
    + rewrite lookup_insert. destruct (Nat.eqb_spec (a g) 0); [lia|done].
    + rewrite E3. destruct (Nat.eqb_spec (a g) 0); [lia|done].
    + rewrite E4. destruct (Nat.eqb_spec (a g + 1) 0), (Nat.eqb_spec (a g + 0) 0); lia.
Qed.
