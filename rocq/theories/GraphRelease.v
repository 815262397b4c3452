(** Destruction: what goes, what stays, and that the recursion ends. *)
From stdpp Require Import gmap.
From Coq Require Import ZArith Lia.
From Verif Require Import Base GraphModel GraphSpec GraphProofs.
Local Open Scope nat_scope.
Set Default Goal Selector "1".

(** The destructor [rel] of a shared_count does its work as long as fewer than [f] objects exist. *)
Definition rel_ok (m0 : hmap) (K : list raw) (f : nat) (rel : option nat -> state -> outcome state) : Prop :=
  forall e D s, inv K e None D s -> size (objs s) < f -> right_so m0 D s ->
    exists s', rel e s = Ok s' /\ inv K None None D s' /\ gone ∅ s s' /\ rightly m0 s s'.

Lemma end_fields_ok m0 K f rel o : rel_ok m0 K f rel -> forall ks D s,
  inv K None None D s -> o ∈ D -> size (objs s) < f -> right_so m0 D s -> NoDup ks.*1 ->
  (forall i b, (i, b) ∈ ks -> is_Some (hs b s !! Field o i)) ->
  exists s', end_fields rel o ks s = Ok s' /\ inv K None None D s' /\ gone {[o]} s s' /\ rightly m0 s s' /\
    forall i b, (i, b) ∈ ks -> hs b s' !! Field o i = None.
Proof.
  intros HR. induction ks as [|[i b] ks IH]; intros D s I HD Hs R ND Hf.
  { exists s. split; [done|]. split; [done|]. split; [apply gone_refl|]. split; [intros ? [? ?] ?; congruence|].
    intros ? ? X. by apply elem_of_nil in X. }
  apply NoDup_cons in ND as [Ni ND]. cbn [fmap list_fmap fst] in Ni.
  destruct (Hf i b) as [h Eh]; [by left|].
  assert (Nr : forall b', (i, b') ∉ ks) by (intros b' X; apply Ni; apply elem_of_list_fmap; exists (i, b'); done).
  assert (Go : goes m0 o) by (apply R; done).
  (* the rest, once the first member is through *)
  assert (Rest : forall s1, inv K None None D s1 -> gone {[o]} s s1 -> rightly m0 s s1 ->
    (forall i' b', i' <> i -> hs b' s1 !! Field o i' = hs b' s !! Field o i') -> hs b s1 !! Field o i = None ->
    exists s', end_fields rel o ks s1 = Ok s' /\ inv K None None D s' /\ gone {[o]} s s' /\ rightly m0 s s' /\
      forall i' b', (i', b') ∈ (i, b) :: ks -> hs b' s' !! Field o i' = None).
  { intros s1 I1 G1 Y1 F1 N1. destruct (IH D s1) as (s' & E & I' & G' & Y' & N'); [done|done| | |done| |].
    - pose proof (gone_size _ _ _ G1). lia.
    - eapply right_gone; [done..|]. intros x X. apply elem_of_singleton in X as ->. done.
    - intros i' b' X. rewrite F1; [apply Hf; by right|]. intros ->. by apply (Nr b').
    - exists s'. split; [done|]. split; [done|]. split; [by eapply gone_trans|]. split; [by eapply rightly_trans|].
      intros i' b' X. apply elem_of_cons in X as [X|X]; [|by apply N'].
      injection X as -> ->. destruct G' as (_ & _ & G'). destruct (G' b (Field o i)) as [->|(?&?&?&?&?)]; done. }
  cbn [end_fields]. destruct b.
  - unfold sh. cbn [hs] in Eh. rewrite Eh. cbn [of_option obind].
    pose proof (inv_end_sh _ _ _ _ _ _ I HD Eh) as I0.
    assert (Ho : objs s !! o = None) by (by eapply inv_objs_D).
    assert (G0 : gone {[o]} s (end_sh (Field o i) s)).
    { split; [done|]. split; [auto|]. intros b l. destruct b; cbn; [|auto]. destruct (decide (l = Field o i)) as [->|N].
      - right. exists o, i. split; [done|]. split; [apply lookup_delete|]. right. by apply elem_of_singleton.
      - left. by rewrite lookup_delete_ne. }
    assert (Y0 : rightly m0 s (end_sh (Field o i) s)) by (intros x [? ?] ?; cbn in *; congruence).
    destruct (HR (hc h) D _ I0) as (s1 & -> & I1 & G1 & Y1); [done| |].
    { eapply right_gone; [done..|]. intros x X. apply elem_of_singleton in X as ->. done. }
    cbn [obind]. 
    assert (F1 : forall i' b', hs b' s1 !! Field o i' = hs b' (end_sh (Field o i) s) !! Field o i').
    { intros i' b'. destruct G1 as (_ & _ & G1). destruct (G1 b' (Field o i')) as [?|(o' & j & E & _ & [[P _]|P])]; [done| |].
      - injection E as <- <-. cbn in P. rewrite Ho in P. by destruct P.
      - by apply elem_of_empty in P. }
    apply Rest; [done| | | |].
    + eapply gone_trans; [done|]. destruct G1 as (N1 & O1 & H1). split; [done|]. split; [done|].
      intros b l. destruct (H1 b l) as [?|(?&?&?&?&[?|X])]; [auto| |by apply elem_of_empty in X]. right. eauto 10.
    + by eapply rightly_trans.
    + intros i' b' N. rewrite F1. destruct b'; cbn; [|done]. rewrite lookup_delete_ne; congruence.
    + rewrite F1. cbn. apply lookup_delete.
  - unfold wk. cbn [hs] in Eh. rewrite Eh. cbn [of_option obind].
    pose proof (inv_end_wk _ _ _ _ _ _ I HD Eh) as I0.
    destruct (weak_count_release_ok _ _ _ _ _ I0) as (s1 & -> & I1 & [S1 S2] & O1 & N1). cbn [obind].
    apply Rest; [done| | | |].
    + split; [done|]. split; [intros; rewrite O1; auto|]. intros b l. destruct b; cbn; [rewrite S1; auto|]. rewrite S2. cbn.
      destruct (decide (l = Field o i)) as [->|N].
      * right. exists o, i. split; [done|]. split; [apply lookup_delete|]. right. by apply elem_of_singleton.
      * left. by rewrite lookup_delete_ne.
    + intros x [? ?] ?. rewrite O1 in *. cbn in *. congruence.
    + intros i' b' N. destruct b'; cbn; [by rewrite S1|]. rewrite S2. cbn. rewrite lookup_delete_ne; congruence.
    + cbn. rewrite S2. cbn. apply lookup_delete.
Qed.

Lemma elem_of_positions l i b : (i, b) ∈ positions l <-> l !! i = Some b.
Proof.
  unfold positions. rewrite elem_of_lookup_imap. split.
  - intros (j & c & E & H). by injection E as -> ->.
  - intros H. eauto.
Qed.
Lemma positions_nodup l : NoDup (positions l).*1.
Proof.
  unfold positions. assert (X : forall (f : nat -> nat), (forall i j, f i = f j -> i = j) -> NoDup (imap (fun i k => (f i, k)) l).*1).
  { induction l as [|c l IH]; intros f Hf; cbn; [constructor|]. constructor.
    - intros Y. apply elem_of_list_fmap in Y as ([j c'] & E & Y). cbn in E. subst j.
      apply elem_of_lookup_imap in Y as (j & d & E & _). cbn in E. injection E as E _. apply Hf in E. lia.
    - apply (IH (f ∘ S)). intros i j E. apply Hf in E. lia. }
  by apply (X id).
Qed.

Lemma release_ok m0 K : forall f, rel_ok m0 K f (release_fuel f).
Proof.
  induction f as [|f IH]; intros e D s I Hs R; [lia|]. cbn [release_fuel]. destruct e as [g|].
  2:{ exists s. split; [done|]. split; [done|]. split; [apply gone_refl|]. intros ? [? ?] ?; congruence. }
  pose proof I as (C & W & F). pose proof (inv_bounds _ _ _ _ _ g I) as [Ba Bb].
  assert (Ag : A (Some g) s g = S (members (hc <$> shs s) g)) by (unfold A; rewrite bump_self; lia).
  assert (Ao : forall h, h <> g -> A (Some g) s h = A None s h) by (intros; unfold A; by rewrite bump_ne, bump_none).
  destruct (members (hc <$> shs s) g) as [|n] eqn:Em.
  - (* the last shared handle *)
    destruct (release_last _ _ _ _ _ g C Ag) as (s1 & k & -> & Hk & [S1 S2] & O1 & Gb & C1). cbn [obind].
    change (0 =? 0)%Z with true. cbv iota.
    assert (Dg : g ∉ D) by (intros X; pose proof (core_gone _ _ _ _ _ C g X); lia).
    assert (Gg : goes m0 g).
    { constructor. intros l E. destruct R as [_ R]. destruct (R l g E) as [X|X]; [|done].
      exfalso. by apply (members_zero _ _ Em l). }
    set (s2 := if has_object k then started g s1 else s1) in *.
    assert (H2 : forall b, hs b s2 = hs b s) by (intros b; unfold s2; destruct (has_object k), b; cbn; congruence).
    assert (O2 : objs s2 = if has_object k then delete g (objs s) else objs s) by (unfold s2; destruct (has_object k); cbn; congruence).
    assert (Og : objs s !! g = body k) by (rewrite (ent_obj _ _ _ _ _ _ (core_ent _ _ _ _ _ C g k Hk)), Ag; done).
    assert (N2 : nxt s2 = nxt s) by (rewrite (core_nxt _ _ _ _ _ C), (core_nxt _ _ _ _ _ C1); done).
    assert (O2' : forall o, o <> g -> objs s2 !! o = objs s !! o).
    { intros o N. rewrite O2. destruct (has_object k); [|done]. by rewrite lookup_delete_ne. }
    assert (O2g : objs s2 !! g = None).
    { rewrite O2. destruct k; cbn in *; [done|]. apply lookup_delete. }
    assert (I2 : inv K None None ({[g]} ∪ D) s2).
    { split; [|split].
      - eapply core_ext; [exact C1| |].
        + intros h. unfold upd, A. pose proof (H2 true) as X. cbn in X. rewrite X. case_decide as Y; [subst; rewrite Em; done|].
          by rewrite bump_ne, bump_none.
        + intros h. unfold B. pose proof (H2 false) as X. cbn in X. by rewrite X.
      - intros b o i. rewrite H2. destruct (W b o i) as [W1 W2]. split.
        + intros X. destruct (W1 X) as (k' & ? & ? & [?|?]); exists k'; (split; [done|]); (split; [done|]); [|right; set_solver].
          destruct (decide (o = g)) as [->|N]; [right; set_solver|left; by rewrite O2'].
        + intros k' ? X ?. destruct (decide (o = g)) as [->|N]; [rewrite O2g in X; by destruct X|]. rewrite O2' in X by done. eauto.
      - unfold fits. pose proof (H2 true) as X. pose proof (H2 false) as Y. cbn in X, Y. by rewrite X, Y. }
    assert (G2 : gone ∅ s s2).
    { split; [done|]. split; [|intros; left; by rewrite H2]. intros o. destruct (decide (o = g)) as [->|N]; [by right|left; auto]. }
    assert (Y2 : rightly m0 s s2).
    { intros o P Q. destruct (decide (o = g)) as [->|N]; [done|]. rewrite O2' in Q by done. rewrite Q in P. by destruct P. }
    assert (Hd : exists s3, dispose (release_fuel f) g s1 = Ok s3 /\ inv K None None ({[g]} ∪ D) s3 /\ gone {[g]} s2 s3 /\ rightly m0 s2 s3 /\
      forall b i, hs b s3 !! Field g i = None).
    { unfold dispose. rewrite Gb. cbn [obind ptr]. unfold target. destruct k as [|self l].
      - cbn in s2. exists s1. split; [done|]. split; [done|]. split; [apply gone_refl|]. split; [intros ? [? ?] ?; unfold s2 in *; congruence|].
        intros b i. destruct (hs b s1 !! Field g i) eqn:X; [|done]. exfalso.
        destruct (I2) as (_ & W' & _). destruct (W' b g i) as [W1 _]. destruct W1 as (k' & E1 & E2 & _); [by eexists|].
        simplify_eq.
      - cbn [has_object] in *. unfold delete_obj. rewrite O1, Og. cbn [body of_option obind lay].
        change {| blocks := blocks s1; objs := delete g (objs s); shs := shs s1; wks := wks s1; nxt := nxt s1;
                  destroyed := destroyed s1 ++ [g]; freed := freed s1 |} with
          {| blocks := blocks s1; objs := delete g (objs s); shs := shs s1; wks := wks s1; nxt := nxt s1;
                  destroyed := destroyed s1 ++ [g]; freed := freed s1 |}.
        rewrite <- O1. fold (started g s1). fold s2.
        destruct (end_fields_ok m0 K f (release_fuel f) g IH (rev (positions (layout (RObj self l)))) ({[g]} ∪ D) s2) as (s3 & E3 & I3 & G3 & Y3 & N3).
        + done.
        + set_solver.
        + rewrite O2. assert (size (objs s) = S (size (delete g (objs s)))); [|lia].
          rewrite map_size_delete_Some by (rewrite Og; done).
          assert (size (objs s) <> 0); [|lia]. rewrite map_size_non_empty_iff. intros X. rewrite X in Og. done.
        + eapply right_gone; [| |exact Y2|].
          * split; [|apply R]. intros o X. apply elem_of_union in X as [X|X]; [apply elem_of_singleton in X as ->; done|]. by apply R.
          * exact G2.
          * intros o X. by apply elem_of_empty in X.
        + rewrite rev_alt. fold (reverse (positions (layout (RObj self l)))). rewrite reverse_Permutation. apply positions_nodup.
        + intros i b X. rewrite rev_alt in X. fold (reverse (positions (layout (RObj self l)))) in X.
          apply elem_of_reverse, elem_of_positions in X. rewrite H2. destruct (W b g i) as [_ W2]. apply (W2 _ Hk); [by rewrite Og|done].
        + exists s3. split; [exact E3|]. split; [done|]. split; [done|]. split; [done|]. intros b i.
          destruct (hs b s3 !! Field g i) eqn:X; [|done]. exfalso. destruct (I3) as (_ & W' & _).
          destruct (W' b g i) as [W1 _]. destruct W1 as (k' & E1 & E2 & _); [by eexists|]. simplify_eq.
          rewrite N3 in X; [done|]. rewrite rev_alt. fold (reverse (positions (layout (RObj self l)))).
          by apply elem_of_reverse, elem_of_positions. }
    destruct Hd as (s3 & -> & I3 & G3 & Y3 & N3). cbn [obind].
    destruct (weak_last K (A None s3) (B None s3) ({[g]} ∪ D) s3 g) as (s4 & -> & C4 & S4 & O4 & _); [apply I3|set_solver| |].
    { pose proof (inv_bounds _ _ _ _ _ g I3). lia. }
    replace (({[g]} ∪ D) ∖ {[g]}) with D in C4 by set_solver.
    assert (N4 : nxt s4 = nxt s3) by (destruct I3 as (C3 & _); rewrite (core_nxt _ _ _ _ _ C3), (core_nxt _ _ _ _ _ C4); done).
    assert (G4 : gone {[g]} s2 s4) by (eapply gone_trans; [done|]; by apply gone_same).
    assert (H4 : forall b, hs b s4 = hs b s3) by (intros []; apply S4).
    exists s4. split; [done|]. split; [|split].
    + split; [|split].
      * unfold A, B in *. destruct S4 as [-> ->]. done.
      * intros b o i. rewrite H4, O4. destruct I3 as (_ & W3 & _). destruct (W3 b o i) as [W1 W2]. split; [|done].
        intros X. destruct (W1 X) as (k' & E1 & E2 & [?|E3]); [eauto 10|]. exists k'. split; [done|]. split; [done|]. right.
        apply elem_of_union in E3 as [E3|E3]; [|done]. apply elem_of_singleton in E3 as ->. rewrite N3 in X. by destruct X.
      * destruct I3 as (_ & _ & F3). unfold fits in *. by destruct S4 as [-> ->].
    + destruct G4 as (N24 & O24 & H24). split; [congruence|]. split.
      * intros o. destruct (O24 o) as [X|X]; [|auto]. rewrite X. apply G2.
      * intros b l. destruct (H24 b l) as [X|(o & i & -> & X & [[P Q]|P])].
        -- left. by rewrite X, H2.
        -- right. exists o, i. split; [done|]. split; [done|]. left. split; [|done].
           destruct (decide (o = g)) as [->|N]; [rewrite O2g in P; by destruct P|]. by rewrite O2' in P.
        -- apply elem_of_singleton in P as ->. destruct (hs b s !! Field g i) eqn:Y; [|left; congruence].
           right. exists g, i. split; [done|]. split; [done|]. left. destruct (W b g i) as [W1 _].
           destruct W1 as (k' & E1 & E2 & [E3|E3]); [by eexists| |done]. split; [done|].
           destruct (O24 g) as [Z|Z]; [by rewrite Z|done].
    + eapply rightly_trans; [exact G2|done|]. intros o P Q. apply Y3; [done|]. by rewrite <- O4.
  - (* others remain *)
    destruct (release_more _ _ _ _ _ g C) as (s' & -> & C' & Sm & O); [lia|lia|]. cbn [obind]. rewrite Ag.
    replace (Z.of_nat (S (S n) - 1) =? 0)%Z with false by (symmetry; apply Z.eqb_neq; lia). cbv iota.
    assert (N' : nxt s' = nxt s) by (rewrite (core_nxt _ _ _ _ _ C), (core_nxt _ _ _ _ _ C'); done).
    exists s'. split; [done|]. split; [|split; [by apply gone_same|]].
    + eapply (inv_same _ _ _ _ _ D D _ _ I); [|done|done|done]. eapply core_ext; [exact C'| |done].
      intros h. unfold upd. case_decide as X; [subst; rewrite Ag; unfold A; rewrite bump_none; lia|by apply Ao].
    + intros o [? ?] ?. congruence.
Qed.

(** ~shared_count *)
Lemma shared_count_release_ok K e D s m0 : inv K e None D s -> right_so m0 D s ->
  exists s', shared_count_release e s = Ok s' /\ inv K None None D s' /\ gone ∅ s s' /\ rightly m0 s s'.
Proof. intros I R. apply (release_ok m0 K (S (size (objs s))) e D s); [done|lia|done]. Qed.
