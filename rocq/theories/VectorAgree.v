(** What is right by [sstep] is what [xstep] says. *)
From stdpp Require Import gmap list.
From Coq Require Import ZArith Lia ZifyBool ZifyNat.
From Verif Require Import Base ObjModel VectorModel VectorSpec VectorRun VectorExactSpec.
Local Open Scope Z_scope.

Section agree.
Context {A : Type} (dflt : A) (smk : bool).
Implicit Types (s : gmap nat (list A)) (l : list A).
Definition lift s : gmap nat (list (option A)) := (fun l => Some <$> l) <$> s.

Lemma lift_lookup s x : lift s !! x = (fun l => Some <$> l) <$> (s !! x).
Proof. apply lookup_fmap. Qed.
Lemma lift_new s x l s' : new s x l = Some s' -> new (lift s) x (Some <$> l) = Some (lift s').
Proof. unfold new. rewrite lift_lookup. destruct (s !! x); [discriminate|]. intros [= <-]. cbn. f_equal. unfold lift. rewrite fmap_insert. reflexivity. Qed.
Lemma lift_on s x f g s' : on s x f = Some s' -> (forall l l', s !! x = Some l -> f l = Some l' -> g (Some <$> l) = Some (Some <$> l')) -> on (lift s) x g = Some (lift s').
Proof.
  unfold on. rewrite lift_lookup. destruct (s !! x) as [l|] eqn:E; [|discriminate]. destruct (f l) as [l'|] eqn:F; [|discriminate].
  intros [= <-] H. cbn. rewrite (H l l' eq_refl F). f_equal. unfold lift. rewrite fmap_insert. reflexivity.
Qed.
Lemma zlen_lift l : zlen (Some <$> l) = zlen l.
Proof. unfold zlen. rewrite fmap_length. reflexivity. Qed.
Lemma ztake_lift i l : ztake i (Some <$> l) = Some <$> ztake i l.
Proof. unfold ztake. rewrite fmap_take. reflexivity. Qed.
Lemma zdrop_lift i l : zdrop i (Some <$> l) = Some <$> zdrop i l.
Proof. unfold zdrop. rewrite fmap_drop. reflexivity. Qed.

Lemma step_agree s c s' : sstep dflt smk s c = Some s' -> formed (lift s) c /\ xstep dflt smk (lift s) c = Some (lift s').
Proof.
  intros H. destruct c as [x|x l|x n a|x n|x y|x y|x|x a|x a|x i a|x i a|x a|x i a|x i|x i j|x|x|x n|x n|x|x y|x y|x y];
    cbn [sstep xstep formed] in *.
  all: try (split; [exact I|]).
  - exact (lift_new _ _ _ _ H).
  - exact (lift_new _ _ _ _ H).
  - destruct (Z.leb_spec 0 n); [|discriminate]. split; [assumption|]. rewrite <- fmap_replicate. exact (lift_new _ _ _ _ H).
  - destruct (Z.leb_spec 0 n); [|discriminate]. split; [assumption|]. rewrite <- fmap_replicate. exact (lift_new _ _ _ _ H).
  - rewrite lift_lookup. destruct (s !! y) as [l|]; [|discriminate]. cbn. exact (lift_new _ _ _ _ H).
  - rewrite lift_lookup. destruct (s !! y) as [l|]; [|discriminate]. cbn. apply lift_new in H. unfold lift in H |- *. rewrite fmap_insert in H. exact H.
  - rewrite lift_lookup. destruct (s !! x) as [l|]; [|discriminate]. injection H as <-. cbn. f_equal. unfold lift. rewrite fmap_delete. reflexivity.
  - apply (lift_on _ _ _ _ _ H). intros l l' _ [= <-]. rewrite fmap_app. reflexivity.
  - apply (lift_on _ _ _ _ _ H). intros l l' _ [= <-]. reflexivity.
  - pose proof H as H'. apply on_Some in H' as (l & l' & Hx & Hw & _). apply when_Some in Hw as [Hw _].
    split; [split; [lia|]; intros k Hk; rewrite lift_lookup, Hx in Hk; injection Hk as <-; rewrite zlen_lift; lia|].
    apply (lift_on _ _ _ _ _ H). intros k k' _ Hk. apply when_Some in Hk as [_ ->]. rewrite ztake_lift, zdrop_lift, fmap_app. reflexivity.
  - pose proof H as H'. apply on_Some in H' as (l & l' & Hx & Hw & _). apply when_Some in Hw as [Hw _].
    split; [split; [lia|]; intros k Hk; rewrite lift_lookup, Hx in Hk; injection Hk as <-; rewrite zlen_lift; lia|].
    apply (lift_on _ _ _ _ _ H). intros k k' _ Hk. apply when_Some in Hk as [_ ->]. rewrite ztake_lift, zdrop_lift, fmap_app. reflexivity.
  - apply (lift_on _ _ _ _ _ H). intros l l' _ [= <-]. rewrite fmap_app. reflexivity.
  - pose proof H as H'. apply on_Some in H' as (l & l' & Hx & Hw & _). apply when_Some in Hw as [Hw _]. split; [lia|].
    apply (lift_on _ _ _ _ _ H). intros k k' _ Hk. apply when_Some in Hk as [Hk ->]. rewrite ztake_lift, zdrop_lift, zlen_lift, fmap_app.
    unfold when. replace (i <? zlen k) with true by lia. reflexivity.
  - pose proof H as H'. apply on_Some in H' as (l & l' & Hx & Hw & _). apply when_Some in Hw as [Hw _].
    split; [split; [lia|]; intros k Hk; rewrite lift_lookup, Hx in Hk; injection Hk as <-; rewrite zlen_lift; lia|].
    apply (lift_on _ _ _ _ _ H). intros k k' _ Hk. apply when_Some in Hk as [Hk ->]. rewrite !ztake_lift, zdrop_lift, !zlen_lift, fmap_app.
    unfold when. replace (0 <? zlen k) with true by lia. replace (i <? zlen k) with true by lia. reflexivity.
  - pose proof H as H'. apply on_Some in H' as (l & l' & Hx & Hw & _). apply when_Some in Hw as [Hw _].
    apply andb_true_iff in Hw as [Hw _].
    split; [split; [lia|split; [lia|]]; intros k Hk; rewrite lift_lookup, Hx in Hk; injection Hk as <-; rewrite zlen_lift; lia|].
    apply (lift_on _ _ _ _ _ H). intros k k' _ Hk. apply when_Some in Hk as [Hk ->]. apply andb_true_iff in Hk as [Hk Ho].
    unfold when. replace (i <=? j) with true by lia. f_equal. unfold xerase. rewrite ztake_lift, zdrop_lift, zlen_lift.
    destruct (smk || (i <? j)) eqn:E; [rewrite fmap_app; reflexivity|]. assert (j = zlen k) as -> by (destruct smk; [discriminate|]; cbn in *; lia).
    rewrite fmap_app, Z.sub_diag. cbn. f_equal. unfold zdrop, zlen. rewrite Nat2Z.id, drop_all. reflexivity.
  - apply (lift_on _ _ _ _ _ H). intros k k' _ Hk. apply when_Some in Hk as [Hk ->]. rewrite ztake_lift, zlen_lift.
    unfold when. rewrite Hk. reflexivity.
  - apply (lift_on _ _ _ _ _ H). intros k k' _ Hk. apply when_Some in Hk as [Hk ->]. rewrite zdrop_lift, zlen_lift.
    unfold when. rewrite Hk. reflexivity.
  - pose proof H as H'. apply on_Some in H' as (l & l' & Hx & Hw & _). apply when_Some in Hw as [Hw _]. split; [lia|].
    apply (lift_on _ _ _ _ _ H). intros k k' _ Hk. apply when_Some in Hk as [Hk ->]. unfold pad. rewrite ztake_lift, zlen_lift, fmap_app, fmap_replicate. reflexivity.
  - pose proof H as H'. apply on_Some in H' as (l & l' & Hx & Hw & _). apply when_Some in Hw as [Hw _]. split; [lia|].
    apply (lift_on _ _ _ _ _ H). intros k k' _ Hk. apply when_Some in Hk as [Hk ->]. reflexivity.
  - apply (lift_on _ _ _ _ _ H). intros k k' _ [= <-]. reflexivity.
  - rewrite lift_lookup. destruct (s !! y) as [l|]; [|discriminate]. cbn. apply (lift_on _ _ _ _ _ H). intros k k' _ [= <-]. reflexivity.
  - rewrite lift_lookup. destruct (s !! y) as [l|]; [|discriminate]. cbn. eapply lift_on in H; [unfold lift in H; rewrite fmap_insert in H; exact H|].
    intros k k' _ [= <-]. reflexivity.
  - rewrite !lift_lookup. destruct (s !! x) as [l|]; [|discriminate]. destruct (s !! y) as [k|]; [|discriminate]. injection H as <-. cbn.
    f_equal. unfold lift. rewrite !fmap_insert. reflexivity.
Qed.
Lemma run_agree cs : forall s s', srun dflt smk s cs = Some s' -> xrun dflt smk (lift s) cs = Some (lift s').
Proof.
  induction cs as [|c cs IH]; intros s s' H; cbn in *; [congruence|]. destruct (sstep dflt smk s c) as [s1|] eqn:E; [|discriminate].
  destruct (step_agree _ _ _ E) as [_ ->]. exact (IH _ _ H).
Qed.
Lemma sizes_lift M s : sizes_ok M s -> sizes_ok M (lift s).
Proof. intros H x l Hl. rewrite lift_lookup in Hl. destruct (s !! x) as [k|] eqn:E; [|discriminate]. injection Hl as <-. rewrite zlen_lift. exact (H _ _ E). Qed.
Lemma formed_agree M cs : forall s s', srun dflt smk s cs = Some s' -> within dflt smk M s cs -> formed_run dflt smk M (lift s) cs.
Proof.
  induction cs as [|c cs IH]; intros s s' H W; cbn [srun within formed_run] in *; [exact I|]. destruct (sstep dflt smk s c) as [s1|] eqn:E; [|discriminate].
  destruct (step_agree _ _ _ E) as [F X]. destruct W as [R W]. destruct (W _ eq_refl) as [S1 W1]. split; [exact F|]. split; [exact R|].
  intros s2. rewrite X. intros [= <-]. split; [apply sizes_lift; exact S1|exact (IH _ _ H W1)].
Qed.
End agree.
Lemma agree {A} (dflt : A) smk M cs s : srun dflt smk ∅ cs = Some s -> within dflt smk M ∅ cs ->
  formed_run dflt smk M ∅ cs /\ xrun dflt smk ∅ cs = Some (((fun l : list A => Some <$> l : list (option A)) <$> s) : gmap nat (list (option A))).
Proof.
  intros H W. pose proof (run_agree dflt smk cs _ _ H) as X. pose proof (formed_agree dflt smk M cs _ _ H W) as F.
  unfold lift in X, F. rewrite fmap_empty in X, F. auto.
Qed.
